(** C112: masked answers of different sessions. *)
From Coq Require Import ZArith Lia List Bool Arith Permutation Field.
From Verif Require Import PrimeL Fq Poly Bytes Res Mem Sodium LinSolve OprfModel OprfSpec OprfProofs ToprfModel ToprfSpec ToprfProofs DkgModel DkgProofs.
From Verif Require Import SecrecySpec Secrecy UseSpec UpdateSpec MixSpec.
Import ListNotations.
Open Scope list_scope.
Open Scope Z_scope.

(** toprf_thresholdmult of any points *)
Lemma weighted R : ristretto_ok R -> forall qs parts (beta : share -> rG R) junk,
  Forall index_ok (map s_index qs) -> (length qs <= 255)%nat ->
  Forall2 (fun s p => p_index p = s_index s /\ p_value p = renc R (beta s) /\ beta s <> rzero R) qs parts ->
  length junk = length parts ->
  thresholdmult R parts junk = Ok (0, renc R (gsum R (map (fun s => gmul R (of_Z (coeff (s_index s) (map s_index qs))) (beta s)) qs))).
Proof.
  intros HR qs parts beta junk Q2 Q4 HE2 Hj.
  pose proof (Forall2_length' _ _ _ HE2) as HL.
  assert (Hidx : map p_index parts = map s_index qs).
  { apply Forall2_map_index. eapply Forall2_impl'; [|exact HE2]. cbn. tauto. }
  set (lam := fun s => of_Z (coeff (s_index s) (map s_index qs))).
  assert (HE3 : Forall2 (fun s p => contrib R (map p_index parts) p = Some (gmul R (lam s) (beta s))) qs parts).
  { rewrite Hidx. unfold lam.
    assert (Hall : forall s, In s qs -> index_ok (s_index s)).
    { intros s Hs. eapply Forall_forall; [exact Q2|]. apply in_map; assumption. }
    generalize (map s_index qs), Q2. intros idx Q2'. clear -HR HE2 Q2' Hall. revert Hall.
    induction HE2 as [|s p qs' parts' (E1 & E2 & Hne) HE IH]; intros Hall; constructor.
    - unfold contrib. rewrite E2, (ok_dec_enc _ HR), E1. cbv zeta.
      destruct (bytes_eqb _ _) eqn:EB; [|reflexivity]. exfalso.
      apply (renc_zero_iff R HR) in EB. apply (gmul_eq_0 R HR) in EB. destruct EB as [EB|]; [|contradiction].
      revert EB. apply coeff_neq_0; [apply Hall; left; reflexivity|assumption].
    - apply IH. intros s' Hs'. apply Hall. right; assumption. }
  destruct (thresholdmult_spec R HR parts junk ltac:(lia) Hj) as (H1 & _). rewrite H1.
  - do 3 f_equal.
    rewrite (Forall2_gsum R (fun s => gmul R (lam s) (beta s)) (contrib0 R (map p_index parts)) qs parts).
    2:{ eapply Forall2_impl'; [|exact HE3]. cbn. intros s p E. unfold contrib0. rewrite E. reflexivity. }
    reflexivity.
  - intros p Hp. revert Hp. clear -HE3. set (idx := map p_index parts) in *. clearbody idx.
    induction HE3 as [|s q qs' parts' E _ IH]; intros Hp; [destruct Hp|].
    destruct Hp as [<-|Hp]; [congruence|apply IH; assumption].
Qed.

Lemma mixed_sum R : ristretto_ok R -> forall cs z qs parts P h h' j junk,
  NoDup (map s_index qs) -> Forall index_ok (map s_index qs) -> (length cs <= length qs)%nat -> (length qs <= 255)%nat ->
  (forall s, In s qs -> of_Z (s_value s) = of_Z (poly cs (s_index s))) -> (length z + 1 <= length qs)%nat ->
  let zval := fun s => poly (0 :: z) (s_index s) mod L in
  let beta := fun s => radd R (gmul R (of_Z (s_value s)) P) (gmul R (of_Z (zval s)) (if s_index s =? j then h' else h)) in
  Forall2 (fun s p => p_index p = s_index s /\ p_value p = renc R (beta s) /\ beta s <> rzero R) qs parts ->
  length junk = length parts -> (forall s, In s qs -> s_index s = j -> of_Z (zval s) <> 0%fq) ->
  exists B, thresholdmult R parts junk = Ok (0, renc R B) /\ (B = gmul R (of_Z (poly cs 0)) P <-> (~ In j (map s_index qs) \/ h = h')).
Proof.
  intros HR cs z qs parts P h h' j junk Q1 Q2 Q3 Q4 Q5 Hz zval beta HE2 Hj HZ0.
  eexists. split; [apply (weighted R HR qs parts beta junk Q2 Q4 HE2 Hj)|].
  set (lam := fun s => of_Z (coeff (s_index s) (map s_index qs))). set (D := radd R h' (gmul R (0 - 1)%fq h)).
  assert (HD : radd R h D = h').
  { unfold D. rewrite <- (gmul_1 R h) at 1. rewrite (radd_comm R HR h'), (radd_assoc R HR), <- (gmul_add R HR). replace (1 + (0 - 1))%fq with 0%fq by ring. rewrite (gmul_0 R). apply (radd_0_l R HR). }
  set (c := fun s => if s_index s =? j then (lam s * of_Z (zval s))%fq else 0%fq).
  rewrite (gsum_map_ext R (fun s => gmul R (lam s) (beta s))
               (fun s => radd R (radd R (gmul R (lam s * of_Z (s_value s))%fq P) (gmul R (lam s * of_Z (zval s))%fq h)) (gmul R (c s) D))).
  2:{ intros s _. unfold beta, c. rewrite (gmul_add_distr R HR), <- !(gmul_mul R HR). rewrite <- (radd_assoc R HR). f_equal. destruct (s_index s =? j).
      - rewrite <- (gmul_add_distr R HR), HD. reflexivity.
      - rewrite (gmul_0 R), (radd_0_r R HR). reflexivity. }
  rewrite !(gsum_map_add R HR), !(gsum_gmul R HR).
    assert (EK : fsum (map (fun s => (lam s * of_Z (s_value s))%fq) qs) = of_Z (poly cs 0)).
    { apply coeff_interpolate; assumption. }
    assert (EZ : fsum (map (fun s => (lam s * of_Z (zval s))%fq) qs) = 0%fq).
    { set (zq := map (fun s => mkShare (s_index s) (zval s)) qs).
      assert (Ez : map s_index zq = map s_index qs) by (unfold zq; rewrite map_map; reflexivity).
      transitivity (fsum (map (fun s => of_Z (coeff (s_index s) (map s_index zq)) * of_Z (s_value s))%fq zq)).
      - rewrite Ez. unfold zq. rewrite map_map. reflexivity.
      - change 0%fq with (of_Z 0). rewrite <- (poly_cons_0 0 z). apply coeff_interpolate.
        + rewrite Ez. assumption.
        + rewrite Ez. assumption.
        + unfold zq. rewrite map_length. cbn [length]. lia.
        + intros s Hs. unfold zq in Hs. apply in_map_iff in Hs. destruct Hs as (s' & <- & _).
          cbn [s_value s_index]. unfold zval. apply of_Z_mod. }
  rewrite EK, EZ, (gmul_0 R), (radd_0_r R HR).
  destruct (in_dec Z.eq_dec j (map s_index qs)) as [Hin|Hin].
  - apply in_map_iff in Hin. destruct Hin as (s & Es & Hs).
    assert (Ec : fsum (map c qs) = (lam s * of_Z (zval s))%fq).
    { rewrite (fsum_single c qs s); [unfold c; rewrite Es, Z.eqb_refl; reflexivity|eapply NoDup_map_inv; exact Q1|exact Hs|].
      intros s' Hs' Hne. unfold c. destruct (Z.eqb_spec (s_index s') j) as [E'|_]; [|reflexivity]. exfalso. apply Hne. rewrite <- Es in E'. clear -Q1 Hs Hs' E'.
      induction qs as [|a qs IH]; [contradiction|]. cbn [map] in Q1. inversion Q1 as [|? ? N1 N2]; subst. destruct Hs as [<-|Hs], Hs' as [<-|Hs']; [reflexivity| | |apply IH; assumption].
      + exfalso. apply N1. rewrite <- E'. apply in_map, Hs'.
      + exfalso. apply N1. rewrite E'. apply in_map, Hs. }
    rewrite Ec. split.
    + intros E. right. rewrite <- (radd_0_r R HR (gmul R (of_Z (poly cs 0)) P)) in E at 2. apply (radd_cancel_l R HR) in E. apply (gmul_eq_0 R HR) in E. destruct E as [E|E].
      * exfalso. apply fmul_integral in E. destruct E as [E|E]; [|exact (HZ0 s Hs Es E)]. revert E. apply coeff_neq_0; [|exact Q2]. rewrite Forall_forall in Q2. apply Q2, in_map, Hs.
      * rewrite <- HD, E, (radd_0_r R HR). reflexivity.
    + intros [Hn|<-]; [exfalso; apply Hn; rewrite <- Es; apply in_map, Hs|].
      assert (D0 : D = rzero R) by (apply (radd_cancel_l R HR h); rewrite HD, (radd_0_r R HR); reflexivity). rewrite D0, (gmul_zero R HR), (radd_0_r R HR). reflexivity.
  - assert (Ec : fsum (map c qs) = 0%fq).
    { apply fsum_map_zero. intros s Hs. unfold c. destruct (Z.eqb_spec (s_index s) j) as [E'|_]; [|reflexivity]. exfalso. apply Hin. rewrite <- E'. apply in_map, Hs. }
    rewrite Ec, (gmul_0 R), (radd_0_r R HR). tauto.
Qed.

Lemma tdh_mask_used R H : ristretto_ok R -> hashes_ok H -> forall k z alpha ssid i v, 0 <= s_value z < 2 ^ 255 ->
  toprf_3hashtdh R H true k z alpha ssid = Ok (0, (i, Some v)) -> of_Z (s_value z) <> 0%fq.
Proof.
  intros HR HH k z alpha ssid i v Hz. unfold toprf_3hashtdh.
  destruct (oprf_Evaluate R (s_value k) alpha) as (r1 & b1) eqn:E1.
  destruct (Z.eqb_spec r1 0) as [->|]; cbn [negb]; [|discriminate].
  rewrite (htg_eq R H HH). cbn [bind]. rewrite Z.eqb_refl. cbn [negb].
  destruct (oprf_Evaluate R (s_value z) _) as (r3 & h2) eqn:E3.
  destruct (Z.eqb_spec r3 0) as [->|]; cbn [negb]; [|discriminate].
  destruct b1 as [b|]; [|discriminate]. destruct h2 as [h|]; [|discriminate]. intros _ E0.
  apply (evaluate_ok R HR _ _ _ _ (ok_dec_enc _ HR _) Hz) in E3. destruct E3 as (_ & E3). apply E3. rewrite E0. apply (gmul_0 R).
Qed.

Lemma mixed R H K d zsh alpha P ssid j ssid' qs parts junk : ristretto_ok R -> hashes_ok H -> shares_key K d -> shares_key 0 (mkDep (d_n d) (d_t d) zsh) -> quorum (d_t d) (d_shares d) qs ->
  rdec R alpha = Some P -> answers_mixed R H zsh alpha ssid j ssid' qs parts -> length junk = length parts ->
  exists beta, thresholdmult R parts junk = Ok (0, beta) /\ (beta = renc R (rsmul R K P) <-> (~ In j (map s_index qs) \/ mask_point R H ssid alpha = mask_point R H ssid' alpha)).
Proof.
  intros HR HH (a & buf & SP & E) (z & zb & SZ & EZs) HQ HD HE Hj. cbn [d_n d_t d_shares] in SZ, EZs. apply (created _ _ _ _ _ _ SP) in E. rewrite E in HQ. apply (created _ _ _ _ _ _ SZ) in EZs. subst zsh.
  destruct (quorum_ready _ _ _ _ _ _ SP HQ) as (Q1 & Q2 & Q3 & Q4 & Q5). pose proof SP as (KL & _ & _ & La & _). pose proof SZ as (_ & Hn & _ & Lz & _). pose proof L_lt_2_255 as L255.
  set (zval := fun s => poly (0 :: z) (s_index s) mod L). set (h := mask_point R H ssid alpha). set (h' := mask_point R H ssid' alpha).
  set (beta := fun s => radd R (gmul R (of_Z (s_value s)) P) (gmul R (of_Z (zval s)) (if s_index s =? j then h' else h))).
  assert (HE2 : Forall2 (fun s p => (p_index p = s_index s /\ p_value p = renc R (beta s) /\ beta s <> rzero R) /\ of_Z (zval s) <> 0%fq) qs parts).
  { assert (Q5' : forall s, In s qs -> 0 <= s_value s < L) by (intros s Hs; apply (Q5 s Hs)). clear -HR HH HD HE Q5' Hn L255. unfold answers_mixed in HE. induction HE as [|s p qs parts (zs & Hz & Ei & ET & Hne) _ IH]; constructor.
    - apply shares_of_In in Hz; [|lia]. destruct Hz as (Hzi & Hzv). pose proof (mod_L_range (poly (0 :: z) (s_index zs))) as Hzr. specialize (Q5' s (or_introl eq_refl)).
      pose proof (tdh_mask_used R H HR HH _ _ _ _ _ _ ltac:(rewrite Hzv; lia) ET) as Z0. rewrite Hzv, Ei in Z0.
      apply (tdh_ok R H HR HH _ _ _ _ _ _ _ HD) in ET; [|lia|lia]. destruct ET as (E1 & E2). rewrite Hzv, Ei in E2.
      assert (E3 : p_value p = renc R (beta s)) by (rewrite E2; unfold beta, zval, h, h', mask_point; destruct (s_index s =? j); reflexivity).
      split; [|exact Z0]. split; [assumption|]. split; [exact E3|]. intros E0. apply Hne. rewrite E3, E0. apply (ok_enc_zero _ HR).
    - apply IH. intros s' Hs'. apply Q5'. right; assumption. }
  destruct (mixed_sum R HR (K :: a) z qs parts P h h' j junk Q1 Q2 Q3 Q4) as (B & EB & HB).
  - intros s Hs. apply Q5, Hs.
  - cbn [length] in Q3. lia.
  - eapply Forall2_impl'; [|exact HE2]. cbv beta. tauto.
  - exact Hj.
  - intros s Hs _. clear -HE2 Hs. induction HE2 as [|s0 p qs parts (_ & H0) _ IH]; [contradiction|]. destruct Hs as [<-|Hs]; [exact H0|apply IH, Hs].
  - exists (renc R B). split; [exact EB|]. rewrite <- HB, poly_cons_0, (gmul_of_Z R HR) by lia. split; [apply (renc_inj R HR)|intros ->; reflexivity].
Qed.

Lemma sessions_apart R H K d zsh alpha P ssid j ssid' qs parts junk : ristretto_ok R -> hashes_ok H -> shares_key K d -> shares_key 0 (mkDep (d_n d) (d_t d) zsh) -> quorum (d_t d) (d_shares d) qs ->
  rdec R alpha = Some P -> answers_mixed R H zsh alpha ssid j ssid' qs parts -> length junk = length parts ->
  Z.of_nat (length ssid) < 2 ^ 16 -> Z.of_nat (length ssid') < 2 ^ 16 -> ssid <> ssid' -> In j (map s_index qs) ->
  (blake2b H 64 (mask_input ssid alpha) = blake2b H 64 (mask_input ssid' alpha) -> mask_input ssid alpha = mask_input ssid' alpha) ->
  (HashToGroup R H (blake2b H 64 (mask_input ssid alpha)) = HashToGroup R H (blake2b H 64 (mask_input ssid' alpha)) -> blake2b H 64 (mask_input ssid alpha) = blake2b H 64 (mask_input ssid' alpha)) ->
  exists beta, thresholdmult R parts junk = Ok (0, beta) /\ beta <> renc R (rsmul R K P).
Proof.
  intros HR HH HK HZ HQ HD HE Hj L1 L2 Hne Hin C1 C2. destruct (mixed R H K d zsh alpha P ssid j ssid' qs parts junk HR HH HK HZ HQ HD HE Hj) as (beta & EB & HB).
  exists beta. split; [exact EB|]. intros Eb. apply HB in Eb. destruct Eb as [?|Em]; [contradiction|]. apply mask_bound in Em; [|exact L1|exact L2]. tauto.
Qed.
