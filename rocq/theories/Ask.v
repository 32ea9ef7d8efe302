(** C111: what a client computes with any shares. *)
From Coq Require Import ZArith Lia List Bool Arith Permutation Field.
From Verif Require Import PrimeL Fq Poly Bytes Res Mem Sodium LinSolve OprfModel OprfSpec OprfProofs ToprfModel ToprfSpec ToprfProofs DkgModel DkgProofs MpmultModel MpmultProofs.
From Verif Require Import UseSpec Use MulSpec MulUse UpdateSpec Update MisreportSpec Misreport AskSpec.
Import ListNotations.
Open Scope list_scope.
Open Scope Z_scope.

(** parts k_s * P + z_s * h, for any k_s and shares z_s of 0 *)
Lemma masked_any R : ristretto_ok R -> forall cs z qs parts P h junk,
  NoDup (map s_index qs) -> Forall index_ok (map s_index qs) -> (length cs <= length qs)%nat -> (length qs <= 255)%nat ->
  (forall s, In s qs -> of_Z (s_value s) = of_Z (poly cs (s_index s))) -> (length z + 1 <= length qs)%nat ->
  let zval := fun s => poly (0 :: z) (s_index s) mod L in
  let beta := fun s => radd R (gmul R (of_Z (s_value s)) P) (gmul R (of_Z (zval s)) h) in
  Forall2 (fun s p => p_index p = s_index s /\ p_value p = renc R (beta s) /\ beta s <> rzero R) qs parts ->
  length junk = length parts ->
  thresholdmult R parts junk = Ok (0, renc R (gmul R (of_Z (poly cs 0)) P)).
Proof.
  intros HR cs z qs parts P h junk Q1 Q2 Q3 Q4 Q5 Hz zval beta HE2 Hj.
  pose proof (Forall2_length' _ _ _ HE2) as HL.
  assert (Hidx : map p_index parts = map s_index qs).
  { apply Forall2_map_index. eapply Forall2_impl'; [|exact HE2]. cbn. tauto. }
  set (lam := fun s => of_Z (coeff (s_index s) (map s_index qs))).
  assert (HE3 : Forall2 (fun s p => contrib R (map p_index parts) p = Some (gmul R (lam s) (beta s))) qs parts).
  { rewrite Hidx. unfold lam.
    assert (Hall : forall s, In s qs -> index_ok (s_index s)).
    { intros s Hs. eapply Forall_forall; [exact Q2|]. apply in_map; assumption. }
    generalize (map s_index qs), Q2. intros idx Q2'. clear -HR HE2 Q2' Hall. revert Hall.
    induction HE2 as [|s p qs' parts' (E1 & E2 & Hne) HE IH]; intros Hall; constructor.
    - unfold contrib. rewrite E2, (ok_dec_enc _ HR), E1. cbv zeta.
      destruct (bytes_eqb _ _) eqn:EB; [|reflexivity]. exfalso.
      apply (renc_zero_iff R HR) in EB. apply (gmul_eq_0 R HR) in EB. destruct EB as [EB|]; [|contradiction].
      revert EB. apply coeff_neq_0; [apply Hall; left; reflexivity|assumption].
    - apply IH. intros s' Hs'. apply Hall. right; assumption. }
  destruct (thresholdmult_spec R HR parts junk ltac:(lia) Hj) as (H1 & _). rewrite H1.
  - do 3 f_equal.
    rewrite (Forall2_gsum R (fun s => gmul R (lam s) (beta s)) (contrib0 R (map p_index parts)) qs parts).
    2:{ eapply Forall2_impl'; [|exact HE3]. cbn. intros s p E. unfold contrib0. rewrite E. reflexivity. }
    rewrite (gsum_map_ext R (fun s => gmul R (lam s) (beta s))
               (fun s => radd R (gmul R (lam s * of_Z (s_value s))%fq P) (gmul R (lam s * of_Z (zval s))%fq h))).
    2:{ intros s _. unfold beta. rewrite (gmul_add_distr R HR), <- !(gmul_mul R HR). reflexivity. }
    rewrite (gsum_map_add R HR), !(gsum_gmul R HR).
    assert (EK : fsum (map (fun s => (lam s * of_Z (s_value s))%fq) qs) = of_Z (poly cs 0)).
    { apply coeff_interpolate; assumption. }
    assert (EZ : fsum (map (fun s => (lam s * of_Z (zval s))%fq) qs) = 0%fq).
    { set (zq := map (fun s => mkShare (s_index s) (zval s)) qs).
      assert (Ez : map s_index zq = map s_index qs) by (unfold zq; rewrite map_map; reflexivity).
      transitivity (fsum (map (fun s => of_Z (coeff (s_index s) (map s_index zq)) * of_Z (s_value s))%fq zq)).
      - rewrite Ez. unfold zq. rewrite map_map. reflexivity.
      - change 0%fq with (of_Z 0). rewrite <- (poly_cons_0 0 z). apply coeff_interpolate.
        + rewrite Ez. assumption.
        + rewrite Ez. assumption.
        + unfold zq. rewrite map_length. cbn [length]. lia.
        + intros s Hs. unfold zq in Hs. apply in_map_iff in Hs. destruct Hs as (s' & <- & _).
          cbn [s_value s_index]. unfold zval. apply of_Z_mod. }
    rewrite EK, EZ, (gmul_0 R), (radd_0_r R HR). reflexivity.
  - intros p Hp. revert Hp. clear -HE3. set (idx := map p_index parts) in *. clearbody idx.
    induction HE3 as [|s q qs' parts' E _ IH]; intros Hp; [destruct Hp|].
    destruct Hp as [<-|Hp]; [congruence|apply IH; assumption].
Qed.

(** any shares lie on a polynomial *)
Lemma some_poly qs : any_shares qs -> exists cs, (length cs <= length qs)%nat /\ (forall s, In s qs -> F (s_value s) = F (poly cs (s_index s))) /\ dkg_reconstruct qs = poly cs 0 mod L.
Proof.
  intros (ND & HF). assert (HX : Forall index_ok (map s_index qs)) by (apply Forall_map; eapply Forall_impl; [|exact HF]; cbv beta; unfold index_ok; intros; lia).
  set (v := fun x : Fq => match find (fun s => feqb (F (s_index s)) x) qs with Some s => F (s_value s) | None => 0%fq end).
  assert (Hu8 : Forall u8 (map s_index qs)) by (eapply Forall_impl; [|exact HX]; cbv beta; unfold u8, index_ok; intros; lia).
  destruct (interpolate_exists (map F (map s_index qs)) v) as (q & Lq & Hq); [apply F_NoDup; assumption|]. rewrite !map_length in Lq.
  exists (map fv q). assert (H : forall s, In s qs -> F (s_value s) = F (poly (map fv q) (s_index s))).
  { intros s Hs. rewrite of_Z_poly, map_of_Z_fv, Hq by (apply in_map, in_map, Hs). unfold v.
    destruct (find (fun s0 => feqb (F (s_index s0)) (F (s_index s))) qs) as [s0|] eqn:Ef.
    - apply find_some in Ef. destruct Ef as (H0 & E0). apply feqb_eq in E0. apply of_Z_u8_inj in E0; try (rewrite Forall_forall in Hu8; apply Hu8, in_map; assumption).
      f_equal. f_equal. clear -ND Hs H0 E0. induction qs as [|a qs IH]; [contradiction|]. cbn [map] in ND. inversion ND as [|? ? N1 N2]; subst.
      destruct Hs as [<-|Hs], H0 as [<-|H0]; [reflexivity| | |apply IH; assumption].
      + exfalso. apply N1. rewrite <- E0. apply in_map, H0.
      + exfalso. apply N1. rewrite E0. apply in_map, Hs.
    - exfalso. apply (find_none _ _ Ef) in Hs. rewrite feqb_refl in Hs. discriminate. }
  split; [rewrite map_length; lia|]. split; [exact H|]. apply dkg_reconstruct_spec; try assumption. rewrite map_length. lia.
Qed.

Lemma distinct_few l : NoDup l -> Forall (fun i => 1 <= i <= 255) l -> (length l <= 255)%nat.
Proof.
  intros ND HF. assert (incl l (zrange 1 255)) as HI by (intros i Hi; rewrite Forall_forall in HF; apply zrange_In; specialize (HF i Hi); lia).
  apply NoDup_incl_length in HI; [|exact ND]. rewrite zrange_length in HI. exact HI.
Qed.

Lemma put_together R H n t qs x r N : ristretto_ok R -> hashes_ok H -> any_shares qs -> (length x <= 255)%nat -> HashToGroup R H x <> rzero R -> random_scalar r -> asks R H n t qs x r N ->
  dkg_reconstruct qs <> 0 /\ N = renc R (rsmul R (dkg_reconstruct qs) (HashToGroup R H x)) /\
  oprf_Finalize H true x (Z.of_nat (length x)) N = Ok (0, Some (oprf_value R H (dkg_reconstruct qs) x)).
Proof.
  intros HR HH HA Hx Hh Hr (alpha & parts & beta & B & U & W). destruct (some_poly qs HA) as (cs & Lc & Hv & Ek). pose proof HA as (ND & HF).
  assert (HX : Forall index_ok (map s_index qs)) by (apply Forall_map; eapply Forall_impl; [|exact HF]; cbv beta; unfold index_ok; intros; lia).
  assert (H255 : (length qs <= 255)%nat) by (rewrite <- (map_length s_index); apply distinct_few; [exact ND|exact HX]).
  pose proof L_lt_2_255 as L255. pose proof L_gt_65536 as HL. set (k := dkg_reconstruct qs) in *.
  assert (KL : 0 <= k < L) by (rewrite Ek; apply Z.mod_pos_bound, L_pos).
  assert (KF : F (poly cs 0) = F k) by (rewrite Ek, of_Z_mod; reflexivity).
  destruct (oprf_roundtrip R H HR HH x 1 r Hx Hh) as (al & Z1 & N1 & B1 & E1 & _); [split; vm_compute; congruence|vm_compute; congruence|exact Hr|]. assert (al = alpha) by congruence. subst al.
  assert (exists P, rdec R alpha = Some P) as (P & D) by (unfold oprf_Evaluate, scalarmult in E1; destruct (rdec R alpha) as [P|]; [eauto|discriminate]).
  assert (Eb : beta = renc R (gmul R (F k) P)).
  { rewrite <- KF. destruct W as [(junk & W & Lj & T)|[(r0 & W & T)|(zsh & ssid & junk & (z & zb & SZ & EZs) & Ht & W & Lj & T)]].
    - rewrite (thresholdmult_correct R HR cs qs parts alpha P junk D ND HX Lc H255) in T; [congruence| |exact W|exact Lj].
      intros s Hs. split; [rewrite Forall_forall in HF; apply (HF s Hs)|apply Hv, Hs].
    - rewrite (combine_correct R HR cs qs parts alpha P r0 D ND HX Lc H255 Hv W) in T. congruence.
    - cbn [d_n d_t d_shares] in SZ, EZs. apply (created _ _ _ _ _ _ SZ) in EZs. subst zsh. pose proof SZ as (_ & Hn & _ & Lz & _).
      set (h := HashToGroup R H (tdh_hash H ssid alpha)).
      rewrite (masked_any R HR cs z qs parts P h junk ND HX Lc H255 Hv) in T; [congruence|lia| |exact Lj].
      clear -HR HH D W HF Hn L255. unfold with_3hashtdh in W. induction W as [|s p qs parts (zs & Hz & Ei & ET & Hne) _ IH]; constructor.
      + inversion HF as [|? ? (_ & Hs) _]; subst. apply shares_of_In in Hz; [|lia]. destruct Hz as (Hzi & Hzv). pose proof (mod_L_range (poly (0 :: z) (s_index zs))) as Hzr.
        apply (tdh_ok R H HR HH _ _ _ _ _ _ _ D) in ET; [|lia|lia]. destruct ET as (E1 & E2). rewrite Hzv, Ei in E2.
        split; [assumption|]. split; [exact E2|]. intros E0. apply Hne. rewrite E2. fold h. rewrite E0. apply (ok_enc_zero _ HR).
      + inversion HF; subst. apply IH; assumption. }
  assert (K0 : k <> 0).
  { intros E. rewrite E in Eb. change (F 0) with (0%fq) in Eb. rewrite (gmul_0 R) in Eb. subst beta. unfold oprf_Unblind in U. destruct (is_valid_point R _); [|discriminate].
    destruct (scalar_invert r) as (iret & ir). destruct (iret =? 0); [|discriminate].
    unfold scalarmult in U. rewrite (ok_dec_enc _ HR) in U. rewrite (gmul_of_Z R HR) in U by (apply Z.mod_pos_bound; reflexivity). rewrite (gmul_zero R HR), (ok_enc_zero _ HR), bytes_eqb_refl in U. discriminate U. }
  split; [exact K0|].
  assert (KM : k mod 2 ^ 255 = k) by (apply Z.mod_small; lia). destruct (oprf_roundtrip R H HR HH x k r Hx Hh) as (al & Zb & N' & B2 & E2 & E3 & E4 & E5); [unfold scalar_buf; lia|rewrite KM, Z.mod_small; lia|exact Hr|]. assert (al = alpha) by congruence. subst al.
  apply (evaluate_ok R HR k alpha P Zb D) in E2; [|lia]. destruct E2 as (-> & _). rewrite <- Eb, U in E3. rewrite KM in E4. assert (EN : N' = N) by congruence. rewrite EN in E4, E5.
  split; [exact E4|]. rewrite E5. unfold oprf_value. rewrite E4. reflexivity.
Qed.

(** ** one of the shares is not the right one *)
Lemma misreported_any K d qs j e : shares_key K d -> quorum (d_t d) (d_shares d) qs -> any_shares (misreported j e qs).
Proof.
  intros HK HQ. destruct (quorum_numbers _ _ _ HK HQ) as (ND & HR). split; [rewrite misreported_index; exact ND|].
  destruct HK as (a & buf & SP & E). apply (created _ _ _ _ _ _ SP) in E. rewrite E in HQ. destruct (quorum_ready _ _ _ _ _ _ SP HQ) as (_ & _ & _ & _ & Q5).
  unfold misreported. apply Forall_map, Forall_forall. intros s Hs. rewrite Forall_forall in HR. specialize (HR (s_index s) (in_map _ _ _ Hs)). cbv beta in HR. destruct (Q5 s Hs) as (V & _).
  destruct (s_index s =? j); cbn [s_index s_value]; [split; [lia|apply Z.mod_pos_bound, L_pos]|lia].
Qed.

Lemma one_wrong_share R H K d qs j e n t x r N : ristretto_ok R -> hashes_ok H -> shares_key K d -> quorum (d_t d) (d_shares d) qs -> 0 <= e < L -> (length x <= 255)%nat -> HashToGroup R H x <> rzero R ->
  random_scalar r -> asks R H n t (misreported j e qs) x r N -> N = renc R (rsmul R K (HashToGroup R H x)) <-> (~ In j (map s_index qs) \/ e = 0).
Proof.
  intros HR HH HK HQ He Hx Hh Hr HA. destruct (put_together R H n t _ x r N HR HH (misreported_any _ _ _ j e HK HQ) Hx Hh Hr HA) as (_ & -> & _).
  rewrite <- (misreported_iff K d qs j e HK HQ He). pose proof (new_key_range _ _ HK) as Kr. split; [|intros ->; reflexivity]. intros E. apply (renc_inj R HR) in E.
  assert (R1 : 0 <= dkg_reconstruct (misreported j e qs) < L).
  { destruct (some_poly _ (misreported_any _ _ _ j e HK HQ)) as (cs & _ & _ & ->). apply Z.mod_pos_bound, L_pos. }
  rewrite !(gmul_of_Z R HR) in E by lia. apply (gmul_inj R HR) in E; [|exact Hh]. apply of_Z_inj; assumption.
Qed.

(** it goes through *)
Lemma can_ask_any R H n t qs x r : ristretto_ok R -> hashes_ok H -> any_shares qs -> Forall (fun s => s_value s <> 0) qs -> dkg_reconstruct qs <> 0 ->
  (length x <= 255)%nat -> HashToGroup R H x <> rzero R -> random_scalar r -> exists N, asks R H n t qs x r N.
Proof.
  intros HR HH HA HV K0 Hx Hh Hr. destruct (some_poly qs HA) as (cs & Lc & Hv & Ek). pose proof HA as (ND & HF).
  assert (HX : Forall index_ok (map s_index qs)) by (apply Forall_map; eapply Forall_impl; [|exact HF]; cbv beta; unfold index_ok; intros; lia).
  assert (H255 : (length qs <= 255)%nat) by (rewrite <- (map_length s_index); apply distinct_few; [exact ND|exact HX]).
  pose proof L_lt_2_255 as L255. set (k := dkg_reconstruct qs) in *. assert (KL : 0 <= k < L) by (rewrite Ek; apply Z.mod_pos_bound, L_pos).
  assert (KF : F (poly cs 0) = F k) by (rewrite Ek, of_Z_mod; reflexivity). assert (KM : k mod 2 ^ 255 = k) by (apply Z.mod_small; lia).
  destruct (oprf_roundtrip R H HR HH x k r Hx Hh) as (alpha & Zb & N & B & E2 & E3 & _); [unfold scalar_buf; lia|rewrite KM, Z.mod_small; lia|exact Hr|].
  assert (exists P, rdec R alpha = Some P) as (P & D) by (unfold oprf_Evaluate, scalarmult in E2; destruct (rdec R alpha) as [P|]; [eauto|discriminate]).
  apply (evaluate_ok R HR k alpha P Zb D) in E2; [|lia]. destruct E2 as (-> & Hne).
  assert (P0 : P <> rzero R) by (intros E; apply Hne; rewrite E; apply (gmul_zero R HR)).
  assert (exists parts, with_mult R alpha qs parts) as (parts & HP).
  { clear -HR HF HV D P0 L255. induction HF as [|s qs (_ & Hs) _ IH]; [exists []; constructor|]. inversion HV as [|? ? V1 V2]; subst. destruct (IH V2) as (parts & HP).
    exists (mkPart (s_index s) (renc R (gmul R (F (s_value s)) P)) :: parts). constructor; [split; [reflexivity|]|exact HP]. cbn [p_value].
    unfold oprf_Evaluate. assert (Ea : alpha = renc R P) by (symmetry; apply (ok_enc_dec _ HR); exact D). rewrite Ea.
    apply (scalarmult_enc R HR); [lia|apply random_scalar_neq_0; unfold random_scalar; lia|exact P0]. }
  exists N, alpha, parts, (renc R (gmul R (F k) P)). split; [exact B|]. split; [exact E3|]. left. exists (repeat 0 (length parts)). split; [exact HP|]. split; [apply repeat_length|].
  rewrite (thresholdmult_correct R HR cs qs parts alpha P _ D ND HX Lc H255); [rewrite KF; reflexivity| |exact HP|apply repeat_length].
  intros s Hs. split; [rewrite Forall_forall in HF; apply (HF s Hs)|apply Hv, Hs].
Qed.
