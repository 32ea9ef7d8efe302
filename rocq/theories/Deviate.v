(** C108: one dealer deals something else. *)
From Coq Require Import ZArith Lia List Bool Arith Field.
From Verif Require Import PrimeL Fq Poly Bytes Res Mem Sodium LinSolve OprfModel OprfSpec OprfProofs ToprfModel ToprfSpec ToprfProofs DkgModel DkgProofs MpmultModel MpmultProofs.
From Verif Require Import MulSpec MulUse UpdateSpec Update Short DeviateSpec.
Import ListNotations.
Open Scope list_scope.
Open Scope fq_scope.

(** ** whatever is dealt: the result interpolates the dealt values *)
Lemma dealt_poly (v : Z -> Fq) n t dealers dealt junk : NoDup dealers -> dealers <> [] -> Forall u8 dealers -> (1 <= n <= 254)%Z ->
  Forall2 (fun d shs => exists h, Z.of_nat (length h) = t /\ F (hd 0%Z h) = v d /\ shs = shares_of h n) dealers dealt ->
  exists cs, Z.of_nat (length cs) = t /\
    (forall q, (length q <= length dealers)%nat -> (forall d, In d dealers -> peval q (F d) = v d) -> F (poly cs 0) = peval q 0) /\
    forall j recv, (1 <= j <= n)%Z -> Forall2 (fun shs s => nth_error shs (Z.to_nat (j - 1)) = Some s) dealt recv ->
      mpc_mul_finish dealers j recv junk = mkShare j (poly cs j mod L).
Proof.
    intros Hnd Hne Hu8 Hn HD0.
    assert (exists hs, Forall2 (fun d h => Z.of_nat (length h) = t /\ F (hd 0%Z h) = v d) dealers hs /\ Forall2 (fun h shs => shs = shares_of h n) hs dealt) as (hs & D1 & D2).
    { clear -HD0. induction HD0 as [|d shs ds dl (h & H1 & H2 & H3) _ (hs & I1 & I2)]; [exists []; split; constructor|]. exists (h :: hs). split; constructor; auto. }
    assert (Hlh : length dealers = length hs) by (eapply Forall2_length'; exact D1).
    set (lam := map (fun k => F (invertedVDMmatrix dealers junk 0%nat k)) (seq 0 (length dealers))).
    assert (Hll : length lam = length (map (map F) hs)) by (unfold lam; rewrite !map_length, seq_length; assumption).
    exists (map fv (plin lam (map (map F) hs))).
    assert (HPF : map F (map fv (plin lam (map (map F) hs))) = plin lam (map (map F) hs)) by apply map_of_Z_fv.
    split; [|split].
    - rewrite map_length. rewrite (plin_length (Z.to_nat t)); [|assumption| |].
      + destruct D1 as [|d h ds hs' (E & _) _]; [contradiction|]. lia.
      + apply Forall_map. clear -D1. induction D1 as [|d h ds hs (E & _) _ IH]; constructor; [rewrite map_length; lia|assumption].
      + destruct hs; [|discriminate]. destruct dealers; [contradiction|discriminate].
    - intros q Hq Hqd. rewrite of_Z_poly, HPF. rewrite plin_eval by assumption. change (F 0) with 0.
      rewrite map_map.
      pose proof (row0_interpolates dealers junk q Hne Hnd Hu8 Hq) as HI.
      rewrite (dot_sumr_map (fun k => F (invertedVDMmatrix dealers junk 0%nat k))
         (fun d => peval q (F d)) 0%Z dealers) in HI.
      fold lam in HI. rewrite <- HI. f_equal.
      clear -D1 Hqd. induction D1 as [|d h ds hs (_ & E) _ IH]; [reflexivity|]. cbn [map].
      rewrite IH by (intros; apply Hqd; right; assumption). f_equal. rewrite peval_at_0, Hqd by (left; reflexivity).
      replace (hd 0 (map F h)) with (F (hd 0%Z h)) by (destruct h; reflexivity). exact E.
    - intros j recv Hj HR.
      assert (Hlr : length recv = length dealers).
      { rewrite Hlh. transitivity (length dealt); [symmetry; eapply Forall2_length'; exact HR|symmetry; eapply Forall2_length'; exact D2]. }
      destruct (finish_value dealers j recv junk Hlr) as (F1 & F2 & F3).
      set (s := mpc_mul_finish dealers j recv junk) in *. destruct s as [si sv]. cbn [s_index s_value] in *. subst si. f_equal.
      apply eq_mod_of_Z; [assumption|]. rewrite F3, of_Z_poly, HPF, plin_eval by assumption.
      rewrite <- Hlr at 1. rewrite (dot_sumr_map (fun k => F (invertedVDMmatrix dealers junk 0%nat k)) (fun s => F (s_value s))).
      rewrite Hlr. fold lam. rewrite map_map. f_equal.
      clear -D2 HR Hj Hn. revert recv HR. induction D2 as [|h shs hs shss E _ IH]; intros recv HR; inversion HR as [|x y l l' Hx HR' E1 E2]; [reflexivity|].
      cbn [map]. rewrite <- (IH l') by assumption. f_equal. subst shs.
      apply nth_error_In in Hx as Hin. apply shares_of_In in Hin; [|lia]. destruct Hin as (_ & Ev).
      assert (Ei : s_index y = j).
      { unfold shares_of in Hx. rewrite <- (zrange_seq 1) in Hx. erewrite map_nth_error in Hx by (apply zrange_nth; lia).
        injection Hx as <-. cbn [s_index]. lia. }
      rewrite Ev, Ei, of_Z_mod, of_Z_poly. reflexivity.
Qed.

(** ** the weight of one dealer *)
Lemma weight dealers z : NoDup dealers -> Forall (fun d => (1 <= d <= 254)%Z) dealers -> In z dealers ->
  exists q, length q = length dealers /\ (forall d, In d dealers -> peval q (F d) = if (d =? z)%Z then 1 else 0) /\ peval q 0 <> 0.
Proof.
  intros Hnd HR Hz. assert (Hu8 : Forall u8 dealers) by (eapply Forall_impl; [|exact HR]; cbv beta; unfold u8; intros; lia).
  destruct (interpolate_exists (map F dealers) (fun x => if feqb x (F z) then 1 else 0)) as (q & Lq & Hq); [apply F_NoDup; assumption|]. rewrite map_length in Lq.
  assert (Hd : forall d, In d dealers -> peval q (F d) = if (d =? z)%Z then 1 else 0).
  { intros d Hin. rewrite Hq by (apply in_map, Hin). destruct (Z.eqb_spec d z) as [->|N]; [rewrite feqb_refl; reflexivity|]. rewrite feqb_neq; [reflexivity|]. intros E. apply N. rewrite Forall_forall in Hu8.
    apply of_Z_u8_inj; [apply Hu8, Hin|apply Hu8, Hz|exact E]. }
  exists q. split; [exact Lq|]. split; [exact Hd|]. intros E0.
  destruct (in_split _ _ Hz) as (l1 & l2 & ->). apply NoDup_remove in Hnd. destruct Hnd as (Hnd & Hnz).
  assert (Forall (fun c => c = 0) q) as HZ.
  { apply (root_bound (map F (0%Z :: l1 ++ l2))).
    - apply F_NoDup; [constructor; [|exact Hnd]|constructor; [unfold u8; lia|]].
      + intros H0. assert (In 0%Z (l1 ++ z :: l2)) as H1 by (apply in_app_iff; apply in_app_iff in H0; cbn; tauto). rewrite Forall_forall in HR. specialize (HR _ H1). lia.
      + apply Forall_forall. intros y Hy. rewrite Forall_forall in Hu8. apply Hu8. apply in_app_iff; apply in_app_iff in Hy; cbn; tauto.
    - rewrite map_length. cbn [length]. rewrite app_length in *. cbn [length] in Lq. lia.
    - intros x Hx. cbn [map] in Hx. destruct Hx as [<-|Hx]; [exact E0|]. apply in_map_iff in Hx. destruct Hx as (y & <- & Hy).
      rewrite Hd by (apply in_app_iff; apply in_app_iff in Hy; cbn; tauto). destruct (Z.eqb_spec y z) as [->|]; [contradiction|reflexivity]. }
  specialize (Hd z Hz). rewrite Z.eqb_refl, (peval_zeros q _ HZ) in Hd. symmetry in Hd. revert Hd. change 1 with (F 1). apply random_scalar_neq_0. unfold random_scalar. pose proof L_gt_65536. lia.
Qed.

Open Scope Z_scope.

(** what the new servers hold *)
Lemma tampered_key dealers z : NoDup dealers -> Forall (fun i => 1 <= i <= 254) dealers -> In z dealers -> exists w, w <> (0%fq) /\
  forall e K delta d dsh d' K', shares_key K d -> shares_key delta (mkDep (d_n d) (d_t d) dsh) -> tampered z e dealers d dsh d' ->
    0 <= K' < L -> F K' = (F (K * delta) + F e * w)%fq -> shares_key K' d'.
Proof.
  intros Hnd HR Hz. destruct (weight dealers z Hnd HR Hz) as (q & Lq & Hq & Hw). exists (peval q 0). split; [exact Hw|].
  intros e K delta d dsh d' K' HK HD (dealt & _ & Hen & Hn & Ht & HF & HS) HK' Ek.
  assert (Hu8 : Forall u8 dealers) by (eapply Forall_impl; [|exact HR]; cbv beta; unfold u8; intros; lia).
  assert (Hne : dealers <> []) by (intros ->; contradiction).
  destruct HK as (rA & bufA & SA & EA). destruct HD as (rB & bufB & SB & EB). cbn [d_n d_t d_shares] in SB, EB. pose proof SA as (_ & A2 & A3 & A4 & _). pose proof SB as (_ & _ & _ & B4 & _).
  rewrite create_shares_eq in EA by apply SA. rewrite create_shares_eq in EB by apply SB. injection EA as EA. injection EB as EB.
  set (P := pmul (map F (K :: rA)) (map F (delta :: rB))).
  destruct (dealt_poly (fun i => (peval P (F i) + (if (i =? z)%Z then F e else 0))%fq) (d_n d') (d_t d') dealers dealt (fun _ _ => 0) Hnd Hne Hu8 Hn) as (cs & Lc & HQ & Hj).
  { clear -HF EA EB A2 Hn Ht. induction HF as [|i shs ds dl (sa & sb & r & buf & H1 & H2 & H3 & H4 & H5 & H6 & H7) _ IH]; constructor; [|exact IH].
    rewrite <- EA in H1. rewrite <- EB in H2. apply shares_of_In in H1; [|lia]. apply shares_of_In in H2; [|lia]. rewrite H3 in H1. rewrite H4 in H2. destruct H1 as (_ & V1). destruct H2 as (_ & V2).
    assert (EP : (F (s_value sa) * F (s_value sb))%fq = peval P (F i)) by (unfold P; rewrite peval_product, V1, V2, !of_Z_mod, !of_Z_poly; reflexivity).
    destruct (i =? z).
    - exists ((s_value sa * s_value sb + e) mod L :: r). split; [cbn [length]; lia|]. split; [cbn [hd]; rewrite of_Z_mod, of_Z_add, of_Z_mul, EP; reflexivity|].
      rewrite create_shares_eq in H7 by (try lia; apply Z.mod_pos_bound, L_pos). congruence.
    - destruct (mul_start_ok _ _ _ _ _ _ _ Hn H5 H6 H7) as (_ & _ & E). exists (scalar_mul (s_value sa) (s_value sb) :: r). split; [cbn [length]; lia|]. split; [|exact E].
      cbn [hd]. rewrite of_Z_scalar_mul, EP. ring. }
  assert (E0 : poly cs 0 mod L = K').
  { rewrite <- (Z.mod_small K' L HK'). apply of_Z_eq. rewrite Ek. rewrite (HQ (padd P (pscale (F e) q))).
    - rewrite padd_eval, pscale_eval. unfold P. rewrite peval_product, !peval_at_0. cbn [map hd]. rewrite of_Z_mul. reflexivity.
    - rewrite padd_length, pscale_length, Lq. assert (length P <= length dealers)%nat; [|lia]. unfold P. eapply Nat.le_trans; [apply pmul_length_tight; cbn; lia|]. cbn [length map]. rewrite !map_length. lia.
    - intros i Hi. rewrite padd_eval, pscale_eval, Hq by exact Hi. destruct (i =? z); ring. }
  set (buf := repeat (mkShare 0 0) (Z.to_nat (d_n d'))). assert (Lb : Z.of_nat (length buf) = d_n d') by (unfold buf; rewrite repeat_length; lia).
  assert (SP : sharing_params K' (d_n d') (d_t d') (tl cs) buf).
  { split; [exact HK'|]. split; [exact Hn|]. split; [lia|]. split; [|exact Lb]. destruct cs; cbn [length tl] in *; lia. }
  exists (tl cs), buf. split; [exact SP|]. destruct (create_shares_full _ _ _ _ _ SP) as (shares & E & Ls & Hi & _). rewrite E. f_equal.
  assert (Lz : length (d_shares d') = Z.to_nat (d_n d')) by (rewrite <- (zrange_length 1 (Z.to_nat (d_n d'))); symmetry; eapply Forall2_length'; exact HS).
  apply nth_ext_error. intros i. destruct (Nat.lt_ge_cases i (Z.to_nat (d_n d'))) as [Hlt|Hge].
  - destruct (Forall2_nth_error _ _ _ HS i _ (zrange_nth 1 (Z.to_nat (d_n d')) i Hlt)) as (s & Es & recv & junk & (Hr & Hcol) & ->). rewrite Es.
    rewrite (finish_memory dealers _ recv junk (fun _ _ => 0) Hnd Hu8), (Hj _ recv Hr Hcol).
    specialize (Hi _ Hr). replace (Z.to_nat (1 + Z.of_nat i - 1)) with i in Hi by lia. rewrite Hi. do 2 f_equal. rewrite <- E0.
    destruct cs as [|c0 cs]; [cbn in Lc; lia|]. rewrite poly_cons_0. cbn [poly tl]. rewrite Z.add_mod_idemp_l by (pose proof L_pos; lia). reflexivity.
  - rewrite !(proj2 (nth_error_None _ _)) by lia. reflexivity.
Qed.

(** the dealer chooses by how much the key is off, from the numbers of the dealers alone *)
Lemma chosen_offset dealers z : NoDup dealers -> Forall (fun i => 1 <= i <= 254) dealers -> In z dealers -> forall c, 0 <= c < L -> exists e, 0 <= e < L /\
  forall K delta d dsh d', shares_key K d -> shares_key delta (mkDep (d_n d) (d_t d) dsh) -> tampered z e dealers d dsh d' -> shares_key ((K * delta + c) mod L) d'.
Proof.
  intros Hnd HR Hz c Hc. destruct (tampered_key dealers z Hnd HR Hz) as (w & Hw & HT). exists (fv (F c * finv w)%fq). split; [apply fv_range|].
  intros K delta d dsh d' HK HD HU. eapply HT; [exact HK|exact HD|exact HU|apply Z.mod_pos_bound, L_pos|]. rewrite of_Z_mod, of_Z_add, of_Z_fv. field. exact Hw.
Qed.

(** whatever is added, the new servers hold shares of one key, and it is the product only if nothing is added *)
Lemma tampered_iff dealers z e K delta d dsh d' : Forall (fun i => 1 <= i <= 254) dealers -> In z dealers -> 0 <= e < L ->
  shares_key K d -> shares_key delta (mkDep (d_n d) (d_t d) dsh) -> tampered z e dealers d dsh d' -> exists K', shares_key K' d' /\ (K' = (K * delta) mod L <-> e = 0).
Proof.
  intros HR Hz He HK HD HU. pose proof HU as (_ & Hnd & _). destruct (tampered_key dealers z Hnd HR Hz) as (w & Hw & HT).
  exists (fv (F (K * delta) + F e * w)%fq). split; [eapply HT; [exact HK|exact HD|exact HU|apply fv_range|apply of_Z_fv]|]. split.
  - intros E. assert (E1 : (F e * w = 0)%fq).
    { assert (E2 : (F (K * delta) + F e * w = F (K * delta))%fq) by (rewrite <- (of_Z_fv (F (K * delta) + F e * w)%fq), E, of_Z_mod; reflexivity).
      replace (F e * w)%fq with ((F (K * delta) + F e * w) - F (K * delta))%fq by ring. rewrite E2. ring. }
    assert (E3 : F e = F 0). { change (F 0) with (0%fq). replace (F e) with (F e * w * finv w)%fq by (field; exact Hw). rewrite E1. ring. }
    apply of_Z_eq in E3. rewrite !Z.mod_small in E3 by lia. exact E3.
  - intros ->. replace (F (K * delta) + F 0 * w)%fq with (F (K * delta)) by (change (F 0) with (0%fq); ring). reflexivity.
Qed.

Lemma can_tamper z e K delta d dsh n t dealers : shares_key K d -> shares_key delta (mkDep (d_n d) (d_t d) dsh) -> 1 <= t <= n -> n <= 254 ->
  NoDup dealers -> Forall (fun i => 1 <= i <= d_n d) dealers -> 2 * d_t d - 1 <= Z.of_nat (length dealers) ->
  exists d', d_n d' = n /\ d_t d' = t /\ tampered z e dealers d dsh d'.
Proof.
  intros HK HD Ht Hn Hnd HF He.
  set (r := repeat 1 (Z.to_nat (t - 1))). set (buf := repeat (mkShare 0 0) (Z.to_nat n)).
  assert (Lr : Z.of_nat (length r) = t - 1) by (unfold r; rewrite repeat_length; lia). assert (Lb : Z.of_nat (length buf) = n) by (unfold buf; rewrite repeat_length; lia).
  assert (exists dealt, Forall2 (fun i shs => exists sa sb r buf, In sa (d_shares d) /\ In sb dsh /\ s_index sa = i /\ s_index sb = i /\
        Z.of_nat (length r) = t - 1 /\ Z.of_nat (length buf) = n /\
        if i =? z then create_shares ((s_value sa * s_value sb + e) mod L) n t r buf = Ok shs
        else mpc_mul_start sa sb n t r buf = Ok (0, shs)) dealers dealt /\ Forall (fun shs => Z.of_nat (length shs) = n) dealt) as (dealt & Hdp & HL).
  { clear Hnd He. induction HF as [|i ds Hi _ (dl & I1 & I2)]; [exists []; split; constructor|].
    destruct (numbers_held _ _ _ HK Hi) as (sa & A1 & A2). destruct (numbers_held _ _ i HD Hi) as (sb & B1 & B2). cbn [d_shares] in B1.
    destruct (i =? z) eqn:Ez.
    - exists (shares_of ((s_value sa * s_value sb + e) mod L :: r) n :: dl). split; constructor; try assumption.
      + exists sa, sb, r, buf. repeat (split; [assumption|]). rewrite Ez. apply create_shares_eq; try lia; try assumption; apply Z.mod_pos_bound, L_pos.
      + unfold shares_of. rewrite !map_length, seq_length. lia.
    - exists (shares_of (scalar_mul (s_value sa) (s_value sb) :: r) n :: dl). split; constructor; try assumption.
      + exists sa, sb, r, buf. repeat (split; [assumption|]). rewrite Ez. apply mul_start_rejects; [|lia|exact Hn|exact Lr|exact Lb]. intros [Hne|[?|?]]; [congruence|lia|lia].
      + unfold shares_of. rewrite !map_length, seq_length. lia. }
  enough (forall js, Forall (fun j => 1 <= j <= n) js -> exists shs, Forall2 (fun j s => exists recv junk, collected n dealt j recv /\ s = mpc_mul_finish dealers j recv junk) js shs) as G.
  { destruct (G (zrange 1 (Z.to_nat n))) as (shs & HS); [apply Forall_forall; intros j Hj; apply zrange_In in Hj; lia|].
    exists (mkDep n t shs). split; [reflexivity|]. split; [reflexivity|]. exists dealt. cbn [d_n d_t d_shares]. repeat (split; [assumption || lia|]). exact HS. }
  intros js HJ. induction HJ as [|j js Hj _ (shs & IH)]; [exists []; constructor|]. destruct (can_collect n dealt j Hj HL) as (recv & Hc).
  exists (mpc_mul_finish dealers j recv (fun _ _ => 0) :: shs). constructor; [|exact IH]. exists recv, (fun _ _ => 0). split; [exact Hc|reflexivity].
Qed.
