(** C109: one dealer sends something else to one of the new servers. *)
From Coq Require Import ZArith Lia List Bool Arith Field.
From Verif Require Import PrimeL Fq Poly Bytes Res Mem Sodium LinSolve OprfModel OprfSpec OprfProofs ToprfModel ToprfSpec ToprfProofs DkgModel DkgProofs MpmultModel MpmultProofs.
From Verif Require Import MulSpec MulUse UpdateSpec Update Deviate SelectSpec.
Import ListNotations.
Open Scope list_scope.
Open Scope Z_scope.

Lemma altered_nth z e dealers recv k : length recv = length dealers -> (k < length dealers)%nat ->
  F (s_value (nth k (altered z e dealers recv) (mkShare 0 0))) = (F (s_value (nth k recv (mkShare 0 0))) + F e * (if (nth k dealers 0 =? z)%Z then 1 else 0))%fq.
Proof.
  revert recv k. induction dealers as [|d ds IH]; intros [|s recv] k Hl Hk; cbn [length] in *; try lia. destruct k as [|k].
  - cbn. destruct (d =? z); cbn [s_value]; [rewrite of_Z_mod, of_Z_add; ring|ring].
  - cbn [altered combine map nth]. apply IH; lia.
Qed.

Lemma altered_length z e dealers recv : length recv = length dealers -> length (altered z e dealers recv) = length dealers.
Proof. intros H. unfold altered. rewrite map_length, combine_length. lia. Qed.

Lemma dealers_range K d dsh n t ds dl : shares_key K d -> dealt_products (d_shares d) dsh n t ds dl -> Forall (fun i => 1 <= i <= 254) ds.
Proof.
  intros (a & buf & SP & E) H. pose proof SP as (_ & Hn & _). rewrite create_shares_eq in E by apply SP. injection E as E.
  induction H as [|i shs ds dl (sa & sb & r & b & H1 & _ & H3 & _) _ IH]; constructor; [|exact IH]. rewrite <- E in H1. apply shares_of_In in H1; [|lia]. destruct H1 as (H1 & _). lia.
Qed.

(** one new server is off by a factor that is not 0 *)
Lemma altered_finish dealers z : NoDup dealers -> Forall (fun i => 1 <= i <= 254) dealers -> In z dealers -> exists w, w <> (0%fq) /\
  forall e i recv junk, length recv = length dealers -> let s := mpc_mul_finish dealers i recv junk in let s' := mpc_mul_finish dealers i (altered z e dealers recv) junk in
    s_index s' = i /\ s_index s = i /\ F (s_value s') = (F (s_value s) + F e * w)%fq.
Proof.
  intros Hnd HR Hz. destruct (weight dealers z Hnd HR Hz) as (q & Lq & Hq & Hw). exists (peval q (0%fq)). split; [exact Hw|]. intros e i recv junk Hl. cbv zeta.
  assert (Hu8 : Forall u8 dealers) by (eapply Forall_impl; [|exact HR]; cbv beta; unfold u8; intros; lia). assert (Hne : dealers <> []) by (intros ->; contradiction).
  destruct (finish_value dealers i recv junk Hl) as (A1 & _ & A3). destruct (finish_value dealers i (altered z e dealers recv) junk (altered_length z e _ _ Hl)) as (B1 & _ & B3).
  split; [exact B1|]. split; [exact A1|]. rewrite A3, B3. rewrite <- (row0_interpolates dealers junk q Hne Hnd Hu8 ltac:(lia)). rewrite <- sumr_scale, <- sumr_add.
  apply sumr_ext. intros k Hk. rewrite altered_nth by lia. rewrite Hq by (apply nth_In; lia). destruct (nth k dealers 0 =? z); ring.
Qed.

(** the honest update next to it *)
Lemma beside K delta d dsh z j e d' : shares_key K d -> shares_key delta (mkDep (d_n d) (d_t d) dsh) -> selective z j e d dsh d' ->
  exists d0 w, w <> (0%fq) /\ d_n d0 = d_n d' /\ d_t d0 = d_t d' /\ shares_key ((K * delta) mod L) d0 /\
    Forall2 (fun s0 s => s_index s = s_index s0 /\ F (s_value s) = (F (s_value s0) + F e * w * (if (s_index s0 =? j)%Z then 1 else 0))%fq) (d_shares d0) (d_shares d').
Proof.
  intros HK HD (dealers & dealt & Hnd & Hz & He & Hn & Hdp & HS). pose proof (dealers_range _ _ _ _ _ _ _ HK Hdp) as HR.
  destruct (altered_finish dealers z Hnd HR Hz) as (w & Hw & HA). assert (Ld : length dealers = length dealt) by (eapply Forall2_length'; exact Hdp).
  assert (exists l, Forall2 (fun i s => exists recv junk, collected (d_n d') dealt i recv /\ s = mpc_mul_finish dealers i recv junk) (zrange 1 (Z.to_nat (d_n d'))) l /\
    Forall2 (fun s0 s => s_index s = s_index s0 /\ F (s_value s) = (F (s_value s0) + F e * w * (if (s_index s0 =? j)%Z then 1 else 0))%fq) l (d_shares d')) as (l & H1 & H2).
  { induction HS as [|i s is ss (recv & junk & Hc & ->) _ (l & I1 & I2)]; [exists []; split; constructor|].
    assert (Lr : length recv = length dealers) by (rewrite Ld; symmetry; eapply Forall2_length'; exact (proj2 Hc)).
    exists (mpc_mul_finish dealers i recv junk :: l). split; constructor; try assumption; [exists recv, junk; split; [exact Hc|reflexivity]|].
    destruct (HA e i recv junk Lr) as (B1 & B2 & B3). rewrite B2. destruct (i =? j).
    - split; [exact B1|]. rewrite B3. ring.
    - split; [exact B2|]. ring. }
  exists (mkDep (d_n d') (d_t d') l), w. split; [exact Hw|]. split; [reflexivity|]. split; [reflexivity|]. split; [|exact H2].
  eapply updated; [exact HK|exact HD|]. exists dealers, dealt. cbn [d_n d_t d_shares]. repeat (split; [assumption|]). exact H1.
Qed.

Lemma index_NoDup (qs : list share) : NoDup qs -> (forall s s', In s qs -> In s' qs -> s_index s = s_index s' -> s = s') -> NoDup (map s_index qs).
Proof.
  induction 1 as [|s qs Hs Hq IH]; intros H; cbn [map]; constructor.
  - intros HI. apply in_map_iff in HI. destruct HI as (s' & E & Hs'). apply Hs. rewrite (H s s'); [exact Hs'|left; reflexivity|right; exact Hs'|congruence].
  - apply IH. intros u v Hu Hv. apply H; right; assumption.
Qed.

(** what a quorum of the new servers has *)
Lemma quorum_key K delta d dsh z j e d' qs : shares_key K d -> shares_key delta (mkDep (d_n d) (d_t d) dsh) -> selective z j e d dsh d' -> 0 <= e < L ->
  quorum (d_t d') (d_shares d') qs -> dkg_reconstruct qs = (K * delta) mod L <-> (~ In j (map s_index qs) \/ e = 0).
Proof.
  intros HK HD HS He (Q1 & Q2 & Q3). destruct (beside _ _ _ _ _ _ _ _ HK HD HS) as (d0 & w & Hw & En & Et & (a & buf & SP & E) & HF).
  pose proof SP as (_ & Hn & _ & La & _). destruct (create_shares_full _ _ _ _ _ SP) as (sh & E' & Ls & Hi & _). assert (sh = d_shares d0) by congruence. subst sh.
  set (k := (K * delta) mod L) in *. assert (Hk : 0 <= k < L) by (apply Z.mod_pos_bound, L_pos).
  assert (Hall : forall s, In s (d_shares d') -> 1 <= s_index s <= 254 /\ nth_error (d_shares d') (Z.to_nat (s_index s - 1)) = Some s /\
    F (s_value s) = (F (poly (k :: a) (s_index s)) + F e * w * (if (s_index s =? j)%Z then 1 else 0))%fq).
  { intros s Hs. apply In_nth_error in Hs. destruct Hs as (i & Es). assert (Hl : (i < length (d_shares d'))%nat) by (apply nth_error_Some; congruence).
    rewrite <- (Forall2_length' _ _ _ HF) in Hl. specialize (Hi (Z.of_nat i + 1) ltac:(lia)). replace (Z.to_nat (Z.of_nat i + 1 - 1)) with i in Hi by lia.
    destruct (Forall2_nth_error _ _ _ HF i _ Hi) as (s' & Es' & I1 & I2). assert (s' = s) by congruence. subst s'. cbn [s_index s_value] in I1, I2. rewrite I1.
    split; [lia|]. split; [replace (Z.to_nat (Z.of_nat i + 1 - 1)) with i by lia; exact Es|]. rewrite I2, of_Z_mod. reflexivity. }
  assert (ND : NoDup (map s_index qs)).
  { apply index_NoDup; [exact Q1|]. intros s s' Hs Hs' Ei. destruct (Hall s (Q2 _ Hs)) as (_ & N1 & _). destruct (Hall s' (Q2 _ Hs')) as (_ & N2 & _). rewrite Ei in N1. congruence. }
  assert (HR : Forall (fun i => 1 <= i <= 254) (map s_index qs)) by (apply Forall_map, Forall_forall; intros s Hs; apply (Hall s (Q2 _ Hs))).
  assert (HX : Forall index_ok (map s_index qs)) by (eapply Forall_impl; [|exact HR]; cbv beta; unfold index_ok; intros; lia).
  assert (Hlen : (length (k :: a) <= length qs)%nat) by (cbn [length]; lia).
  destruct (in_dec Z.eq_dec j (map s_index qs)) as [Hj|Hj].
  - destruct (weight _ j ND HR Hj) as (q & Lq & Hq & Hw'). rewrite map_length in Lq.
    set (cs := map fv (padd (map F (k :: a)) (pscale (F e * w)%fq q))).
    assert (EC : map F cs = padd (map F (k :: a)) (pscale (F e * w)%fq q)) by apply map_of_Z_fv.
    rewrite (dkg_reconstruct_spec cs qs ND HX).
    + assert (E0 : F (poly cs 0) = (F k + F e * w * peval q 0)%fq).
      { rewrite of_Z_poly, EC, padd_eval, pscale_eval. change (F 0) with (0%fq). rewrite (peval_at_0 (map F (k :: a))). reflexivity. }
      split.
      * intros Ek. right. assert (E1 : F (poly cs 0) = F k) by (rewrite <- Ek, of_Z_mod; reflexivity). rewrite E0 in E1.
        assert (E2 : F e = F 0).
        { change (F 0) with (0%fq). replace (F e) with ((F k + F e * w * peval q 0 - F k) * finv w * finv (peval q 0))%fq by (field; split; assumption). rewrite E1. ring. }
        apply of_Z_eq in E2. rewrite !Z.mod_small in E2 by lia. exact E2.
      * intros [?|E1]; [contradiction|]. rewrite <- (Z.mod_small k L Hk). apply of_Z_eq. rewrite E0, E1. change (F 0) with (0%fq). ring.
    + unfold cs. rewrite map_length, padd_length, map_length, pscale_length, Lq. lia.
    + intros s Hs. destruct (Hall s (Q2 _ Hs)) as (_ & _ & ->). rewrite !of_Z_poly, EC, padd_eval, pscale_eval, Hq by (apply in_map, Hs). reflexivity.
  - split; [tauto|]. intros _. rewrite (dkg_reconstruct_spec (k :: a) qs ND HX Hlen).
    + rewrite poly_cons_0. apply Z.mod_small, Hk.
    + intros s Hs. destruct (Hall s (Q2 _ Hs)) as (_ & _ & ->). destruct (Z.eqb_spec (s_index s) j) as [Ej|_]; [exfalso; apply Hj; rewrite <- Ej; apply in_map, Hs|]. ring.
Qed.

(** it goes through *)
Lemma can_select z j e K delta d dsh n t dealers : shares_key K d -> shares_key delta (mkDep (d_n d) (d_t d) dsh) -> 1 <= t <= n -> n <= 254 ->
  NoDup dealers -> Forall (fun i => 1 <= i <= d_n d) dealers -> 2 * d_t d - 1 <= Z.of_nat (length dealers) -> In z dealers ->
  exists d', d_n d' = n /\ d_t d' = t /\ selective z j e d dsh d'.
Proof.
  intros HK HD Ht Hn Hnd HF He Hz. destruct (can_multiply (d_shares d) dsh n t dealers Ht Hn) as (dealt & Hdp & HL).
  { rewrite Forall_forall in *. intros i Hi. specialize (HF i Hi). split; [exact (numbers_held _ _ _ HK HF)|exact (numbers_held _ _ i HD HF)]. }
  enough (forall is, Forall (fun i => 1 <= i <= n) is -> exists shs, Forall2 (fun i s => exists recv junk, collected n dealt i recv /\ s = mpc_mul_finish dealers i (if i =? j then altered z e dealers recv else recv) junk) is shs) as G.
  { destruct (G (zrange 1 (Z.to_nat n))) as (shs & HS); [apply Forall_forall; intros i Hi; apply zrange_In in Hi; lia|].
    exists (mkDep n t shs). split; [reflexivity|]. split; [reflexivity|]. exists dealers, dealt. cbn [d_n d_t d_shares]. repeat (split; [assumption || lia|]). exact HS. }
  intros is HJ. induction HJ as [|i is Hi _ (shs & IH)]; [exists []; constructor|]. destruct (can_collect n dealt i Hi HL) as (recv & Hc).
  eexists (_ :: shs). constructor; [|exact IH]. exists recv, (fun _ _ => 0). split; [exact Hc|reflexivity].
Qed.
