(** Proofs about the Python bindings: verification of dealt shares, the plain DKG end to end,
    memory safety of the wrappers (C56, C57, C63). *)
From Coq Require Import ZArith Lia List Bool Permutation.
From Coq.Strings Require Import Byte.
From Verif Require Import PrimeL Fq Bytes Res Mem Sodium OprfModel OprfSpec OprfProofs ToprfModel ToprfSpec ToprfProofs DkgModel DkgSpec DkgProofs
  WireModel WireSpec TpCrypto TpModel PyModel PySpec PyProofs PyThreshold.
Import ListNotations.
Open Scope list_scope.
Open Scope Z_scope.
Arguments dkg_verify_commitments : simpl never.

Section DKG.
Variable R : ristretto.
Hypothesis HR : ristretto_ok R.


Lemma zlen_coms t coms : 0 <= t -> com_rows t coms -> zlen (concat (map (@concat byte) coms)) = zlen coms * t * 32.
Proof.
  intros Ht HF. unfold com_rows in HF. rewrite <- (app_nil_r (concat _)). unfold zlen. rewrite app_nil_r.
  rewrite (length_concat_const (32 * Z.to_nat t)); [rewrite map_length; nia|].
  apply Forall_map. eapply Forall_impl; [|exact HF]. cbv beta. intros row (H1 & H2). rewrite (length_concat_const 32) by assumption. unfold zlen in H1. lia.
Qed.
Lemma zlen_flat ss : zlen (concat (map share_bytes ss)) = zlen ss * 33.
Proof.
  unfold zlen. rewrite (length_concat_const 33), map_length; [lia|]. apply Forall_map, Forall_forall. intros s _. apply share_bytes_len.
Qed.

Lemma py_verify_eq al n t self coms ss : 2 <= t <= n -> n <= 255 -> 1 <= self <= n -> zlen coms = n -> com_rows t coms ->
  zlen ss = n -> Forall plain ss -> al n = true ->
  py_dkg_verify_commitments R al n t self (concat (map (@concat byte) coms)) (map share_bytes ss) =
  pbind (of_res (dkg_verify_commitments R n self coms ss (repeat 0 (Z.to_nat n)))) (fun '(ret, fails, k) =>
    pbind (check ret) (fun _ => Ret (firstn (Z.to_nat k) (map zb fails)))).
Proof.
  intros Ht Hn Hself Hc Hrows Hs Hpl Hal. unfold py_dkg_verify_commitments.
  destruct (Z.ltb_spec n t); [lia|]. destruct (Z.ltb_spec t 2); [lia|]. destruct (Z.ltb_spec self 1); [lia|]. destruct (Z.ltb_spec n self); [lia|].
  cbn [orb]. rewrite (zlen_coms t) by (assumption || lia). rewrite Hc. rewrite Z.eqb_refl. rewrite zlen_flat, Hs, Z.eqb_refl. cbn [negb].
  unfold alloc. destruct (Z.ltb_spec n 0); [lia|]. rewrite Hal. cbn [orb negb pbind].
  rewrite (c_u8_small n), (c_u8_small t), (c_u8_small self) by lia. cbn [pbind].
  rewrite <- (app_nil_r (concat (map share_bytes ss))). rewrite <- (app_nil_r (concat (map (@concat byte) coms))).
  rewrite <- Hc at 2. rewrite rows_in_concat by assumption. rewrite <- Hs at 2. rewrite shares_in_concat by assumption. reflexivity.
Qed.

Lemma com_args t self n coms (ss : list share) : 2 <= t <= n -> n <= 254 -> 1 <= self <= n -> zlen coms = n -> com_rows t coms -> zlen ss = n ->
  verify_args n t self coms ss (repeat 0 (Z.to_nat n)).
Proof.
  intros Ht Hn Hself Hc Hrows Hs. unfold verify_args, index_ok. rewrite repeat_length. unfold zlen in *. repeat split; try lia.
  eapply Forall_impl; [|exact Hrows]. cbv beta. intros row (H1 & _). exact H1.
Qed.

(** C57: what the Python function reports *)
Lemma py_verify_outcome al n t self coms ss : 2 <= t <= n -> n <= 254 -> 1 <= self <= n -> zlen coms = n -> com_rows t coms ->
  zlen ss = n -> Forall plain ss -> al n = true ->
  let out := py_dkg_verify_commitments R al n t self (concat (map (@concat byte) coms)) (map share_bytes ss) in
  (out = Ret [] /\ forall j, ~ cheated R self coms ss j /\ ~ unusable_dealer R self coms ss j) \/
  (out = Raise /\ exists j, cheated R self coms ss j \/ unusable_dealer R self coms ss j).
Proof.
  intros Ht Hn Hself Hc Hrows Hs Hpl Hal. cbv zeta. rewrite (py_verify_eq al n t self coms ss) by (assumption || lia).
  destruct (verify_commitments_spec R HR n t self coms ss (repeat 0 (Z.to_nat n))) as (ret & fails' & named & E & Hl & Hf & _ & Hcase).
  { apply com_args; assumption. }
  rewrite E. cbn [of_res pbind]. destruct Hcase as [(u & Hu & Hun & _ & -> & _)|(Hnu & -> & Hin)].
  - right. split; [reflexivity|]. exists u. right. exact Hun.
  - destruct named as [|j named].
    + left. split; [reflexivity|]. intros j. split; [|apply Hnu]. rewrite <- Hin. intros [].
    + right. split; [reflexivity|]. exists j. left. apply Hin. left. reflexivity.
Qed.

(** with 255 dealers it never returns *)
Lemma verify_all_255 self coms ss : 1 <= self -> Forall (fun row => row <> []) coms -> zlen coms = 255 -> zlen ss = 255 -> index_ok self ->
  forall fuel i fails k, 0 <= i <= 255 ->
  verify_all fuel R 255 self coms ss i fails k = UB \/ exists f k', verify_all fuel R 255 self coms ss i fails k = Ok (-1, f, k').
Proof.
  intros Hself Hrows Hc Hs Hi. induction fuel as [|fuel IH]; intros i fails k Hik; [left; reflexivity|].
  cbn [verify_all]. destruct (Z.leb_spec i 255); [|lia].
  assert (Hnext : 0 <= (i + 1) mod 256 <= 255) by (pose proof (Z.mod_pos_bound (i + 1) 256); lia).
  destruct (Z.eqb_spec i self); [apply IH; exact Hnext|].
  destruct (getz coms (i - 1)) as [row|] eqn:E1; [|left; reflexivity]. destruct (getz ss (i - 1)) as [s|] eqn:E2; [|left; reflexivity]. cbn [bind].
  assert (Hrow : row <> []) by (rewrite Forall_forall in Hrows; apply Hrows; eapply getz_In; exact E1).
  destruct (verify_classify R HR self i row s Hi ltac:(assumption) Hrow) as (ret & -> & _). cbn [bind].
  destruct (Z.eqb_spec ret (-1)) as [->|]; [right; eauto|]. destruct (ret =? 0); [apply IH; exact Hnext|].
  destruct (updz fails k i); [|left; reflexivity]. cbn [bind]. apply IH. exact Hnext.
Qed.
Lemma verify_all_255_usable self coms ss : 1 <= self -> Forall (fun row => row <> [] /\ usable R row) coms -> zlen coms = 255 -> zlen ss = 255 -> index_ok self ->
  forall fuel i fails k, 0 <= i <= 255 -> verify_all fuel R 255 self coms ss i fails k = UB.
Proof.
  intros Hself Hrows Hc Hs Hi. induction fuel as [|fuel IH]; intros i fails k Hik; [reflexivity|].
  cbn [verify_all]. destruct (Z.leb_spec i 255); [|lia].
  assert (Hnext : 0 <= (i + 1) mod 256 <= 255) by (pose proof (Z.mod_pos_bound (i + 1) 256); lia).
  destruct (Z.eqb_spec i self); [apply IH; exact Hnext|].
  destruct (getz coms (i - 1)) as [row|] eqn:E1; [|reflexivity]. destruct (getz ss (i - 1)) as [s|] eqn:E2; [|reflexivity]. cbn [bind].
  assert (Hrow : row <> [] /\ usable R row) by (rewrite Forall_forall in Hrows; apply Hrows; eapply getz_In; exact E1).
  destruct (verify_classify R HR self i row s Hi ltac:(assumption) (proj1 Hrow)) as (ret & -> & _ & _ & Hm1). cbn [bind].
  destruct (Z.eqb_spec ret (-1)) as [->|]; [exfalso; apply Hm1; [reflexivity|apply Hrow]|]. destruct (ret =? 0); [apply IH; exact Hnext|].
  destruct (updz fails k i); [|reflexivity]. cbn [bind]. apply IH. exact Hnext.
Qed.
Lemma py_verify_255 al t self coms ss : 2 <= t <= 255 -> 1 <= self <= 255 -> zlen coms = 255 -> com_rows t coms ->
  zlen ss = 255 -> Forall plain ss -> al 255 = true -> Forall (usable R) coms ->
  py_dkg_verify_commitments R al 255 t self (concat (map (@concat byte) coms)) (map share_bytes ss) = Bad.
Proof.
  intros Ht Hself Hc Hrows Hs Hpl Hal Hus. rewrite py_verify_eq by (assumption || lia). unfold dkg_verify_commitments.
  rewrite verify_all_255_usable; [reflexivity|lia| |assumption|assumption|exact Hself|lia].
  apply Forall_forall. intros row Hrow. unfold com_rows in Hrows. rewrite Forall_forall in Hrows, Hus. split; [|apply Hus; exact Hrow].
  intros ->. destruct (Hrows [] Hrow) as (E & _). unfold zlen in E. cbn in E. lia.
Qed.

(** C63 *)
Lemma py_start_inv al a n t c ss : py_dkg_start R al true a n t = Ret (c, ss) -> n <= 254 -> zlen a = t -> Forall random_scalar a ->
  2 <= t <= n /\ c = concat (commitments_of R a) /\ ss = map share_bytes (shares_of a n).
Proof.
  unfold py_dkg_start. intros HE Hn Ha HF. destruct (Z.ltb_spec n t); [discriminate|]. destruct (Z.ltb_spec t 2); [discriminate|].
  apply pbind_ret in HE. destruct HE as (u1 & _ & HE). apply pbind_ret in HE. destruct HE as (u2 & _ & HE).
  rewrite (c_u8_small n), (c_u8_small t) in HE by lia. cbn [pbind] in HE. unfold zlen in Ha.
  rewrite dkg_start_eq in HE; [|lia|lia|exact Ha| |rewrite repeat_length; lia|rewrite repeat_length; lia].
  2:{ eapply Forall_impl; [|exact HF]. unfold random_scalar. intros; lia. }
  cbn [of_res pbind check Z.eqb] in HE. injection HE as <- <-. split; [lia|]. split; reflexivity.
Qed.
Lemma py_start_returns al a n t : 2 <= t <= n -> n <= 254 -> zlen a = t -> Forall random_scalar a -> al (n * 33) = true -> al (t * 32) = true ->
  exists o, py_dkg_start R al true a n t = Ret o.
Proof.
  intros Ht Hn Ha HF H1 H2. unfold py_dkg_start. destruct (Z.ltb_spec n t); [lia|]. destruct (Z.ltb_spec t 2); [lia|].
  unfold alloc. destruct (Z.ltb_spec (n * 33) 0); [lia|]. destruct (Z.ltb_spec (t * 32) 0); [lia|]. rewrite H1, H2. cbn [orb negb pbind].
  rewrite (c_u8_small n), (c_u8_small t) by lia. cbn [pbind]. unfold zlen in Ha.
  rewrite dkg_start_eq; [|lia|lia|exact Ha| |rewrite repeat_length; lia|rewrite repeat_length; lia].
  2:{ eapply Forall_impl; [|exact HF]. unfold random_scalar. intros; lia. }
  cbn [of_res pbind check Z.eqb]. eauto.
Qed.

Lemma nth_shares_bytes a n j : 1 <= j <= n -> nth (Z.to_nat (j - 1)) (map share_bytes (shares_of a n)) [] = share_bytes (mkShare j (poly a j mod L)).
Proof.
  intros Hj. unfold shares_of. rewrite <- (zrange_seq 1). apply nth_error_nth.
  rewrite map_map. erewrite map_nth_error; [reflexivity|]. rewrite zrange_nth by lia. f_equal. lia.
Qed.

Lemma column_plain A j : 1 <= j <= 255 -> Forall plain (column A j).
Proof.
  intros Hj. unfold column. apply Forall_map, Forall_forall. intros a _. split; cbn [s_index s_value]; [lia|].
  pose proof (mod_L_range (poly a j)). pose proof L_lt_2_256. lia.
Qed.

Lemma py_dkg_run al n t A outs : n <= 254 -> zlen A = n -> Forall (fun a => zlen a = t /\ Forall random_scalar a) A ->
  Forall2 (fun a o => py_dkg_start R al true a n t = Ret o) A outs -> al n = true -> A <> [] ->
  let coms := concat (map fst outs) in
  let mail := fun j => map (fun o => nth (Z.to_nat (j - 1)) (snd o) []) outs in
  (forall j, 1 <= j <= n -> py_dkg_verify_commitments R al n t j coms (mail j) = Ret [] /\ exists xi, py_dkg_finish n (mail j) j = Ret xi) /\
  forall js xis, NoDup js -> Forall (fun j => 1 <= j <= n) js -> t <= zlen js ->
    Forall2 (fun j xi => py_dkg_finish n (mail j) j = Ret xi) js xis ->
    py_dkg_reconstruct xis = Ret (le_bytes 32 (zsum (map (hd 0) A) mod L)).
Proof.
  intros Hn HA HF HO Hal Hne. cbv zeta.
  assert (Ht : 2 <= t <= n).
  { destruct A as [|a A]; [contradiction|]. inversion HO as [|? o ? ? Ho _]; subst. inversion HF as [|? ? (Ha & Har) _]; subst. destruct o as (c & ss).
    eapply py_start_inv; eauto. }
  assert (Eouts : outs = map (fun a => (concat (commitments_of R a), map share_bytes (shares_of a n))) A).
  { clear HA Hne. induction HO as [|a (c & ss) A outs Ho HO IH]; [reflexivity|]. inversion HF as [|? ? (Ha & Har) HF']; subst.
    cbn [map]. destruct (py_start_inv _ _ _ _ _ _ Ho Hn eq_refl Har) as (_ & -> & ->). f_equal. apply IH; assumption. }
  subst outs. clear HO. rewrite !map_map. cbn [fst].
  assert (Email : forall j, 1 <= j <= n -> map (fun o => nth (Z.to_nat (j - 1)) (snd o) []) (map (fun a => (concat (commitments_of R a), map share_bytes (shares_of a n))) A)
     = map share_bytes (column A j)).
  { intros j Hj. unfold column. rewrite !map_map. apply map_ext. intros a. cbn [snd]. apply nth_shares_bytes. exact Hj. }
  assert (Hcol : forall j, zlen (column A j) = n) by (intros j; unfold column, zlen; rewrite map_length; exact HA).
  assert (HF' : Forall (fun a => Z.of_nat (length a) = t /\ Forall random_scalar a) A) by exact HF.
  assert (Hfin : forall j, 1 <= j <= n -> py_dkg_finish n (map share_bytes (column A j)) j = Ret (share_bytes (mkShare j (dkg_finish (column A j))))).
  { intros j Hj. unfold py_dkg_finish. destruct (Z.ltb_spec j 1); [lia|]. destruct (Z.ltb_spec n j); [lia|]. cbn [orb].
    rewrite zlen_flat, Hcol, Z.eqb_refl. cbn [negb]. destruct (Z.ltb_spec 255 j); [lia|]. rewrite (c_u8_small n) by lia. cbn [pbind].
    rewrite <- (app_nil_r (concat _)). rewrite <- (Hcol j) at 1. rewrite shares_in_concat by (apply column_plain; lia). reflexivity. }
  split.
  - intros j Hj. rewrite Email by assumption. split; [|rewrite Hfin by assumption; eauto].
    assert (Hrows : com_rows t (map (commitments_of R) A)).
    { unfold com_rows. apply Forall_map. eapply Forall_impl; [|exact HF]. cbv beta. intros a (Ha & _). split.
      - unfold commitments_of, zlen. rewrite map_length. exact Ha.
      - unfold commitments_of. apply Forall_map, Forall_forall. intros x _. apply (ok_enc_len _ HR). }
    rewrite <- (map_map (commitments_of R) (@concat byte)).
    assert (Hzc : zlen (map (commitments_of R) A) = n) by (unfold zlen; rewrite map_length; exact HA).
    destruct (honest_recipient R HR n t A j ltac:(lia) ltac:(lia) HA HF' ltac:(unfold index_ok; lia)) as (_ & (fails & fails' & Hlf & E) & _).
    destruct (py_verify_outcome al n t j (map (commitments_of R) A) (column A j)) as [(Eo & _)|(_ & k & Hk)]; try assumption; try lia.
    + apply Hcol.
    + apply column_plain. lia.
    + exfalso. destruct (verify_commitments_spec R HR n t j (map (commitments_of R) A) (column A j) fails) as (ret & f2 & named & E2 & _ & _ & _ & Hcase).
      { pose proof (com_args t j n (map (commitments_of R) A) (column A j) Ht Hn Hj Hzc Hrows (Hcol j)) as Hargs.
        unfold verify_args in *. rewrite repeat_length in Hargs. intuition. }
      rewrite E in E2. injection E2 as <- <- En. destruct named; [|cbn [length] in En; lia].
      destruct Hcase as [(u & _ & _ & _ & E0 & _)|(Hnu & _ & Hin)]; [discriminate|].
      destruct Hk as [Hk|Hk]; [apply Hin in Hk; destruct Hk|exact (Hnu _ Hk)].
  - intros js xis Hnd Hjs Hq HFin.
    assert (Exis : xis = map share_bytes (map (fun j => mkShare j (dkg_finish (column A j))) js)).
    { clear Hnd Hq. induction HFin as [|j xi js xis Hxi HFin IH]; [reflexivity|]. inversion Hjs as [|? ? Hj Hjs']; subst.
      rewrite Email in Hxi by assumption. rewrite Hfin in Hxi by assumption. injection Hxi as <-. cbn [map]. f_equal. apply IH. assumption. }
    subst xis. rewrite py_reconstruct_eq.
    + rewrite (honest_reconstruct n t A js ltac:(lia) ltac:(lia) HA HF' Hnd); [reflexivity| |exact Hq].
      eapply Forall_impl; [|exact Hjs]. unfold index_ok. cbv beta. intros; lia.
    + apply Forall_map, Forall_forall. intros j Hj. rewrite Forall_forall in Hjs. specialize (Hjs j Hj). split; cbn [s_index s_value]; [lia|].
      assert (0 <= dkg_finish (column A j) < L); [|pose proof L_lt_2_256; lia].
      unfold dkg_finish. clear. assert (G : forall l acc, 0 <= acc < L -> 0 <= fold_left (fun acc s => scalar_add acc (s_value s)) l acc < L).
      { induction l as [|s l IH]; intros acc Hacc; cbn [fold_left]; [exact Hacc|]. apply IH. apply scalar_add_range. }
      apply G. pose proof L_pos. lia.
Qed.

(** ** C56 *)
Lemma bind_not_bad {A B} (x : py A) (f : A -> py B) : x <> Bad -> (forall a, x = Ret a -> f a <> Bad) -> pbind x f <> Bad.
Proof. destruct x; cbn; intros H1 H2; [apply H2; reflexivity|discriminate|contradiction]. Qed.
Lemma check_not_bad code : check code <> Bad.
Proof. unfold check. destruct (code =? 0); discriminate. Qed.
Lemma alloc_not_bad al size : alloc al size <> Bad.
Proof. unfold alloc. destruct (_ || _)%bool; discriminate. Qed.
Lemma c_u8_not_bad x : c_u8 x <> Bad.
Proof. unfold c_u8, c_int. destruct (_ && _)%bool; discriminate. Qed.
Lemma check_then {A} code (f : unit -> A) : pbind (check code) (fun u => Ret (f u)) <> Bad.
Proof. apply bind_not_bad; [apply check_not_bad|discriminate]. Qed.

Lemma py_blind_safe H lk1 lk2 r x : hashes_ok H -> py_blind R H lk1 lk2 r x <> Bad.
Proof.
  intros HH. unfold py_blind, oprf_Blind. destruct lk1; [|discriminate].
  rewrite sub_firstn; [|pose proof (Z.mod_le (zlen x) (2 ^ 8)); pose proof (Z.mod_pos_bound (zlen x) (2 ^ 8)); unfold zlen in *; lia].
  cbn [of_opt bind]. rewrite (htg_eq R H HH). destruct lk2; cbn [bind]; [|discriminate].
  change (0 =? 0) with true. cbv iota. destruct (scalarmult R r _) as (sret & q). destruct (sret =? 0); discriminate.
Qed.
Lemma py_evaluate_safe k b : py_evaluate R k b <> Bad.
Proof.
  unfold py_evaluate. destruct (negb _); [discriminate|]. destruct (negb _); [discriminate|]. destruct (oprf_Evaluate _ _ _). apply (check_then _ (fun _ => _)).
Qed.
Lemma py_unblind_safe lk r z : py_unblind R lk r z <> Bad.
Proof.
  unfold py_unblind. destruct (negb _); [discriminate|]. destruct (negb _); [discriminate|]. destruct (oprf_Unblind _ _ _ _). apply (check_then _ (fun _ => _)).
Qed.
Lemma py_finalize_safe H lk x N : py_finalize H lk x N <> Bad.
Proof.
  unfold py_finalize, oprf_Finalize. destruct (negb _); [discriminate|]. destruct lk; [|discriminate].
  rewrite sub_firstn; [|pose proof (Z.mod_le (zlen x) (2 ^ 16)); pose proof (Z.mod_pos_bound (zlen x) (2 ^ 16)); unfold zlen in *; lia].
  cbn [of_opt bind of_res pbind]. apply (check_then _ (fun _ => _)).
Qed.
Lemma py_unblind_finalize_safe H lk1 lk2 r z x : py_unblind_finalize R H lk1 lk2 r z x <> Bad.
Proof. unfold py_unblind_finalize. apply bind_not_bad; [apply py_unblind_safe|]. intros; apply py_finalize_safe. Qed.
Lemma py_thresholdmult_safe junk parts : length junk = length parts -> py_thresholdmult R junk parts <> Bad.
Proof.
  intros Hj. unfold py_thresholdmult. destruct (negb _); [discriminate|].
  assert (G : exists x, thresholdmult R (map part_of parts) junk = Ok x).
  { destruct (Nat.le_gt_cases (length (map part_of parts)) 255) as [Hl|Hl].
    - destruct (sort_parts_ok (map part_of parts)) as (order & Es & Hp).
      assert (Hdec : forall p, {contrib R (map ToprfModel.p_index (map part_of parts)) p <> None} + {~ contrib R (map ToprfModel.p_index (map part_of parts)) p <> None}).
      { intros p. destruct (contrib R (map ToprfModel.p_index (map part_of parts)) p); [left; discriminate|right; congruence]. }
      destruct (Forall_Exists_dec _ Hdec (map part_of parts)) as [HF|HE].
      + destruct (thresholdmult_spec R HR (map part_of parts) junk Hl ltac:(rewrite map_length; exact Hj)) as (H1 & _).
        eexists. apply H1. rewrite Forall_forall in HF. exact HF.
      + destruct (thresholdmult_spec R HR (map part_of parts) junk Hl ltac:(rewrite map_length; exact Hj)) as (_ & H2).
        apply Exists_exists in HE. destruct HE as (p & Hp1 & Hp2). destruct H2 as (r & E).
        { exists p. split; [exact Hp1|]. destruct (contrib R _ p); [exfalso; apply Hp2; discriminate|reflexivity]. }
        eauto.
    - eexists. apply (thresholdmult_long R). exact Hl. }
  destruct G as ((ret & r) & ->). cbn [of_res pbind]. apply (check_then _ (fun _ => _)).
Qed.
Lemma py_threshold_evaluate_safe k b self idx : py_threshold_evaluate R k b self idx <> Bad.
Proof.
  unfold py_threshold_evaluate. repeat (destruct (negb _); [discriminate|]). destruct (_ || _)%bool; [discriminate|]. destruct (negb _); [discriminate|].
  destruct (toprf_Evaluate _ _ _ _ _). apply (check_then _ (fun _ => _)).
Qed.
Lemma py_threshold_combine_safe parts : py_threshold_combine R parts <> Bad.
Proof.
  unfold py_threshold_combine. destruct (negb _); [discriminate|].
  destruct (combine_perm_ok R HR _ _ (zeros 32) (Permutation_refl (map part_of parts))) as (_ & ((ret & r) & ->)).
  cbn [of_res pbind]. apply (check_then _ (fun _ => _)).
Qed.
Lemma py_3hashtdh_safe H lk k z alpha ssid : hashes_ok H -> py_3hashtdh R H lk k z alpha ssid <> Bad.
Proof.
  intros HH. unfold py_3hashtdh. repeat (destruct (negb _); [discriminate|]). destruct (_ <? _); [discriminate|].
  assert (G : exists ret i v, toprf_3hashtdh R H lk (share_of k) (share_of z) alpha ssid = Ok (ret, (i, v))).
  { unfold toprf_3hashtdh. destruct (oprf_Evaluate R (s_value (share_of k)) alpha) as (r1 & b1) eqn:E1.
    destruct (Z.eqb_spec r1 0) as [->|]; cbn [negb]; [|eauto]. rewrite (htg_eq R H HH). destruct lk; cbn [bind]; [|eauto].
    change (negb (0 =? 0)) with false. cbv iota. destruct (oprf_Evaluate R (s_value (share_of z)) _) as (r3 & h2) eqn:E3.
    destruct (Z.eqb_spec r3 0) as [->|]; cbn [negb]; [|eauto].
    assert (Hs : forall k p v, oprf_Evaluate R k p = (0, v) -> exists w, v = Some w).
    { intros k0 p v. unfold oprf_Evaluate, scalarmult. destruct (rdec R p); [|discriminate]. intros E. inversion E. eauto. }
    destruct (Hs _ _ _ E1) as (w1 & ->). destruct (Hs _ _ _ E3) as (w3 & ->). eauto. }
  destruct G as (ret & i & v & ->). cbn [of_res pbind]. apply (check_then _ (fun _ => _)).
Qed.
Lemma py_dkg_finish_safe n shares self : py_dkg_finish n shares self <> Bad.
Proof.
  unfold py_dkg_finish. destruct (_ || _)%bool; [discriminate|]. destruct (negb _); [discriminate|]. destruct (_ <? _); [discriminate|].
  apply bind_not_bad; [apply c_u8_not_bad|discriminate].
Qed.
Lemma py_create_safe al reg a secret n t : n <= 254 -> zlen a = t - 1 -> py_create_shares al reg a secret n t <> Bad.
Proof.
  intros Hn Ha. unfold py_create_shares. destruct (negb _); [discriminate|]. destruct (Z.ltb_spec n t); [discriminate|]. destruct (Z.ltb_spec t 2); [discriminate|].
  apply bind_not_bad; [apply alloc_not_bad|]. intros u _. rewrite (c_u8_small n), (c_u8_small t) by lia. cbn [pbind].
  destruct (create_shares_safe (of_le secret) n t a (repeat (mkShare 0 0) (Z.to_nat n))) as (shares & -> & _); [lia|lia|exact Ha|rewrite repeat_length; lia|].
  cbn [of_res pbind]. apply (check_then _ (fun _ => _)).
Qed.
Lemma py_start_safe al lk a n t : n <= 254 -> zlen a = t -> py_dkg_start R al lk a n t <> Bad.
Proof.
  intros Hn Ha. unfold py_dkg_start. destruct (Z.ltb_spec n t); [discriminate|]. destruct (Z.ltb_spec t 2); [discriminate|].
  apply bind_not_bad; [apply alloc_not_bad|]. intros u _. apply bind_not_bad; [apply alloc_not_bad|]. intros u2 _.
  rewrite (c_u8_small n), (c_u8_small t) by lia. cbn [pbind]. destruct lk.
  - destruct (dkg_start_safe R n t a (repeat (zeros 32) (Z.to_nat t)) (repeat (mkShare 0 0) (Z.to_nat n))) as (cs & ss & -> & _);
      [lia|lia|exact Ha|rewrite repeat_length; lia|rewrite repeat_length; lia|].
    cbn [of_res pbind]. apply (check_then _ (fun _ => _)).
  - unfold dkg_start. cbn [negb of_res pbind]. apply (check_then _ (fun _ => _)).
Qed.
Lemma py_start_255 al a t : 2 <= t <= 255 -> al (255 * 33) = true -> al (t * 32) = true -> py_dkg_start R al true a 255 t = Bad.
Proof.
  intros Ht H1 H2. unfold py_dkg_start. destruct (Z.ltb_spec 255 t); [lia|]. destruct (Z.ltb_spec t 2); [lia|].
  unfold alloc. change (255 * 33 <? 0) with false. destruct (Z.ltb_spec (t * 32) 0); [lia|]. rewrite H1, H2. cbn [orb negb pbind].
  rewrite (c_u8_small 255), (c_u8_small t) by lia. cbn [pbind]. rewrite dkg_start_255_UB. reflexivity.
Qed.
Lemma shares_in_length k b : zlen (shares_in k b) = Z.max 0 k.
Proof. unfold shares_in, zlen. rewrite map_length, seq_length. lia. Qed.
Lemma py_verify_safe al n t self coms shares : n <= 254 -> py_dkg_verify_commitments R al n t self coms shares <> Bad.
Proof.
  intros Hn. unfold py_dkg_verify_commitments. destruct (Z.ltb_spec n t); [discriminate|]. destruct (Z.ltb_spec t 2); [discriminate|].
  destruct (Z.ltb_spec self 1); [discriminate|]. destruct (Z.ltb_spec n self); [discriminate|]. cbn [orb]. destruct (negb _); [discriminate|].
  destruct (negb _); [discriminate|]. apply bind_not_bad; [apply alloc_not_bad|]. intros u _.
  rewrite (c_u8_small n), (c_u8_small t), (c_u8_small self) by lia. cbn [pbind].
  destruct (verify_commitments_spec R HR n t self (rows_in n t coms) (shares_in n (concat shares)) (repeat 0 (Z.to_nat n))) as (ret & f & named & -> & _).
  { unfold verify_args, index_ok. rewrite repeat_length. pose proof (shares_in_length n (concat shares)) as Hl. unfold zlen in Hl.
    unfold rows_in. rewrite map_length, seq_length. repeat split; try lia.
    apply Forall_map, Forall_forall. intros i _. unfold rows. rewrite map_length, seq_length. lia. }
  cbn [of_res pbind]. apply (check_then _ (fun _ => _)).
Qed.
Lemma py_reconstruct_bad responses : py_dkg_reconstruct responses = Bad <-> zlen (concat responses) + 1 < 33 * zlen responses.
Proof.
  unfold py_dkg_reconstruct. replace (zlen (concat responses ++ [x00])) with (zlen (concat responses) + 1).
  2:{ unfold zlen. rewrite app_length. cbn [length]. lia. }
  destruct (Z.ltb_spec (zlen (concat responses) + 1) (33 * zlen responses)) as [Hlt|Hge]; split; intros HH; try reflexivity; try assumption; try discriminate. lia.
Qed.
End DKG.

Lemma py_safe_all R H : ristretto_ok R -> hashes_ok H ->
  (forall lk1 lk2 r x, py_blind R H lk1 lk2 r x <> Bad) /\
  (forall k b, py_evaluate R k b <> Bad) /\
  (forall lk r z, py_unblind R lk r z <> Bad) /\
  (forall lk x N, py_finalize H lk x N <> Bad) /\
  (forall lk1 lk2 r z x, py_unblind_finalize R H lk1 lk2 r z x <> Bad) /\
  (forall (junk : list Z) parts, length junk = length parts -> py_thresholdmult R junk parts <> Bad) /\
  (forall k b self idx, py_threshold_evaluate R k b self idx <> Bad) /\
  (forall parts, py_threshold_combine R parts <> Bad) /\
  (forall lk k z alpha ssid, py_3hashtdh R H lk k z alpha ssid <> Bad) /\
  (forall n shares self, py_dkg_finish n shares self <> Bad).
Proof.
  intros HR HH. repeat split; intros;
    [apply py_blind_safe|apply py_evaluate_safe|apply py_unblind_safe|apply py_finalize_safe|apply py_unblind_finalize_safe
    |apply py_thresholdmult_safe|apply py_threshold_evaluate_safe|apply py_threshold_combine_safe|apply py_3hashtdh_safe
    |apply py_dkg_finish_safe]; assumption.
Qed.

Lemma py_dkg_safe R : ristretto_ok R -> forall al n, n <= 254 ->
  (forall reg a secret t, zlen a = t - 1 -> py_create_shares al reg a secret n t <> Bad) /\
  (forall lk a t, zlen a = t -> py_dkg_start R al lk a n t <> Bad) /\
  (forall t self coms shares, py_dkg_verify_commitments R al n t self coms shares <> Bad).
Proof.
  intros HR al n Hn. repeat split; intros; [apply py_create_safe|apply py_start_safe|apply py_verify_safe]; assumption.
Qed.
