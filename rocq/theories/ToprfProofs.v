(** Proofs about the model of src/toprf.c. *)
From Coq Require Import ZArith Lia List Bool Field Permutation.
From Coq.Strings Require Import Byte.
From Verif Require Import Prime PrimeL Fq Poly Bytes Res Sodium OprfModel OprfSpec OprfProofs ToprfModel ToprfSpec.
Import ListNotations.
Open Scope list_scope.
Open Scope Z_scope.

(** ** integers and field elements *)
Lemma of_Z_poly cs x : of_Z (poly cs x) = peval (map of_Z cs) (of_Z x).
Proof.
  induction cs as [|c cs IH]; cbn [poly map peval]; [reflexivity|].
  rewrite of_Z_add, of_Z_mul, IH. reflexivity.
Qed.

Lemma of_Z_zprod l : of_Z (zprod l) = fprod (map of_Z l).
Proof. induction l as [|a l IH]; cbn [zprod fold_right map]; [reflexivity|]. rewrite of_Z_mul. unfold zprod in IH. rewrite IH. reflexivity. Qed.

Lemma of_Z_zsum l : of_Z (zsum l) = fsum (map of_Z l).
Proof. induction l as [|a l IH]; cbn [zsum fold_right map]; [reflexivity|]. rewrite of_Z_add. unfold zsum in IH. rewrite IH. reflexivity. Qed.

Lemma eq_mod_of_Z v z : 0 <= v < L -> of_Z v = of_Z z -> v = z mod L.
Proof. intros Hv E. apply of_Z_eq in E. rewrite Z.mod_small in E; assumption. Qed.

Lemma mod_L_range z : 0 <= z mod L < L.
Proof. apply Z.mod_pos_bound. apply L_pos. Qed.

Lemma of_Z_u8_inj a b : u8 a -> u8 b -> of_Z a = of_Z b -> a = b.
Proof. unfold u8. intros Ha Hb. pose proof L_gt_65536. apply of_Z_inj; lia. Qed.

Lemma of_Z_index_neq_0 a : index_ok a -> of_Z a <> 0%fq.
Proof.
  unfold index_ok. intros Ha E. pose proof L_gt_65536.
  change 0%fq with (of_Z 0) in E. apply of_Z_inj in E; lia.
Qed.

Lemma index_u8 a : index_ok a -> u8 a.
Proof. unfold index_ok, u8. lia. Qed.

Lemma NoDup_map_of_Z l : Forall u8 l -> NoDup l -> NoDup (map of_Z l).
Proof.
  intros HF. induction 1 as [|a l Ha Hnd IH]; cbn [map]; constructor.
  - intros Hin. apply in_map_iff in Hin. destruct Hin as (b & E & Hb).
    inversion HF; subst. apply of_Z_u8_inj in E; [subst; contradiction| |assumption].
    eapply Forall_forall; eassumption.
  - apply IH. inversion HF; assumption.
Qed.

Fixpoint fpow (x : Fq) (k : nat) : Fq := match k with O => 1%fq | S k' => (x * fpow x k')%fq end.

Lemma fpow_neq_0 x k : x <> 0%fq -> fpow x k <> 0%fq.
Proof.
  intros Hx. induction k as [|k IH]; cbn [fpow]; [exact fone_neq_fzero|]. apply fmul_neq_0; assumption.
Qed.

Lemma of_Z_mul_times k tmp x : of_Z (mul_times k tmp x) = (of_Z tmp * fpow (of_Z x) k)%fq.
Proof.
  revert tmp. induction k as [|k IH]; intros tmp; cbn [mul_times fpow].
  - ring.
  - rewrite IH, of_Z_scalar_mul. ring.
Qed.

Lemma mul_times_range k tmp x : 0 <= tmp < L -> 0 <= mul_times k tmp x < L.
Proof.
  revert tmp. induction k as [|k IH]; intros tmp H; cbn [mul_times]; [assumption|].
  apply IH. apply scalar_mul_range.
Qed.

(** ** coeff *)
Lemma coeff_fold index peers dd dv :
  Forall u8 peers ->
  exists dd' dv', fold_left (coeff_step index) peers (dd, dv) = (dd', dv') /\
    of_Z dd' = (of_Z dd * fprod (map of_Z (filter (fun p => negb (p =? index)) peers)))%fq /\
    of_Z dv' = (of_Z dv * fprod (map (fun p => of_Z p - of_Z index)%fq (filter (fun p => negb (p =? index)) peers)))%fq.
Proof.
  revert dd dv. induction peers as [|p peers IH]; intros dd dv HF; cbn [fold_left filter].
  - exists dd, dv. split; [reflexivity|]. unfold fprod. cbn. split; ring.
  - inversion HF as [|? ? Hp HF']; subst. unfold coeff_step at 2.
    destruct (Z.eqb_spec p index) as [->|Hne]; cbn [negb].
    + apply IH. assumption.
    + destruct (IH (scalar_mul dd p) (scalar_mul dv (scalar_sub p index)) HF') as (dd' & dv' & E & E1 & E2).
      exists dd', dv'. split; [assumption|]. cbn [map]. rewrite !fprod_cons, E1, E2.
      rewrite !of_Z_scalar_mul, of_Z_scalar_sub_L; [split; ring|].
      pose proof L_gt_65536. unfold u8 in Hp. lia.
Qed.

Lemma coeff_range index peers : 0 <= coeff index peers < L.
Proof. unfold coeff. destruct (fold_left _ _ _). apply scalar_mul_range. Qed.

Lemma filtered_sub_neq_0 index peers : u8 index -> Forall u8 peers ->
  fprod (map (fun p => of_Z p - of_Z index)%fq (filter (fun p => negb (p =? index)) peers)) <> 0%fq.
Proof.
  intros Hi HF. apply fprod_neq_0. apply Forall_forall. intros d Hd.
  apply in_map_iff in Hd. destruct Hd as (p & <- & Hp). apply filter_In in Hp. destruct Hp as (Hp & Hne).
  intros E. apply (proj1 (fsub_eq_0 _ _)) in E. apply of_Z_u8_inj in E; [|eapply Forall_forall; eassumption|assumption].
  subst. rewrite Z.eqb_refl in Hne. discriminate.
Qed.

Lemma coeff_field index peers : u8 index -> Forall u8 peers ->
  (of_Z (coeff index peers) *
    fprod (map (fun p => of_Z p - of_Z index) (filter (fun p => negb (p =? index)) peers)) =
   fprod (map of_Z (filter (fun p => negb (p =? index)) peers)))%fq.
Proof.
  intros Hi HF. unfold coeff.
  destruct (coeff_fold index peers 1 1 HF) as (dd & dv & E & E1 & E2). rewrite E.
  pose proof (filtered_sub_neq_0 index peers Hi HF) as Hne.
  rewrite of_Z_scalar_mul, of_Z_scalar_invert, E1, E2. change (of_Z 1) with 1%fq.
  field. assumption.
Qed.

Lemma coeff_lbasis index peers : u8 index -> Forall u8 peers ->
  of_Z (coeff index peers) = lbasis (map of_Z peers) (of_Z index) 0%fq.
Proof.
  intros Hi HF. pose proof (coeff_field index peers Hi HF) as E.
  pose proof (filtered_sub_neq_0 index peers Hi HF) as Hne.
  set (D := fprod (map (fun p => (of_Z p - of_Z index)%fq) (filter (fun p => negb (p =? index)) peers))) in *.
  set (c := of_Z (coeff index peers)) in *.
  assert (E' : (lbasis (map of_Z peers) (of_Z index) 0 * D)%fq = fprod (map of_Z (filter (fun p => negb (p =? index)) peers))).
  { subst D. clear c E Hne. unfold lbasis. rewrite map_map.
    induction HF as [|p peers Hp HF IH]; cbn [map filter].
    - unfold fprod. cbn. ring.
    - destruct (Z.eqb_spec p index) as [->|Hpi]; cbn [negb map].
      + rewrite feqb_refl, fprod_cons, <- IH. ring.
      + assert (Hq : of_Z p <> of_Z index) by (intros Eq; apply of_Z_u8_inj in Eq; auto).
        rewrite feqb_neq by assumption. rewrite !fprod_cons, <- IH.
        field. intros E. apply (proj1 (fsub_eq_0 _ _)) in E. congruence. }
  assert (E3 : ((c - lbasis (map of_Z peers) (of_Z index) 0) * D)%fq = 0%fq).
  { replace ((c - lbasis (map of_Z peers) (of_Z index) 0) * D)%fq
      with (c * D - lbasis (map of_Z peers) (of_Z index) 0 * D)%fq by ring.
    rewrite E, E'. ring. }
  apply fmul_integral in E3. destruct E3 as [E3|]; [|contradiction].
  apply (proj1 (fsub_eq_0 _ _)). assumption.
Qed.

Lemma coeff_perm index peers peers' : u8 index -> Forall u8 peers -> Permutation peers peers' ->
  coeff index peers = coeff index peers'.
Proof.
  intros Hi HF HP. assert (HF' : Forall u8 peers').
  { apply Forall_forall. intros x Hx. apply (Permutation_in _ (Permutation_sym HP)) in Hx.
    eapply Forall_forall; eassumption. }
  apply of_Z_inj; try apply coeff_range. rewrite !coeff_lbasis by assumption.
  apply lbasis_perm. apply Permutation_map. assumption.
Qed.

Lemma coeff_neq_0 index peers : index_ok index -> Forall index_ok peers ->
  of_Z (coeff index peers) <> 0%fq.
Proof.
  intros Hi HF. rewrite coeff_lbasis; [|apply index_u8; assumption|eapply Forall_impl; [|eassumption]; intros; apply index_u8; assumption].
  apply lbasis0_neq_0; [|apply of_Z_index_neq_0; assumption].
  intros Hin. apply in_map_iff in Hin. destruct Hin as (p & E & Hp).
  apply (of_Z_index_neq_0 p); [eapply Forall_forall; eassumption|assumption].
Qed.

(** integer form *)
Lemma coeff_spec_Z index peers : u8 index -> Forall u8 peers ->
  0 <= coeff index peers < L /\
  (coeff index peers * zprod (map (fun p => p - index) (filter (fun p => negb (p =? index)) peers))) mod L
    = zprod (filter (fun p => negb (p =? index)) peers) mod L /\
  (forall c, 0 <= c < L ->
     (c * zprod (map (fun p => p - index) (filter (fun p => negb (p =? index)) peers))) mod L
       = zprod (filter (fun p => negb (p =? index)) peers) mod L -> c = coeff index peers).
Proof.
  intros Hi HF. pose proof (coeff_field index peers Hi HF) as E.
  pose proof (filtered_sub_neq_0 index peers Hi HF) as Hne.
  set (F := filter (fun p => negb (p =? index)) peers) in *.
  assert (ED : of_Z (zprod (map (fun p => p - index) F)) = fprod (map (fun p => (of_Z p - of_Z index)%fq) F)).
  { rewrite of_Z_zprod, map_map. f_equal. apply map_ext. intros p. apply of_Z_sub. }
  split; [apply coeff_range|]. split.
  - apply of_Z_eq. rewrite of_Z_mul, ED, of_Z_zprod. assumption.
  - intros c Hc Ec. apply of_Z_eq in Ec. rewrite of_Z_mul, ED, of_Z_zprod, <- E in Ec.
    apply of_Z_inj; [assumption|apply coeff_range|].
    set (D := fprod (map (fun p => (of_Z p - of_Z index)%fq) F)) in *.
    assert (E3 : ((of_Z c - of_Z (coeff index peers)) * D)%fq = 0%fq).
    { replace ((of_Z c - of_Z (coeff index peers)) * D)%fq with (of_Z c * D - of_Z (coeff index peers) * D)%fq by ring.
      rewrite Ec. ring. }
    apply fmul_integral in E3. destruct E3 as [E3|]; [|contradiction].
    apply (proj1 (fsub_eq_0 _ _)). assumption.
Qed.

(** ** create_shares *)
Lemma share_value_aux a x m : forall l2 l1 acc,
  a = l1 ++ l2 -> length l2 = m -> 0 <= acc -> acc + L <= 2 ^ 256 ->
  exists v, foldM (fun j acc =>
           do aj <- getz a j ;;
           let tmp := mul_times (Z.to_nat j) (scalar_mul aj x) x in
           Ok (scalar_add acc tmp)) (zrange (Z.of_nat (length l1)) m) acc = Ok v /\
    of_Z v = (of_Z acc + fpow (of_Z x) (S (length l1)) * peval (map of_Z l2) (of_Z x))%fq /\
    (l2 = [] -> v = acc) /\ (l2 <> [] -> 0 <= v < L).
Proof.
  induction m as [|m IH]; intros l2 l1 acc Ha Hm H0 Hacc.
  - destruct l2; [|cbn in Hm; lia]. exists acc. cbn. split; [reflexivity|].
    split; [ring|]. split; [reflexivity|congruence].
  - destruct l2 as [|c l2]; [cbn in Hm; lia|]. rewrite zrange_S. cbn [foldM].
    assert (Hget : getz a (Z.of_nat (length l1)) = Ok c).
    { unfold getz. destruct (Z.ltb_spec (Z.of_nat (length l1)) 0); [lia|]. rewrite Nat2Z.id, Ha.
      rewrite nth_error_app2, Nat.sub_diag by lia. reflexivity. }
    rewrite Hget. cbn [bind]. rewrite Nat2Z.id.
    set (tmp := mul_times (length l1) (scalar_mul c x) x).
    assert (Ht : 0 <= tmp < L) by (apply mul_times_range, scalar_mul_range).
    assert (Hr : 0 <= scalar_add acc tmp < L) by apply scalar_add_range.
    pose proof L_lt_2_256.
    destruct (IH l2 (l1 ++ [c]) (scalar_add acc tmp)) as (v & E & Ev & Hnil & Hcons).
    + rewrite <- app_assoc. assumption.
    + cbn in Hm. lia.
    + lia.
    + lia.
    + rewrite app_length in E, Ev. cbn [length] in E, Ev.
      replace (Z.of_nat (length l1 + 1)) with (Z.of_nat (length l1) + 1) in E by lia.
      exists v. split; [exact E|]. split; [|split; [congruence|]].
      * rewrite Ev. rewrite of_Z_scalar_add by lia. unfold tmp. rewrite of_Z_mul_times, of_Z_scalar_mul.
        replace (length l1 + 1)%nat with (S (length l1)) by lia.
        cbn [fpow map peval]. ring.
      * intros _. destruct l2; [rewrite Hnil by reflexivity; assumption|]. apply Hcons. discriminate.
Qed.

Lemma share_value_eq secret t a x : 0 <= secret < L -> 1 <= t -> Z.of_nat (length a) = t - 1 ->
  share_value secret t a x = Ok (poly (secret :: a) x mod L).
Proof.
  intros Hs Ht Ha. unfold share_value. pose proof L_lt_2_256.
  destruct (share_value_aux a x (Z.to_nat (t - 1)) a [] secret eq_refl) as (v & E & Ev & Hnil & Hcons); [lia|lia|lia|].
  transitivity (Ok v : res Z); [exact E|]. f_equal. apply eq_mod_of_Z.
  - destruct a; [rewrite Hnil by reflexivity; assumption|apply Hcons; discriminate].
  - rewrite Ev, of_Z_poly. cbn [map peval fpow length]. ring.
Qed.

Lemma zrange_seq a k : zrange (Z.of_nat a) k = map Z.of_nat (seq a k).
Proof.
  revert a. induction k as [|k IH]; intros a; [reflexivity|].
  rewrite zrange_S. cbn [seq map]. f_equal. rewrite <- IH. f_equal. lia.
Qed.

Lemma create_shares_eq secret n t a buf :
  0 <= secret < L -> 1 <= n <= 254 -> 1 <= t <= 255 ->
  Z.of_nat (length a) = t - 1 -> Z.of_nat (length buf) = n ->
  create_shares secret n t a buf = Ok (shares_of (secret :: a) n).
Proof.
  intros Hs Hn Ht Ha Hb. unfold create_shares. destruct (Z.ltb_spec (t - 1) 0); [lia|].
  rewrite (loop_u8_le_foldM _ _ _ _ _ (Z.to_nat n)) by lia.
  unfold shares_of. rewrite <- (zrange_seq 1).
  apply (fill_loop (fun i => mkShare i (poly (secret :: a) i mod L))); [lia|].
  intros i b Hi Hlen. rewrite share_value_eq by (assumption || lia). reflexivity.
Qed.

Lemma loop_u8_le_255_UB {S} fuel i (body : Z -> S -> res S) st :
  0 <= i <= 255 -> loop_u8_le fuel i 255 body st = UB.
Proof.
  revert i st. induction fuel as [|fuel IH]; intros i st Hi; [reflexivity|].
  cbn [loop_u8_le]. destruct (Z.leb_spec i 255); [|lia].
  destruct (body i st); [|reflexivity]. cbn [bind]. apply IH.
  pose proof (Z.mod_pos_bound (i + 1) 256). lia.
Qed.

Lemma create_shares_255_UB secret t a buf : create_shares secret 255 t a buf = UB.
Proof.
  unfold create_shares. destruct (t - 1 <? 0); [reflexivity|]. apply loop_u8_le_255_UB. lia.
Qed.

Lemma shares_of_In cs n s : 0 <= n -> In s (shares_of cs n) <->
  1 <= s_index s <= n /\ s_value s = poly cs (s_index s) mod L.
Proof.
  intros Hn. unfold shares_of. rewrite <- (zrange_seq 1). rewrite in_map_iff. split.
  - intros (i & <- & Hi). apply zrange_In in Hi. cbn. lia.
  - intros (Hi & Hv). exists (s_index s). split; [destruct s; cbn in *; subst; reflexivity|].
    apply zrange_In. lia.
Qed.

Lemma shares_of_length cs n : length (shares_of cs n) = Z.to_nat n.
Proof. unfold shares_of. rewrite !map_length, seq_length. reflexivity. Qed.

(** ** quorums *)
Lemma quorum_facts cs n t qs : 1 <= n <= 254 -> quorum t (shares_of cs n) qs ->
  NoDup (map s_index qs) /\ Forall index_ok (map s_index qs) /\ t <= Z.of_nat (length qs) /\
  (length qs <= 255)%nat /\
  (forall s, In s qs -> s_value s = poly cs (s_index s) mod L).
Proof.
  intros Hn (Hnd & Hincl & Ht).
  assert (Hin : forall s, In s qs -> 1 <= s_index s <= n /\ s_value s = poly cs (s_index s) mod L).
  { intros s Hs. apply shares_of_In; [lia|]. apply Hincl. assumption. }
  assert (Hnd' : NoDup (map s_index qs)).
  { clear Ht Hincl. induction Hnd as [|s qs Hs Hnd IH]; cbn [map]; constructor.
    - intros Hi. apply in_map_iff in Hi. destruct Hi as (s' & E & Hs').
      destruct (Hin s (or_introl eq_refl)) as (_ & V). destruct (Hin s' (or_intror Hs')) as (_ & V').
      assert (s' = s) by (destruct s, s'; cbn in *; congruence). subst. contradiction.
    - apply IH. intros s' Hs'. apply Hin. right; assumption. }
  split; [assumption|]. split; [|split; [assumption|split]].
  - apply Forall_forall. intros i Hi. apply in_map_iff in Hi. destruct Hi as (s & <- & Hs).
    apply Hin in Hs. unfold index_ok. lia.
  - pose proof (NoDup_incl_length Hnd Hincl) as Hl. rewrite shares_of_length in Hl. lia.
  - intros s Hs. apply Hin. assumption.
Qed.

(** interpolation at 0 with the coefficients the code uses *)
Lemma coeff_interpolate cs qs :
  NoDup (map s_index qs) -> Forall index_ok (map s_index qs) -> (length cs <= length qs)%nat ->
  (forall s, In s qs -> of_Z (s_value s) = of_Z (poly cs (s_index s))) ->
  fsum (map (fun s => of_Z (coeff (s_index s) (map s_index qs)) * of_Z (s_value s))%fq qs) = of_Z (poly cs 0).
Proof.
  intros Hnd HF Hlen Hv.
  assert (HF8 : Forall u8 (map s_index qs)) by (eapply Forall_impl; [|exact HF]; intros; apply index_u8; assumption).
  rewrite of_Z_poly. change (of_Z 0) with 0%fq.
  set (xs := map of_Z (map s_index qs)).
  rewrite <- (lagrange xs (length cs) (peval (map of_Z cs)) 0%fq).
  - subst xs. rewrite !map_map. apply fsum_map_ext. intros s Hs.
    rewrite Hv by assumption. rewrite of_Z_poly. f_equal.
    rewrite coeff_lbasis; [rewrite map_map; reflexivity| |assumption].
    eapply Forall_forall; [exact HF8|]. apply in_map. assumption.
  - apply NoDup_map_of_Z; assumption.
  - subst xs. rewrite !map_length. assumption.
  - exists (map of_Z cs). split; [apply map_length|reflexivity].
Qed.

Lemma Forall2_length' {A B} (Q : A -> B -> Prop) l l' : Forall2 Q l l' -> length l = length l'.
Proof. induction 1; cbn; congruence. Qed.

Lemma Forall2_impl' {A B} (Q Q' : A -> B -> Prop) l l' :
  (forall a b, Q a b -> Q' a b) -> Forall2 Q l l' -> Forall2 Q' l l'.
Proof. intros H. induction 1; constructor; auto. Qed.

(** ** sort_parts *)
Lemma split_at {A} (l : list A) d : (0 < d < length l)%nat ->
  exists l1 y x l2, l = l1 ++ y :: x :: l2 /\ length l1 = (d - 1)%nat.
Proof.
  intros Hd. destruct (nth_error l (d - 1)) as [y|] eqn:E.
  - apply nth_error_split in E. destruct E as (l1 & l2 & E & Hl). subst l.
    destruct l2 as [|x l2].
    + rewrite app_length in Hd. cbn in Hd. lia.
    + exists l1, y, x, l2. auto.
  - apply nth_error_None in E. lia.
Qed.

Lemma swap_down_ok {A} (l : list A) d : (0 < d < length l)%nat ->
  exists l', swap_down l d = Ok l' /\ Permutation l' l /\ length l' = length l.
Proof.
  intros Hd. destruct (split_at l d Hd) as (l1 & y & x & l2 & -> & Hl).
  exists (l1 ++ x :: y :: l2). unfold swap_down.
  assert (E1 : nth_error (l1 ++ y :: x :: l2) d = Some x).
  { rewrite nth_error_app2 by lia. replace (d - length l1)%nat with 1%nat by lia. reflexivity. }
  assert (E2 : nth_error (l1 ++ y :: x :: l2) (d - 1) = Some y).
  { rewrite nth_error_app2 by lia. replace (d - 1 - length l1)%nat with 0%nat by lia. reflexivity. }
  assert (E3 : upd (l1 ++ y :: x :: l2) d y = Some (l1 ++ y :: y :: l2)).
  { replace (l1 ++ y :: x :: l2) with ((l1 ++ [y]) ++ x :: l2) by (rewrite <- app_assoc; reflexivity).
    replace d with (length (l1 ++ [y])) by (rewrite app_length; cbn; lia).
    rewrite upd_app_mid, <- app_assoc. reflexivity. }
  rewrite E1, E2. cbn [of_opt bind]. rewrite E3. cbn [of_opt bind].
  rewrite <- Hl, upd_app_mid. cbn [of_opt]. split; [reflexivity|]. split.
  - apply Permutation_app_head. apply perm_swap.
  - rewrite !app_length. reflexivity.
Qed.

Lemma sift_ok d : forall arr idx, (d < length arr)%nat -> length idx = length arr ->
  exists arr' idx', sift d arr idx = Ok (arr', idx') /\ Permutation idx' idx /\
    length arr' = length arr /\ length idx' = length idx.
Proof.
  induction d as [|d IH]; intros arr idx Hd Hl; cbn [sift].
  - exists arr, idx. auto.
  - destruct (nth_error arr (S d)) as [x|] eqn:E1; [|apply nth_error_None in E1; lia].
    destruct (nth_error arr d) as [y|] eqn:E2; [|apply nth_error_None in E2; lia].
    cbn [of_opt bind]. destruct (x <? y); [|exists arr, idx; auto].
    destruct (swap_down_ok arr (S d)) as (arr' & -> & _ & L1); [lia|]. cbn [bind].
    destruct (swap_down_ok idx (S d)) as (idx' & -> & P2 & L2); [lia|]. cbn [bind].
    destruct (IH arr' idx') as (arr2 & idx2 & E & P & L3 & L4); [lia|lia|].
    exists arr2, idx2. split; [assumption|]. split; [|lia]. eapply Permutation_trans; eassumption.
Qed.

Lemma sort_parts_ok parts : exists order, sort_parts parts = Ok order /\ Permutation order (seq 0 (length parts)).
Proof.
  unfold sort_parts.
  destruct (foldM_is_ok (fun c '(arr, idx) => sift c arr idx)
             (fun '(arr, idx) => length arr = length parts /\ length idx = length parts /\ Permutation idx (seq 0 (length parts)))
             (seq 1 (length parts - 1)) (map p_index parts, seq 0 (length parts))) as ((arr & idx) & E & H).
  - rewrite map_length, seq_length. auto.
  - intros c (arr & idx) Hc (H1 & H2 & H3). apply in_seq in Hc.
    destruct (sift_ok c arr idx) as (arr' & idx' & E & P & L1 & L2); [lia|lia|].
    exists (arr', idx'). split; [assumption|]. split; [lia|]. split; [lia|].
    eapply Permutation_trans; eassumption.
  - exists idx. rewrite E. cbn [bind]. split; [reflexivity|]. apply H.
Qed.

Lemma map_nth_error_perm {A} (l : list A) order : Permutation order (seq 0 (length l)) ->
  exists l', Permutation l' l /\ Forall2 (fun i x => nth_error l i = Some x) order l'.
Proof.
  intros HP.
  assert (G : forall o, (forall i, In i o -> (i < length l)%nat) ->
    exists l', Forall2 (fun i x => nth_error l i = Some x) o l').
  { induction o as [|i o IH]; intros H.
    - exists []. constructor.
    - destruct IH as (l' & HF); [intros; apply H; right; assumption|].
      destruct (nth_error l i) as [x|] eqn:E.
      + exists (x :: l'). constructor; assumption.
      + apply nth_error_None in E. specialize (H i (or_introl eq_refl)). lia. }
  destruct (G order) as (l' & HF).
  { intros i Hi. apply (Permutation_in _ HP) in Hi. apply in_seq in Hi. lia. }
  exists l'. split; [|assumption].
  (* l' = map (nth) order ~ map (nth) (seq) = l *)
  assert (E1 : map Some l' = map (nth_error l) order).
  { clear -HF. induction HF as [|i x o l' E HF IH]; cbn [map]; [reflexivity|]. rewrite E, IH. reflexivity. }
  assert (E2 : map Some l = map (nth_error l) (seq 0 (length l))).
  { clear. change l with ([] ++ l) at 2. change O with (length (@nil A)).
    generalize (@nil A) as pre. induction l as [|x l IH]; intros pre; cbn [map length seq]; [reflexivity|].
    f_equal.
    - rewrite nth_error_app2, Nat.sub_diag by lia. reflexivity.
    - specialize (IH (pre ++ [x])). rewrite <- app_assoc in IH. cbn [app] in IH.
      rewrite app_length in IH. cbn [length] in IH. replace (length pre + 1)%nat with (S (length pre)) in IH by lia.
      exact IH. }
  assert (P : Permutation (map Some l') (map Some l)).
  { rewrite E1, E2. apply Permutation_map. assumption. }
  apply Permutation_map_inv in P. destruct P as (l3 & E3 & P3).
  assert (l' = l3).
  { clear -E3. revert l3 E3. induction l' as [|x l' IH]; intros [|y l3] E; cbn in E; try discriminate; [reflexivity|].
    inversion E. f_equal. apply IH. assumption. }
  subst. apply Permutation_sym. assumption.
Qed.

Lemma nth_error_ext' {A} (l l' : list A) : length l = length l' ->
  (forall i, (i < length l)%nat -> nth_error l i = nth_error l' i) -> l = l'.
Proof.
  revert l'. induction l as [|x l IH]; intros [|y l'] Hl H; cbn in *; try lia; [reflexivity|].
  pose proof (H O ltac:(lia)) as H0. cbn in H0. inversion H0. f_equal. apply IH; [lia|].
  intros i Hi. apply (H (S i)). lia.
Qed.

(** the index array is rebuilt in the original order *)
Lemma index_array parts order junk : length junk = length parts -> Permutation order (seq 0 (length parts)) ->
  foldM (fun k idxs => do p <- of_opt (nth_error parts k) ;; of_opt (upd idxs k (p_index p))) order junk
  = Ok (map p_index parts).
Proof.
  intros Hj HP.
  assert (G : forall o junk, length junk = length parts -> (forall i, In i o -> (i < length parts)%nat) ->
    exists r, foldM (fun k idxs => do p <- of_opt (nth_error parts k) ;; of_opt (upd idxs k (p_index p))) o junk = Ok r /\
      length r = length parts /\
      forall i, nth_error r i = if in_dec Nat.eq_dec i o then option_map p_index (nth_error parts i) else nth_error junk i).
  { induction o as [|k o IH]; intros j0 Hj0 Ho; cbn [foldM].
    - exists j0. auto.
    - destruct (nth_error parts k) as [p|] eqn:E.
      2:{ apply nth_error_None in E. specialize (Ho k (or_introl eq_refl)). lia. }
      cbn [of_opt bind].
      destruct (upd_some j0 k (p_index p)) as (j1 & E1); [specialize (Ho k (or_introl eq_refl)); lia|].
      rewrite E1. cbn [of_opt bind].
      destruct (IH j1) as (r & Er & Lr & Hr).
      + rewrite (upd_length _ _ _ _ E1). assumption.
      + intros i Hi. apply Ho. right; assumption.
      + exists r. split; [assumption|]. split; [assumption|]. intros i. rewrite Hr.
        destruct (in_dec Nat.eq_dec i o) as [Hi|Hi]; destruct (in_dec Nat.eq_dec i (k :: o)) as [Hi'|Hi']; try reflexivity.
        * exfalso. apply Hi'. right; assumption.
        * destruct Hi' as [->|]; [|contradiction].
          rewrite (nth_error_upd _ _ _ _ _ E1), Nat.eqb_refl, E. reflexivity.
        * rewrite (nth_error_upd _ _ _ _ _ E1). destruct (Nat.eqb_spec i k); [|reflexivity].
          subst. exfalso. apply Hi'. left; reflexivity. }
  destruct (G order junk Hj) as (r & Er & Lr & Hr).
  { intros i Hi. apply (Permutation_in _ HP) in Hi. apply in_seq in Hi. lia. }
  rewrite Er. f_equal. apply nth_error_ext'; [rewrite map_length; assumption|].
  intros i Hi. rewrite Hr. destruct (in_dec Nat.eq_dec i order) as [|Hn].
  - rewrite nth_error_map. reflexivity.
  - exfalso. apply Hn. apply (Permutation_in _ (Permutation_sym HP)). apply in_seq. lia.
Qed.

(** ** thresholdmult *)
Lemma gsum_perm R : ristretto_ok R -> forall l l', Permutation l l' -> gsum R l = gsum R l'.
Proof.
  intros HR l l'. induction 1; rewrite ?gsum_cons.
  - reflexivity.
  - rewrite IHPermutation. reflexivity.
  - rewrite !(radd_assoc R HR). f_equal. apply (radd_comm R HR).
  - congruence.
Qed.

Section Combine.
  Variable R : ristretto.
  Hypothesis HR : ristretto_ok R.

  (** the group element a part contributes; [None]: not a group element, or the product is
      the identity *)
  Definition contrib (indexes : list Z) (p : part) : option (rG R) :=
    match rdec R (p_value p) with
    | None => None
    | Some P => let Q := gmul R (of_Z (coeff (p_index p) indexes)) P in
                if bytes_eqb (renc R Q) (zeros 32) then None else Some Q
    end.
  Definition contrib0 indexes p : rG R := match contrib indexes p with Some Q => Q | None => rzero R end.

  Lemma scalarmult_contrib indexes p :
    scalarmult R (coeff (p_index p) indexes) (p_value p) =
    match contrib indexes p with
    | Some Q => (0, Some (renc R Q))
    | None => (-1, snd (scalarmult R (coeff (p_index p) indexes) (p_value p)))
    end.
  Proof.
    unfold contrib. destruct (rdec R (p_value p)) as [P|] eqn:E.
    - apply (ok_enc_dec _ HR) in E. rewrite <- E.
      rewrite (scalarmult_enc_gen R HR).
      + cbv zeta. destruct (bytes_eqb _ _); reflexivity.
      + pose proof (coeff_range (p_index p) indexes). pose proof L_lt_2_255. lia.
    - unfold scalarmult. rewrite E. reflexivity.
  Qed.

  Lemma mult_loop_spec parts indexes order ps acc :
    Forall2 (fun i x => nth_error parts i = Some x) order ps ->
    ((forall p, In p ps -> contrib indexes p <> None) ->
       mult_loop R parts indexes order (renc R acc) =
       Ok (0, renc R (radd R acc (gsum R (map (contrib0 indexes) ps))))) /\
    ((exists p, In p ps /\ contrib indexes p = None) ->
       exists r, mult_loop R parts indexes order (renc R acc) = Ok (1, r)).
  Proof.
    intros HF. revert acc. induction HF as [|i p order ps E HF IH]; intros acc; cbn [mult_loop].
    - split.
      + intros _. cbn [map gsum fold_right]. rewrite (radd_0_r R HR). reflexivity.
      + intros (p & [] & _).
    - rewrite E. cbn [of_opt bind]. rewrite scalarmult_contrib.
      destruct (contrib indexes p) as [Q|] eqn:EQ.
      + rewrite Z.eqb_refl. rewrite (core_add_enc R HR). destruct (IH (radd R acc Q)) as (IH1 & IH2). split.
        * intros H. rewrite IH1 by (intros; apply H; right; assumption). cbn [map].
          rewrite gsum_cons. unfold contrib0 at 2. rewrite EQ. rewrite (radd_assoc R HR). reflexivity.
        * intros (p' & [<-|Hp'] & E'); [congruence|]. apply IH2. exists p'. auto.
      + split.
        * intros H. exfalso. apply (H p (or_introl eq_refl)). assumption.
        * intros _. exists (renc R acc). reflexivity.
  Qed.

  Lemma thresholdmult_spec parts junk :
    (length parts <= 255)%nat -> length junk = length parts ->
    ((forall p, In p parts -> contrib (map p_index parts) p <> None) ->
       thresholdmult R parts junk = Ok (0, renc R (gsum R (map (contrib0 (map p_index parts)) parts)))) /\
    ((exists p, In p parts /\ contrib (map p_index parts) p = None) ->
       exists r, thresholdmult R parts junk = Ok (1, r)).
  Proof.
    intros Hlen Hj. unfold thresholdmult.
    destruct (Z.of_nat (length parts) >? 255) eqn:E; [apply Z.gtb_lt in E; lia|].
    destruct (sort_parts_ok parts) as (order & -> & HP). cbn [bind].
    rewrite index_array by assumption. cbn [bind].
    destruct (map_nth_error_perm parts order HP) as (ps & Pps & HF).
    rewrite <- (ok_enc_zero _ HR).
    destruct (mult_loop_spec parts (map p_index parts) order ps (rzero R) HF) as (H1 & H2). split.
    - intros H. rewrite H1.
      + rewrite (radd_0_l R HR). do 3 f_equal. apply (gsum_perm R HR). apply Permutation_map. assumption.
      + intros p Hp. apply H. apply (Permutation_in _ Pps). assumption.
    - intros (p & Hp & Ep). apply H2. exists p. split; [|assumption].
      apply (Permutation_in _ (Permutation_sym Pps)). assumption.
  Qed.

  Lemma thresholdmult_long parts junk : (255 < length parts)%nat -> thresholdmult R parts junk = Ok (1, zeros 32).
  Proof.
    intros H. unfold thresholdmult. destruct (Z.of_nat (length parts) >? 255) eqn:E; [reflexivity|].
    rewrite Z.gtb_ltb in E. apply Z.ltb_ge in E. lia.
  Qed.

  Lemma contrib_dec indexes ps :
    (forall p, In p ps -> contrib indexes p <> None) \/ (exists p, In p ps /\ contrib indexes p = None).
  Proof.
    induction ps as [|p ps IH].
    - left. intros p [].
    - destruct (contrib indexes p) eqn:E.
      + destruct IH as [IH|(p' & Hp' & E')].
        * left. intros p' [<-|Hp']; [congruence|]. apply IH. assumption.
        * right. exists p'. split; [right|]; assumption.
      + right. exists p. split; [left; reflexivity|assumption].
  Qed.

  Lemma contrib_perm idx1 idx2 p : u8 (p_index p) -> Forall u8 idx1 -> Permutation idx1 idx2 ->
    contrib idx1 p = contrib idx2 p.
  Proof. intros Hp HF HP. unfold contrib. rewrite (coeff_perm _ _ _ Hp HF HP). reflexivity. Qed.

  (** C11, thresholdmult *)
  Lemma thresholdmult_perm parts parts' junk junk' :
    Permutation parts parts' -> Forall (fun p => u8 (p_index p)) parts ->
    length junk = length parts -> length junk' = length parts' ->
    exists ret r r', thresholdmult R parts junk = Ok (ret, r) /\ thresholdmult R parts' junk' = Ok (ret, r') /\
      (ret = 0 -> r = r').
  Proof.
    intros HP HF Hj Hj'.
    pose proof (Permutation_length HP) as HL.
    destruct (Nat.le_gt_cases (length parts) 255) as [Hlen|Hlen].
    2:{ exists 1, (zeros 32), (zeros 32). rewrite !thresholdmult_long by lia. auto. }
    assert (HPi : Permutation (map p_index parts) (map p_index parts')) by (apply Permutation_map; assumption).
    assert (HFi : Forall u8 (map p_index parts)).
    { apply Forall_forall. intros i Hi. apply in_map_iff in Hi. destruct Hi as (p & <- & Hp).
      apply (proj1 (Forall_forall _ _) HF p Hp). }
    assert (Hc : forall p, In p parts -> contrib (map p_index parts) p = contrib (map p_index parts') p).
    { intros p Hp. apply contrib_perm; try assumption. apply (proj1 (Forall_forall _ _) HF p Hp). }
    destruct (thresholdmult_spec parts junk ltac:(lia) ltac:(lia)) as (A1 & A2).
    destruct (thresholdmult_spec parts' junk' ltac:(lia) ltac:(lia)) as (B1 & B2).
    destruct (contrib_dec (map p_index parts) parts) as [D|D].
    - exists 0. eexists. eexists. split; [apply A1; assumption|]. split.
      + apply B1. intros p Hp. apply (Permutation_in _ (Permutation_sym HP)) in Hp. rewrite <- Hc by assumption.
        apply D. assumption.
      + intros _. f_equal.
        transitivity (gsum R (map (contrib0 (map p_index parts')) parts)).
        * f_equal. apply map_ext_in. intros p Hp. unfold contrib0. rewrite Hc by assumption. reflexivity.
        * apply (gsum_perm R HR). apply Permutation_map. assumption.
    - destruct (A2 D) as (r & Er). destruct D as (p & Hp & Ep).
      destruct B2 as (r' & Er').
      { exists p. split; [apply (Permutation_in _ HP); assumption|]. rewrite <- Hc; assumption. }
      exists 1, r, r'. split; [assumption|]. split; [assumption|]. lia.
  Qed.

  (** ** thresholdcombine *)
  Definition dec0 (p : part) : rG R := match rdec R (p_value p) with Some P => P | None => rzero R end.

  Lemma combine_loop_spec parts order ps acc :
    Forall2 (fun i x => nth_error parts i = Some x) order ps ->
    combine_loop R parts order (renc R acc) = Ok (renc R (radd R acc (gsum R (map dec0 ps)))).
  Proof.
    intros HF. revert acc. induction HF as [|i p order ps E HF IH]; intros acc; cbn [combine_loop].
    - cbn [map gsum fold_right]. rewrite (radd_0_r R HR). reflexivity.
    - rewrite E. cbn [of_opt bind map]. rewrite gsum_cons. unfold core_add. rewrite (ok_dec_enc _ HR).
      unfold dec0 at 1. destruct (rdec R (p_value p)) as [P|].
      + rewrite IH. rewrite (radd_assoc R HR). reflexivity.
      + rewrite IH. rewrite (radd_0_l R HR). reflexivity.
  Qed.

  Lemma thresholdcombine_spec parts r0 : (length parts <= 255)%nat ->
    thresholdcombine R parts r0 = Ok (0, renc R (gsum R (map dec0 parts))).
  Proof.
    intros Hlen. unfold thresholdcombine.
    destruct (Z.of_nat (length parts) >? 255) eqn:E; [apply Z.gtb_lt in E; lia|].
    destruct (sort_parts_ok parts) as (order & -> & HP). cbn [bind].
    destruct (map_nth_error_perm parts order HP) as (ps & Pps & HF).
    rewrite <- (ok_enc_zero _ HR). rewrite (combine_loop_spec parts order ps) by assumption. cbn [bind].
    rewrite (radd_0_l R HR). do 3 f_equal. apply (gsum_perm R HR). apply Permutation_map. assumption.
  Qed.

  Lemma thresholdcombine_long parts r0 : (255 < length parts)%nat ->
    thresholdcombine R parts r0 = Ok (1, r0).
  Proof.
    intros H. unfold thresholdcombine. destruct (Z.of_nat (length parts) >? 255) eqn:E; [reflexivity|].
    rewrite Z.gtb_ltb in E. apply Z.ltb_ge in E. lia.
  Qed.

  Lemma thresholdcombine_perm parts parts' r0 : Permutation parts parts' ->
    thresholdcombine R parts r0 = thresholdcombine R parts' r0.
  Proof.
    intros HP. pose proof (Permutation_length HP) as HL.
    destruct (Nat.le_gt_cases (length parts) 255) as [Hlen|Hlen].
    - rewrite !thresholdcombine_spec by lia. do 3 f_equal. apply (gsum_perm R HR). apply Permutation_map. assumption.
    - rewrite !thresholdcombine_long by lia. reflexivity.
  Qed.

  (** ** what oprf_Evaluate returned successfully *)
  Lemma evaluate_ok k alpha P v : rdec R alpha = Some P -> 0 <= k < 2 ^ 255 ->
    oprf_Evaluate R k alpha = (0, Some v) -> v = renc R (gmul R (of_Z k) P) /\ gmul R (of_Z k) P <> rzero R.
  Proof.
    intros HD Hk. apply (ok_enc_dec _ HR) in HD. subst alpha. unfold oprf_Evaluate.
    rewrite (scalarmult_enc_gen R HR) by assumption.
    destruct (bytes_eqb _ _) eqn:E; [discriminate|]. intros E'. inversion E'; subst. split; [reflexivity|].
    intros E0. apply (renc_zero_iff R HR) in E0. congruence.
  Qed.

  Lemma gsum_map_ext {A} (f g : A -> rG R) l : (forall x, In x l -> f x = g x) ->
    gsum R (map f l) = gsum R (map g l).
  Proof. intros H. f_equal. apply map_ext_in. assumption. Qed.

  Lemma Forall2_map_index {A} (f : A -> Z) qs parts :
    Forall2 (fun (s : A) p => p_index p = f s) qs parts -> map p_index parts = map f qs.
  Proof. induction 1 as [|s p qs parts E _ IH]; cbn [map]; [reflexivity|]. rewrite E, IH. reflexivity. Qed.

  Lemma Forall2_gsum {A} (f : A -> rG R) (g : part -> rG R) qs parts :
    Forall2 (fun s p => f s = g p) qs parts -> gsum R (map g parts) = gsum R (map f qs).
  Proof.
    induction 1 as [|s p qs parts E _ IH]; cbn [map]; [reflexivity|]. rewrite !gsum_cons, IH, E. reflexivity.
  Qed.

  (** C10 in general form *)
  Lemma thresholdmult_correct cs qs parts alpha P junk :
    rdec R alpha = Some P ->
    NoDup (map s_index qs) -> Forall index_ok (map s_index qs) -> (length cs <= length qs)%nat ->
    (length qs <= 255)%nat ->
    (forall s, In s qs -> 0 <= s_value s < L /\ of_Z (s_value s) = of_Z (poly cs (s_index s))) ->
    Forall2 (fun s p => p_index p = s_index s /\ oprf_Evaluate R (s_value s) alpha = (0, Some (p_value p))) qs parts ->
    length junk = length parts ->
    thresholdmult R parts junk = Ok (0, renc R (gmul R (of_Z (poly cs 0)) P)).
  Proof.
    intros HD Hnd HF Hlen H255 Hv HE Hj.
    pose proof (Forall2_length' _ _ _ HE) as HL.
    assert (Hidx : map p_index parts = map s_index qs).
    { apply Forall2_map_index. eapply Forall2_impl'; [|exact HE]. cbn. tauto. }
    assert (HE' : Forall2 (fun s p => contrib (map p_index parts) p =
        Some (gmul R (of_Z (coeff (s_index s) (map s_index qs)) * of_Z (s_value s))%fq P)) qs parts).
    { rewrite Hidx. assert (Hall : forall s, In s qs -> index_ok (s_index s) /\ 0 <= s_value s < 2 ^ 255).
      { intros s Hs. split; [eapply Forall_forall; [exact HF|apply in_map; assumption]|].
        pose proof L_lt_2_255. destruct (Hv s Hs). lia. }
      clear -HR HD HE HF Hall. set (idx := map s_index qs) in *. clearbody idx. revert Hall.
      induction HE as [|s p qs parts (E1 & E2) HE IH]; intros Hall; constructor.
      - destruct (Hall s (or_introl eq_refl)) as (Hi & Hsv).
        apply (evaluate_ok _ _ _ _ HD Hsv) in E2. destruct E2 as (Ev & Hne).
        unfold contrib. rewrite Ev, (ok_dec_enc _ HR), E1, <- (gmul_mul R HR).
        cbv zeta. destruct (bytes_eqb _ _) eqn:EB; [|reflexivity]. exfalso.
        apply (renc_zero_iff R HR) in EB. rewrite (gmul_mul R HR) in EB. apply (gmul_eq_0 R HR) in EB.
        destruct EB as [EB|EB]; [|contradiction]. apply (coeff_neq_0 _ _ Hi HF). assumption.
      - apply IH. intros s' Hs'. apply Hall. right; assumption. }
    destruct (thresholdmult_spec parts junk ltac:(lia) Hj) as (H1 & _). rewrite H1.
    - do 3 f_equal.
      rewrite (Forall2_gsum (fun s => gmul R (of_Z (coeff (s_index s) (map s_index qs)) * of_Z (s_value s))%fq P)
                 (contrib0 (map p_index parts)) qs parts).
      + rewrite (gsum_gmul R HR). f_equal. apply coeff_interpolate; try assumption.
        intros s Hs. apply Hv. assumption.
      + eapply Forall2_impl'; [|exact HE']. cbn. intros s p E. unfold contrib0. rewrite E. reflexivity.
    - intros p Hp. clear -HE' Hp. revert Hp.
      set (idx := map p_index parts) in *. clearbody idx.
      induction HE' as [|s q qs' parts' E _ IH]; intros Hp; [destruct Hp|].
      destruct Hp as [<-|Hp]; [congruence|apply IH; assumption].
  Qed.

  (** C12 in general form *)
  Lemma toprf_evaluate_ok s alpha P self idx v : rdec R alpha = Some P ->
    toprf_Evaluate R s alpha self idx = (0, Some v) ->
    v = renc R (gmul R (of_Z (s_value s) * of_Z (coeff self idx))%fq P).
  Proof.
    intros HD. unfold toprf_Evaluate.
    destruct (oprf_Evaluate R (scalar_mul (s_value s) (coeff self idx)) alpha) as (ret & z) eqn:E.
    destruct (Z.eqb_spec ret 0) as [->|]; [|discriminate]. intros E'. inversion E'; subst.
    apply (evaluate_ok _ _ _ _ HD) in E.
    - rewrite of_Z_scalar_mul in E. apply E.
    - pose proof (scalar_mul_range (s_value s) (coeff self idx)). pose proof L_lt_2_255. lia.
  Qed.

  Lemma combine_correct cs qs parts alpha P r0 :
    rdec R alpha = Some P ->
    NoDup (map s_index qs) -> Forall index_ok (map s_index qs) -> (length cs <= length qs)%nat ->
    (length qs <= 255)%nat ->
    (forall s, In s qs -> of_Z (s_value s) = of_Z (poly cs (s_index s))) ->
    Forall2 (fun s p => exists idx, Permutation idx (map s_index qs) /\
               toprf_Evaluate R s alpha (s_index s) idx = (0, Some (p_value p))) qs parts ->
    thresholdcombine R parts r0 = Ok (0, renc R (gmul R (of_Z (poly cs 0)) P)).
  Proof.
    intros HD Hnd HF Hlen H255 Hv HE.
    pose proof (Forall2_length' _ _ _ HE) as HL.
    rewrite thresholdcombine_spec by lia. do 3 f_equal.
    rewrite (Forall2_gsum (fun s => gmul R (of_Z (coeff (s_index s) (map s_index qs)) * of_Z (s_value s))%fq P) dec0 qs parts).
    - rewrite (gsum_gmul R HR). f_equal. apply coeff_interpolate; assumption.
    - assert (Hall : forall s, In s qs -> index_ok (s_index s)).
      { intros s Hs. eapply Forall_forall; [exact HF|]. apply in_map. assumption. }
      clear -HR HD HE HF Hall. set (idx0 := map s_index qs) in *. clearbody idx0. revert Hall.
      induction HE as [|s p qs parts (idx & HP & E) HE IH]; intros Hall; constructor.
      + apply (toprf_evaluate_ok _ _ _ _ _ _ HD) in E. unfold dec0. rewrite E, (ok_dec_enc _ HR).
        rewrite (coeff_perm (s_index s) idx0 idx).
        * f_equal. ring.
        * apply index_u8. apply Hall. left; reflexivity.
        * eapply Forall_impl; [|exact HF]. intros; apply index_u8; assumption.
        * apply Permutation_sym. assumption.
      + apply IH. intros s' Hs'. apply Hall. right; assumption.
  Qed.
End Combine.

(** ** sharing parameters a caller may use *)
Lemma created secret n t a buf shares : sharing_params secret n t a buf ->
  create_shares secret n t a buf = Ok shares -> shares = shares_of (secret :: a) n.
Proof.
  intros (H1 & H2 & H3 & H4 & H5). rewrite create_shares_eq by assumption. congruence.
Qed.

Lemma poly_cons_0 c cs : poly (c :: cs) 0 = c.
Proof. cbn [poly]. lia. Qed.

Lemma quorum_ready secret n t a buf qs : sharing_params secret n t a buf ->
  quorum t (shares_of (secret :: a) n) qs ->
  NoDup (map s_index qs) /\ Forall index_ok (map s_index qs) /\ (length (secret :: a) <= length qs)%nat /\
  (length qs <= 255)%nat /\
  (forall s, In s qs -> 0 <= s_value s < L /\ of_Z (s_value s) = of_Z (poly (secret :: a) (s_index s))).
Proof.
  intros (H1 & H2 & H3 & H4 & H5) HQ. destruct (quorum_facts _ _ _ _ H2 HQ) as (Q1 & Q2 & Q3 & Q4 & Q5).
  split; [assumption|]. split; [assumption|]. split; [cbn [length]; lia|]. split; [assumption|].
  intros s Hs. rewrite Q5 by assumption. split; [apply mod_L_range|]. apply of_Z_mod.
Qed.

Lemma thresholdmult_quorum R : ristretto_ok R -> forall secret n t a buf shares qs parts alpha P junk,
  sharing_params secret n t a buf -> create_shares secret n t a buf = Ok shares ->
  quorum t shares qs -> rdec R alpha = Some P ->
  Forall2 (fun s p => p_index p = s_index s /\ oprf_Evaluate R (s_value s) alpha = (0, Some (p_value p))) qs parts ->
  length junk = length parts ->
  thresholdmult R parts junk = Ok (0, renc R (rsmul R secret P)).
Proof.
  intros HR secret n t a buf shares qs parts alpha P junk HP HC HQ HD HE Hj.
  apply (created _ _ _ _ _ _ HP) in HC. subst shares.
  destruct (quorum_ready _ _ _ _ _ _ HP HQ) as (Q1 & Q2 & Q3 & Q4 & Q5).
  rewrite (thresholdmult_correct R HR (secret :: a) qs parts alpha P junk); try assumption.
  rewrite poly_cons_0. rewrite (gmul_of_Z R HR); [reflexivity|]. destruct HP. lia.
Qed.

Lemma combine_quorum R : ristretto_ok R -> forall secret n t a buf shares qs parts alpha P r0,
  sharing_params secret n t a buf -> create_shares secret n t a buf = Ok shares ->
  quorum t shares qs -> rdec R alpha = Some P ->
  Forall2 (fun s p => exists idx, Permutation idx (map s_index qs) /\
             toprf_Evaluate R s alpha (s_index s) idx = (0, Some (p_value p))) qs parts ->
  thresholdcombine R parts r0 = Ok (0, renc R (rsmul R secret P)).
Proof.
  intros HR secret n t a buf shares qs parts alpha P r0 HP HC HQ HD HE.
  apply (created _ _ _ _ _ _ HP) in HC. subst shares.
  destruct (quorum_ready _ _ _ _ _ _ HP HQ) as (Q1 & Q2 & Q3 & Q4 & Q5).
  rewrite (combine_correct R HR (secret :: a) qs parts alpha P r0); try assumption.
  - rewrite poly_cons_0. rewrite (gmul_of_Z R HR); [reflexivity|]. destruct HP. lia.
  - intros s Hs. apply Q5. assumption.
Qed.

(** Evaluate succeeds on every non-zero share and non-identity element *)
Lemma evaluate_succeeds R : ristretto_ok R -> forall k alpha P, rdec R alpha = Some P -> P <> rzero R ->
  0 < k < L -> exists v, oprf_Evaluate R k alpha = (0, Some v).
Proof.
  intros HR k alpha P HD HP Hk. apply (ok_enc_dec _ HR) in HD. subst. eexists.
  apply (scalarmult_enc R HR); [pose proof L_lt_2_255; lia| |assumption].
  apply random_scalar_neq_0. exact Hk.
Qed.

Lemma toprf_evaluate_succeeds R : ristretto_ok R -> forall s alpha P self idx, rdec R alpha = Some P -> P <> rzero R ->
  0 < s_value s < L -> index_ok self -> Forall index_ok idx ->
  exists v, toprf_Evaluate R s alpha self idx = (0, Some v).
Proof.
  intros HR s alpha P self idx HD HP Hk Hself Hidx. unfold toprf_Evaluate.
  destruct (evaluate_succeeds R HR (scalar_mul (s_value s) (coeff self idx)) alpha P HD HP) as (v & ->).
  - pose proof (scalar_mul_range (s_value s) (coeff self idx)).
    assert (scalar_mul (s_value s) (coeff self idx) <> 0); [|lia].
    intros E. apply (f_equal of_Z) in E. rewrite of_Z_scalar_mul in E.
    apply fmul_integral in E. destruct E as [E|E].
    + revert E. apply random_scalar_neq_0. exact Hk.
    + revert E. apply coeff_neq_0; assumption.
  - exists v. reflexivity.
Qed.

(** ** C13 *)
Lemma thresholdmult_ok_valid R : ristretto_ok R -> forall parts junk r,
  length junk = length parts -> thresholdmult R parts junk = Ok (0, r) ->
  (length parts <= 255)%nat /\
  (forall p, In p parts -> exists P, rdec R (p_value p) = Some P /\ P <> rzero R).
Proof.
  intros HR parts junk r Hj HT.
  destruct (Nat.le_gt_cases (length parts) 255) as [Hlen|Hlen].
  2:{ rewrite (thresholdmult_long R) in HT by assumption. discriminate. }
  split; [assumption|]. destruct (thresholdmult_spec R HR parts junk Hlen Hj) as (_ & H2).
  intros p Hp. destruct (contrib R (map p_index parts) p) as [Q|] eqn:E.
  - unfold contrib in E. destruct (rdec R (p_value p)) as [P|]; [|discriminate].
    exists P. split; [reflexivity|]. intros ->. cbv zeta in E. rewrite (gmul_zero R HR) in E.
    rewrite (proj2 (renc_zero_iff R HR (rzero R)) eq_refl) in E. discriminate.
  - destruct H2 as (r' & E'); [exists p; auto|]. rewrite E' in HT. discriminate.
Qed.

Lemma thresholdmult_invalid_fails R : ristretto_ok R -> forall parts junk,
  length junk = length parts ->
  (exists p, In p parts /\ (rdec R (p_value p) = None \/ rdec R (p_value p) = Some (rzero R))) ->
  exists r, thresholdmult R parts junk = Ok (1, r).
Proof.
  intros HR parts junk Hj (p & Hp & HD).
  destruct (Nat.le_gt_cases (length parts) 255) as [Hlen|Hlen].
  2:{ exists (zeros 32). apply (thresholdmult_long R). assumption. }
  destruct (thresholdmult_spec R HR parts junk Hlen Hj) as (_ & H2). apply H2. exists p. split; [assumption|].
  unfold contrib. destruct HD as [->| ->]; [reflexivity|]. cbv zeta. rewrite (gmul_zero R HR).
  rewrite (proj2 (renc_zero_iff R HR (rzero R)) eq_refl). reflexivity.
Qed.

(** what thresholdcombine does instead: it leaves the invalid parts out *)
Lemma thresholdcombine_drops R : ristretto_ok R -> forall parts r0, (length parts <= 255)%nat ->
  thresholdcombine R parts r0 =
  thresholdcombine R (filter (fun p => is_valid_point R (p_value p)) parts) r0.
Proof.
  intros HR parts r0 Hlen. rewrite !(thresholdcombine_spec R HR); [|etransitivity; [|exact Hlen]|assumption].
  - do 3 f_equal. clear Hlen. induction parts as [|p parts IH]; cbn [filter map]; [reflexivity|].
    rewrite gsum_cons. unfold is_valid_point at 1, dec0 at 1. destruct (rdec R (p_value p)) as [P|] eqn:E.
    + cbn [map]. rewrite gsum_cons, IH. unfold dec0 at 2. rewrite E. reflexivity.
    + rewrite (radd_0_l R HR). assumption.
  - clear Hlen. induction parts as [|p parts IH]; cbn [filter length]; [lia|]. destruct (is_valid_point R (p_value p)); cbn [length]; lia.
Qed.

(** ** 3HashTDH *)
Lemma tdh_ok R H : ristretto_ok R -> hashes_ok H -> forall k z alpha P ssid i v,
  rdec R alpha = Some P -> 0 <= s_value k < 2 ^ 255 -> 0 <= s_value z < 2 ^ 255 ->
  toprf_3hashtdh R H true k z alpha ssid = Ok (0, (i, Some v)) ->
  i = s_index k /\
  v = renc R (radd R (gmul R (of_Z (s_value k)) P)
                     (gmul R (of_Z (s_value z)) (HashToGroup R H (tdh_hash H ssid alpha)))).
Proof.
  intros HR HH k z alpha P ssid i v HD Hk Hz. unfold toprf_3hashtdh.
  destruct (oprf_Evaluate R (s_value k) alpha) as (r1 & b1) eqn:E1.
  destruct (Z.eqb_spec r1 0) as [->|]; cbn [negb]; [|discriminate].
  rewrite (htg_eq R H HH). cbn [bind]. rewrite Z.eqb_refl. cbn [negb].
  destruct (oprf_Evaluate R (s_value z) _) as (r3 & h2) eqn:E3.
  destruct (Z.eqb_spec r3 0) as [->|]; cbn [negb]; [|discriminate].
  destruct b1 as [b|]; [|discriminate]. destruct h2 as [h|]; [|discriminate].
  apply (evaluate_ok R HR _ _ _ _ HD Hk) in E1. destruct E1 as (-> & _).
  apply (evaluate_ok R HR _ _ _ _ (ok_dec_enc _ HR _) Hz) in E3. destruct E3 as (-> & _).
  rewrite (core_add_enc R HR). intros E. inversion E; subst. auto.
Qed.

(** parts k_s * P + z_s * h, for shares k_s of the secret and z_s of 0 *)
Lemma masked_quorum R : ristretto_ok R ->
  forall secret n t a z buf buf' qs parts P h junk,
  sharing_params secret n t a buf -> sharing_params 0 n t z buf' ->
  quorum t (shares_of (secret :: a) n) qs ->
  let zval := fun s => poly (0 :: z) (s_index s) mod L in
  let beta := fun s => radd R (gmul R (of_Z (s_value s)) P) (gmul R (of_Z (zval s)) h) in
  Forall2 (fun s p => p_index p = s_index s /\ p_value p = renc R (beta s) /\ beta s <> rzero R) qs parts ->
  length junk = length parts ->
  thresholdmult R parts junk = Ok (0, renc R (rsmul R secret P)).
Proof.
  intros HR secret n t a z buf buf' qs parts P h junk HPk HPz HQ zval beta HE2 Hj.
  destruct (quorum_ready _ _ _ _ _ _ HPk HQ) as (Q1 & Q2 & Q3 & Q4 & Q5).
  pose proof (Forall2_length' _ _ _ HE2) as HL.
  assert (Hidx : map p_index parts = map s_index qs).
  { apply Forall2_map_index. eapply Forall2_impl'; [|exact HE2]. cbn. tauto. }
  set (lam := fun s => of_Z (coeff (s_index s) (map s_index qs))).
  assert (HE3 : Forall2 (fun s p => contrib R (map p_index parts) p = Some (gmul R (lam s) (beta s))) qs parts).
  { rewrite Hidx. unfold lam.
    assert (Hall : forall s, In s qs -> index_ok (s_index s)).
    { intros s Hs. eapply Forall_forall; [exact Q2|]. apply in_map; assumption. }
    generalize (map s_index qs), Q2. intros idx Q2'. clear -HR HE2 Q2' Hall. revert Hall.
    induction HE2 as [|s p qs' parts' (E1 & E2 & Hne) HE IH]; intros Hall; constructor.
    - unfold contrib. rewrite E2, (ok_dec_enc _ HR), E1. cbv zeta.
      destruct (bytes_eqb _ _) eqn:EB; [|reflexivity]. exfalso.
      apply (renc_zero_iff R HR) in EB. apply (gmul_eq_0 R HR) in EB. destruct EB as [EB|]; [|contradiction].
      revert EB. apply coeff_neq_0; [apply Hall; left; reflexivity|assumption].
    - apply IH. intros s' Hs'. apply Hall. right; assumption. }
  destruct (thresholdmult_spec R HR parts junk ltac:(lia) Hj) as (H1 & _). rewrite H1.
  - do 3 f_equal.
    rewrite (Forall2_gsum R (fun s => gmul R (lam s) (beta s)) (contrib0 R (map p_index parts)) qs parts).
    2:{ eapply Forall2_impl'; [|exact HE3]. cbn. intros s p E. unfold contrib0. rewrite E. reflexivity. }
    rewrite (gsum_map_ext R (fun s => gmul R (lam s) (beta s))
               (fun s => radd R (gmul R (lam s * of_Z (s_value s))%fq P) (gmul R (lam s * of_Z (zval s))%fq h))).
    2:{ intros s _. unfold beta. rewrite (gmul_add_distr R HR), <- !(gmul_mul R HR). reflexivity. }
    rewrite (gsum_map_add R HR), !(gsum_gmul R HR).
    assert (EK : fsum (map (fun s => (lam s * of_Z (s_value s))%fq) qs) = of_Z secret).
    { rewrite <- (poly_cons_0 secret a). apply coeff_interpolate; try assumption. intros s Hs. apply Q5. assumption. }
    assert (EZ : fsum (map (fun s => (lam s * of_Z (zval s))%fq) qs) = 0%fq).
    { set (zq := map (fun s => mkShare (s_index s) (zval s)) qs).
      assert (Ez : map s_index zq = map s_index qs) by (unfold zq; rewrite map_map; reflexivity).
      transitivity (fsum (map (fun s => of_Z (coeff (s_index s) (map s_index zq)) * of_Z (s_value s))%fq zq)).
      - rewrite Ez. unfold zq. rewrite map_map. reflexivity.
      - change 0%fq with (of_Z 0). rewrite <- (poly_cons_0 0 z). apply coeff_interpolate.
        + rewrite Ez. assumption.
        + rewrite Ez. assumption.
        + unfold zq. rewrite map_length. cbn [length]. destruct HPz as (_ & _ & _ & Hz & _).
          destruct HPk as (_ & _ & _ & Ha & _). cbn [length] in Q3. lia.
        + intros s Hs. unfold zq in Hs. apply in_map_iff in Hs. destruct Hs as (s' & <- & _).
          cbn [s_value s_index]. unfold zval. apply of_Z_mod. }
    rewrite EK, EZ, (gmul_0 R), (radd_0_r R HR). rewrite (gmul_of_Z R HR); [reflexivity|]. destruct HPk. lia.
  - intros p Hp. revert Hp. clear -HE3. set (idx := map p_index parts) in *. clearbody idx.
    induction HE3 as [|s q qs' parts' E _ IH]; intros Hp; [destruct Hp|].
    destruct Hp as [<-|Hp]; [congruence|apply IH; assumption].
Qed.

Lemma tdh_quorum R H : ristretto_ok R -> hashes_ok H ->
  forall secret n t a z buf buf' kshares zshares qs parts alpha P ssid junk,
  sharing_params secret n t a buf -> create_shares secret n t a buf = Ok kshares ->
  sharing_params 0 n t z buf' -> create_shares 0 n t z buf' = Ok zshares ->
  quorum t kshares qs -> rdec R alpha = Some P ->
  Forall2 (fun ks p => exists zs, In zs zshares /\ s_index zs = s_index ks /\
             toprf_3hashtdh R H true ks zs alpha ssid = Ok (0, (p_index p, Some (p_value p))) /\
             p_value p <> zeros 32) qs parts ->
  length junk = length parts ->
  thresholdmult R parts junk = Ok (0, renc R (rsmul R secret P)).
Proof.
  intros HR HH secret n t a z buf buf' kshares zshares qs parts alpha P ssid junk HPk HCk HPz HCz HQ HD HE Hj.
  apply (created _ _ _ _ _ _ HPk) in HCk. subst kshares.
  apply (created _ _ _ _ _ _ HPz) in HCz. subst zshares.
  destruct (quorum_ready _ _ _ _ _ _ HPk HQ) as (Q1 & Q2 & Q3 & Q4 & Q5).
  set (h := HashToGroup R H (tdh_hash H ssid alpha)).
  set (zval := fun s => poly (0 :: z) (s_index s) mod L).
  set (beta := fun s => radd R (gmul R (of_Z (s_value s)) P) (gmul R (of_Z (zval s)) h)).
  assert (HE2 : Forall2 (fun s p => p_index p = s_index s /\ p_value p = renc R (beta s) /\ beta s <> rzero R) qs parts).
  { clear -HR HH HD HE Q5 HPz. revert Q5.
    induction HE as [|s p qs parts (zs & Hz & Ei & ET & Hne) HE IH]; intros Q5; constructor.
    - destruct (Q5 s (or_introl eq_refl)) as (Hs & _).
      destruct HPz as (_ & Hn & _). apply shares_of_In in Hz; [|lia]. destruct Hz as (Hzi & Hzv).
      pose proof (mod_L_range (poly (0 :: z) (s_index zs))) as Hzr. pose proof L_lt_2_255.
      apply (tdh_ok R H HR HH _ _ _ _ _ _ _ HD) in ET; [|lia|lia].
      destruct ET as (E1 & E2). rewrite Hzv, Ei in E2.
      split; [assumption|]. split; [exact E2|]. intros E0. apply Hne. rewrite E2.
      change (renc R (beta s) = zeros 32). rewrite E0. apply (ok_enc_zero _ HR).
    - apply IH. intros s' Hs'. apply Q5. right; assumption. }
  exact (masked_quorum R HR _ _ _ _ _ _ _ _ _ P h junk HPk HPz HQ HE2 Hj).
Qed.

(** ** C09: secrecy *)
Lemma map_of_Z_fv l : map of_Z (map fv l) = l.
Proof. rewrite map_map. rewrite <- (map_id l) at 2. apply map_ext. apply of_Z_fv. Qed.

Lemma map_of_Z_inj l l' : Forall (fun x => 0 <= x < L) l -> Forall (fun x => 0 <= x < L) l' ->
  map of_Z l = map of_Z l' -> l = l'.
Proof.
  intros H. revert l'. induction H as [|x l Hx H IH]; intros [|y l'] H' E; cbn in E; try discriminate; [reflexivity|].
  inversion H' as [|? ? Hy Hl']; subst.
  assert (E1 : of_Z x = of_Z y) by congruence. assert (E2 : map of_Z l = map of_Z l') by congruence.
  f_equal; [apply of_Z_inj; assumption|apply IH; assumption].
Qed.

Lemma secrecy secret n t buf known :
  0 <= secret < L -> 1 <= n <= 254 -> 1 <= t <= 255 -> Z.of_nat (length buf) = n ->
  NoDup (map s_index known) -> Forall (fun s => 1 <= s_index s <= n /\ 0 <= s_value s < L) known ->
  Z.of_nat (length known) = t - 1 ->
  exists! a, Z.of_nat (length a) = t - 1 /\ Forall (fun x => 0 <= x < L) a /\
    exists shares, create_shares secret n t a buf = Ok shares /\ incl known shares.
Proof.
  intros Hs Hn Ht Hb Hnd HF Hk.
  set (xs := 0%fq :: map of_Z (map s_index known)).
  assert (HF8 : Forall u8 (map s_index known)).
  { apply Forall_forall. intros i Hi. apply in_map_iff in Hi. destruct Hi as (s & <- & Hs').
    rewrite Forall_forall in HF. apply HF in Hs'. unfold u8. lia. }
  assert (Hxs : NoDup xs).
  { unfold xs. constructor; [|apply NoDup_map_of_Z; assumption].
    intros Hin. apply in_map_iff in Hin. destruct Hin as (i & E & Hi).
    apply in_map_iff in Hi. destruct Hi as (s & <- & Hs'). rewrite Forall_forall in HF. apply HF in Hs'.
    revert E. apply of_Z_index_neq_0. unfold index_ok. lia. }
  (* the value to interpolate at each point *)
  set (val := fun x : Fq => if feqb x 0%fq then of_Z secret else
     match find (fun s => feqb (of_Z (s_index s)) x) known with Some s => of_Z (s_value s) | None => 0%fq end).
  assert (Hval : forall s, In s known -> val (of_Z (s_index s)) = of_Z (s_value s)).
  { intros s Hin. unfold val. pose proof (proj1 (Forall_forall _ _) HF s Hin) as (Hi & _).
    rewrite feqb_neq by (apply of_Z_index_neq_0; unfold index_ok; lia).
    destruct (find _ known) as [s'|] eqn:EF.
    - apply find_some in EF. destruct EF as (Hin' & E). apply feqb_eq in E.
      assert (s_index s' = s_index s).
      { apply of_Z_u8_inj in E; [assumption| |]; eapply Forall_forall; try exact HF8; apply in_map; assumption. }
      assert (s' = s).
      { clear -Hnd Hin Hin' H. induction known as [|q known IH]; [destruct Hin|]. cbn [map] in Hnd. inversion Hnd; subst.
        destruct Hin as [->|Hin], Hin' as [->|Hin'].
        - reflexivity.
        - exfalso. apply H2. rewrite <- H. apply in_map; assumption.
        - exfalso. apply H2. rewrite H. apply in_map; assumption.
        - apply IH; assumption. }
      congruence.
    - exfalso. apply (find_none _ _ EF) in Hin. rewrite feqb_refl in Hin. discriminate. }
  destruct (interpolate_exists xs val Hxs) as (cs & Hlen & Hcs).
  unfold xs in Hlen. cbn [length] in Hlen. rewrite !map_length in Hlen.
  destruct cs as [|c0 cs]; [discriminate|]. cbn [length] in Hlen.
  assert (Hc0 : c0 = of_Z secret).
  { specialize (Hcs 0%fq (or_introl eq_refl)). unfold val in Hcs. rewrite feqb_refl in Hcs.
    rewrite peval_at_0 in Hcs. exact Hcs. }
  assert (Hincl : forall a, Z.of_nat (length a) = t - 1 ->
    (incl known (shares_of (secret :: a) n) <->
     forall s, In s known -> peval (of_Z secret :: map of_Z a) (of_Z (s_index s)) = of_Z (s_value s))).
  { intros a Ha. split.
    - intros Hi s Hin. specialize (Hi s Hin). apply shares_of_In in Hi; [|lia]. destruct Hi as (_ & ->).
      rewrite of_Z_mod, of_Z_poly. reflexivity.
    - intros Hi s Hin. apply shares_of_In; [lia|]. pose proof (proj1 (Forall_forall _ _) HF s Hin) as (H1 & H2).
      split; [assumption|]. apply eq_mod_of_Z; [assumption|]. rewrite of_Z_poly. symmetry. apply Hi. assumption. }
  exists (map fv cs). split.
  - split; [rewrite map_length; lia|]. split.
    + apply Forall_forall. intros x Hx. apply in_map_iff in Hx. destruct Hx as (f & <- & _). apply fv_range.
    + eexists. split; [apply create_shares_eq; try assumption; rewrite map_length; lia|].
      apply Hincl; [rewrite map_length; lia|]. intros s Hin. rewrite map_of_Z_fv, <- Hc0.
      rewrite Hcs; [apply Hval; assumption|]. right. apply in_map, in_map. assumption.
  - intros a (Ha & HFa & shares & HC & Hi).
    rewrite create_shares_eq in HC by assumption. inversion HC; subst shares; clear HC.
    pose proof (proj1 (Hincl a Ha) Hi) as Hpt.
    apply map_of_Z_inj.
    + apply Forall_forall. intros x Hx. apply in_map_iff in Hx. destruct Hx as (f & <- & _). apply fv_range.
    + assumption.
    + rewrite map_of_Z_fv.
      assert (E : c0 :: cs = of_Z secret :: map of_Z a).
      { apply peval_inj.
        - cbn [length]. rewrite map_length. lia.
        - cbn [length]. pose proof L_gt_65536. lia.
        - apply (polyfun_unique (length (c0 :: cs)) _ _ xs).
          + exists (c0 :: cs). auto.
          + exists (of_Z secret :: map of_Z a). split; [cbn [length]; rewrite map_length; lia|reflexivity].
          + assumption.
          + unfold xs. cbn [length]. rewrite !map_length. lia.
          + intros x Hx. rewrite Hcs by assumption. destruct Hx as [<-|Hx].
            * rewrite peval_at_0. unfold val. rewrite feqb_refl. reflexivity.
            * apply in_map_iff in Hx. destruct Hx as (i & <- & Hx). apply in_map_iff in Hx. destruct Hx as (s & <- & Hx).
              rewrite Hval by assumption. symmetry. apply Hpt. assumption. }
      inversion E. reflexivity.
Qed.

Lemma create_shares_full secret n t a buf : sharing_params secret n t a buf ->
  exists shares, create_shares secret n t a buf = Ok shares /\ Z.of_nat (length shares) = n /\
    (forall i, 1 <= i <= n ->
       nth_error shares (Z.to_nat (i - 1)) = Some (mkShare i (poly (secret :: a) i mod L))) /\
    Z.of_nat (length (secret :: a)) = t /\ poly (secret :: a) 0 = secret.
Proof.
  intros (H1 & H2 & H3 & H4 & H5). exists (shares_of (secret :: a) n).
  split; [apply create_shares_eq; assumption|]. split; [rewrite shares_of_length; lia|].
  split; [|split; [cbn [length]; lia|apply poly_cons_0]].
  intros i Hi. unfold shares_of. rewrite <- (zrange_seq 1).
  erewrite map_nth_error by (apply zrange_nth; lia). do 2 f_equal; [|do 2 f_equal]; lia.
Qed.

Lemma combine_perm_ok R : ristretto_ok R -> forall parts parts' r0, Permutation parts parts' ->
  thresholdcombine R parts r0 = thresholdcombine R parts' r0 /\ is_ok (thresholdcombine R parts r0).
Proof.
  intros HR parts parts' r0 HP. split; [apply (thresholdcombine_perm R HR); assumption|].
  destruct (Nat.le_gt_cases (length parts) 255) as [Hl|Hl].
  - rewrite (thresholdcombine_spec R HR) by assumption. eexists; reflexivity.
  - rewrite (thresholdcombine_long R) by assumption. eexists; reflexivity.
Qed.
