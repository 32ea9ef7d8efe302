(** C105: the key of a deployment is changed any number of times. *)
From Coq Require Import ZArith Lia List Bool Permutation.
From Coq.Strings Require Import Byte.
From Verif Require Import PrimeL Fq Bytes Res Mem Sodium OprfModel OprfSpec OprfProofs LinSolve ToprfModel ToprfSpec ToprfProofs DkgModel DkgSpec DkgProofs MpmultModel MpmultProofs.
From Verif Require Import UseSpec Use MulSpec MulUse UpdateSpec.
Import ListNotations.
Open Scope list_scope.
Open Scope Z_scope.

(** ** what the memory held before does not matter *)
Lemma inverted_unique indexes o1 o2 : indexes <> [] -> NoDup indexes -> Forall u8 indexes -> forall c j, (c < length indexes)%nat -> (j < length indexes)%nat ->
  invertedVDMmatrix indexes o1 c j = invertedVDMmatrix indexes o2 c j.
Proof.
  intros Hne Hnd HF c j Hc Hj. destruct (inverted_F indexes o1 Hne Hnd HF) as (C1 & R1 & _). destruct (inverted_F indexes o2 Hne Hnd HF) as (C2 & R2 & _).
  apply of_Z_inj; [apply C1; assumption|apply C2; assumption|].
  assert (E : (F (invertedVDMmatrix indexes o1 c j) - F (invertedVDMmatrix indexes o2 c j) = 0)%fq).
  { apply (vdm_kernel indexes Hnd HF (fun c => (F (invertedVDMmatrix indexes o1 c j) - F (invertedVDMmatrix indexes o2 c j))%fq)); [|exact Hc].
    intros r Hr. specialize (R1 r j Hr Hj). specialize (R2 r j Hr Hj).
    rewrite (sumr_ext 0 _ _ (fun k => (fpow (F (nth r indexes 0%Z)) k * F (invertedVDMmatrix indexes o1 k j) - fpow (F (nth r indexes 0%Z)) k * F (invertedVDMmatrix indexes o2 k j))%fq)).
    - rewrite sumr_sub, R1, R2. ring.
    - intros k _. change (genVDMmatrix indexes r k) with (vdm_pow k (nth r indexes 0%Z)). rewrite vdm_pow_F. ring. }
  transitivity (F (invertedVDMmatrix indexes o1 c j) - F (invertedVDMmatrix indexes o2 c j) + F (invertedVDMmatrix indexes o2 c j))%fq; [ring|]. rewrite E. ring.
Qed.

Lemma finish_memory indexes peer recv j1 j2 : NoDup indexes -> Forall u8 indexes -> mpc_mul_finish indexes peer recv j1 = mpc_mul_finish indexes peer recv j2.
Proof.
  intros Hnd HF. destruct indexes as [|i0 il] eqn:Ei; [reflexivity|]. rewrite <- Ei in *. assert (Hne : indexes <> []) by (rewrite Ei; discriminate). clear Ei i0 il.
  unfold mpc_mul_finish. f_equal.
  assert (G : forall l acc, (forall k, In k l -> (k < length indexes)%nat) ->
    fold_left (fun acc i => scalar_add acc (scalar_mul (s_value (nth i recv (mkShare 0 0))) (invertedVDMmatrix indexes j1 0%nat i))) l acc =
    fold_left (fun acc i => scalar_add acc (scalar_mul (s_value (nth i recv (mkShare 0 0))) (invertedVDMmatrix indexes j2 0%nat i))) l acc).
  { induction l as [|k l IH]; intros acc Hl; [reflexivity|]. cbn [fold_left]. assert (Hk : (k < length indexes)%nat) by (apply Hl; left; reflexivity).
    rewrite (inverted_unique indexes j1 j2 Hne Hnd HF 0%nat k) by lia. apply IH. intros; apply Hl; right; assumption. }
  apply G. intros k Hk. apply in_seq in Hk. lia.
Qed.

(** ** one update *)
Lemma nth_ext_error {A} (l1 l2 : list A) : (forall i, nth_error l1 i = nth_error l2 i) -> l1 = l2.
Proof.
  revert l2. induction l1 as [|a l1 IH]; intros [|b l2] E; try reflexivity; try (specialize (E 0%nat); discriminate).
  pose proof (E 0%nat) as E0. cbn in E0. injection E0 as ->. f_equal. apply IH. intros i. exact (E (S i)).
Qed.

Lemma Forall2_nth_error {A B} (P : A -> B -> Prop) l1 l2 : Forall2 P l1 l2 -> forall i a, nth_error l1 i = Some a -> exists b, nth_error l2 i = Some b /\ P a b.
Proof. intros H. induction H as [|a b l1 l2 Hab _ IH]; intros [|i] c E; try discriminate; cbn in E |- *; [injection E as <-; exists b; auto|apply IH, E]. Qed.

Lemma dealers_u8 K d dsh n t ds dl : shares_key K d -> dealt_products (d_shares d) dsh n t ds dl -> Forall u8 ds.
Proof.
  intros (a & buf & SP & E) HF. destruct (create_shares_full _ _ _ _ _ SP) as (sh & E' & Ls & Hi & _). assert (sh = d_shares d) by congruence. subst sh.
  destruct SP as (_ & Hn & _).
  induction HF as [|i shs ds dl (sa & sb & r & b & Ha & _ & Hx & _) _ IH]; constructor; [|exact IH].
  apply In_nth_error in Ha. destruct Ha as (k & Ek). assert (Hk : (k < length (d_shares d))%nat) by (apply nth_error_Some; congruence).
  specialize (Hi (Z.of_nat k + 1) ltac:(lia)). replace (Z.to_nat (Z.of_nat k + 1 - 1)) with k in Hi by lia. rewrite Ek in Hi. injection Hi as ->. cbn in Hx. unfold u8. lia.
Qed.

Lemma updated K delta d dsh d' : shares_key K d -> shares_key delta (mkDep (d_n d) (d_t d) dsh) -> update d dsh d' -> shares_key ((K * delta) mod L) d'.
Proof.
  intros HK HD (dealers & dealt & Hnd & He & Hn & Hdp & HF). pose proof (dealers_u8 _ _ _ _ _ _ _ HK Hdp) as Hu.
  destruct HK as (rA & bufA & SA & EA). destruct HD as (rB & bufB & SB & EB). cbn [d_n d_t d_shares] in SB, EB.
  set (buf := repeat (mkShare 0 0) (Z.to_nat (d_n d'))). assert (Lb : Z.of_nat (length buf) = d_n d') by (unfold buf; rewrite repeat_length; lia).
  destruct (product_sharing K delta (d_n d) (d_t d) (d_n d') (d_t d') rA rB bufA bufB (d_shares d) dsh dealers dealt (fun _ _ => 0) SA SB EA EB Hnd He Hn Hdp buf Lb) as (a & shares & SP & E & Hi).
  exists a, buf. split; [exact SP|]. rewrite E. f_equal.
  destruct (create_shares_full _ _ _ _ _ SP) as (sh & E' & Ls & _). assert (sh = shares) by congruence. subst sh.
  assert (Lz : length (d_shares d') = Z.to_nat (d_n d')) by (rewrite <- (zrange_length 1 (Z.to_nat (d_n d'))); symmetry; eapply Forall2_length'; exact HF).
  apply nth_ext_error. intros i. destruct (Nat.lt_ge_cases i (Z.to_nat (d_n d'))) as [Hlt|Hge].
  - destruct (Forall2_nth_error _ _ _ HF i _ (zrange_nth 1 (Z.to_nat (d_n d')) i Hlt)) as (s & Es & recv & junk & Hc & ->). rewrite Es.
    specialize (Hi _ _ Hc). replace (Z.to_nat (1 + Z.of_nat i - 1)) with i in Hi by lia. rewrite Hi. f_equal. apply finish_memory; assumption.
  - rewrite !(proj2 (nth_error_None _ _)) by lia. reflexivity.
Qed.

(** ** any number of updates *)
Lemma new_key_snoc k ds x : new_key k (ds ++ [x]) = (new_key k ds * x) mod L.
Proof. unfold new_key. rewrite fold_left_app. reflexivity. Qed.

Lemma history_key k d0 ds d : shares_key k d0 -> history d0 ds d -> shares_key (new_key k ds) d.
Proof.
  intros Hk HH. induction HH as [|ds d delta dsh rep d' _ IH HD HQ HU]; [exact Hk|]. rewrite new_key_snoc.
  assert (dkg_reconstruct rep = delta) as -> by (destruct HD as (a & buf & SP & E); eapply reconstruct_quorum; [exact SP|exact E|exact HQ]).
  eapply updated; eassumption.
Qed.

Lemma deltas_range d0 ds d : history d0 ds d -> Forall (fun x => 0 <= x < L) ds.
Proof.
  intros HH. induction HH as [|ds d delta dsh rep d' _ IH HD HQ HU]; [constructor|]. apply Forall_app. split; [exact IH|]. constructor; [|constructor].
  destruct HD as (a & buf & SP & E). rewrite (reconstruct_quorum _ _ _ _ _ _ _ SP E HQ). apply SP.
Qed.

Lemma new_key_range k d0 : shares_key k d0 -> 0 <= k < L.
Proof. intros (a & buf & SP & _). apply SP. Qed.

Lemma history_serves R H k d0 ds d qs : ristretto_ok R -> hashes_ok H -> shares_key k d0 -> history d0 ds d -> new_key k ds <> 0 -> quorum (d_t d) (d_shares d) qs ->
  serves R H (d_n d) (d_t d) (new_key k ds) qs.
Proof. intros HR HH Hk Hi Hz Hq. destruct (history_key _ _ _ _ Hk Hi) as (a & buf & SP & E). eapply created_serves; eassumption. Qed.

(** ** what the clients kept *)
Lemma kept R H K d x N : ristretto_ok R -> hashes_ok H -> shares_key K d -> K <> 0 -> (length x <= 255)%nat -> HashToGroup R H x <> rzero R ->
  keeps R H d x N -> N = renc R (rsmul R K (HashToGroup R H x)).
Proof.
  intros HR HH (a & buf & Hp & Hc) HK Hx Hh (r & alpha & qs & parts & beta & Hr & B & Hq & U & W). pose proof L_lt_2_255 as L255.
  assert (KL : 0 <= K < L) by apply Hp. assert (KM : K mod 2 ^ 255 = K) by (apply Z.mod_small; lia).
  destruct (oprf_roundtrip R H HR HH x K r Hx Hh) as (al & Zb & N' & E1 & E2 & E3 & E4 & _); [unfold scalar_buf; lia|rewrite KM, Z.mod_small; lia|exact Hr|].
  assert (al = alpha) by congruence. subst al. rewrite KM in E4.
  assert (exists P, rdec R alpha = Some P /\ renc R (rsmul R K P) = Zb) as (P & D & EZ).
  { unfold oprf_Evaluate, scalarmult in E2. destruct (rdec R alpha) as [P|] eqn:D; [|discriminate]. exists P. split; [reflexivity|].
    rewrite KM in E2. apply pair_equal_spec in E2. destruct E2 as (_ & E2). injection E2 as E2. exact E2. }
  assert (Eb : beta = Zb).
  { rewrite <- EZ. destruct W as [(junk & W & Lj & T)|[(r0 & W & T)|(zsh & ssid & junk & (z & zb & SZ & EZs) & W & Lj & T)]].
    - rewrite (thresholdmult_quorum R HR K _ _ _ _ _ qs parts alpha P junk Hp Hc Hq D W Lj) in T. congruence.
    - rewrite (combine_quorum R HR K _ _ _ _ _ qs parts alpha P r0 Hp Hc Hq D W) in T. congruence.
    - cbn [d_n d_t d_shares] in SZ, EZs. rewrite (tdh_quorum R H HR HH K _ _ _ _ _ _ _ _ qs parts alpha P ssid junk Hp Hc SZ EZs Hq D W Lj) in T. congruence. }
  subst beta. rewrite E3 in U. congruence.
Qed.

Lemma up_to_date R ds : ristretto_ok R -> forall k P, 0 < k < L -> P <> rzero R -> Forall (fun x => 0 < x < L) ds ->
  bring_up_to_date R ds (renc R (rsmul R k P)) = Some (renc R (rsmul R (new_key k ds) P)) /\ 0 < new_key k ds < L.
Proof.
  intros HR. pose proof L_lt_2_255 as L255. induction ds as [|x ds IH]; intros k P Hk HP HF; [split; [reflexivity|exact Hk]|].
  inversion HF as [|? ? Hx HF']; subst. assert (X0 : F x <> 0%fq) by (apply random_scalar_neq_0; exact Hx). assert (K0 : F k <> 0%fq) by (apply random_scalar_neq_0; exact Hk).
  assert (Hkx : 0 < (k * x) mod L < L).
  { pose proof (Z.mod_pos_bound (k * x) L L_pos). assert ((k * x) mod L <> 0); [|lia]. intros E. apply (f_equal F) in E. rewrite of_Z_mod, of_Z_mul in E.
    change (F 0) with 0%fq in E. apply fmul_integral in E. tauto. }
  cbn [bring_up_to_date]. rewrite (gmul_of_Z R HR) by lia.
  rewrite (scalarmult_enc R HR) by (try lia; try assumption; intros E; apply (gmul_eq_0 R HR) in E; tauto).
  rewrite <- (gmul_mul R HR). replace (F x * F k)%fq with (F ((k * x) mod L)) by (rewrite of_Z_mod, of_Z_mul; ring). rewrite <- (gmul_of_Z R HR) by lia.
  exact (IH _ P Hkx HP HF').
Qed.

Lemma history_kept R H k d0 ds d x N N' : ristretto_ok R -> hashes_ok H -> shares_key k d0 -> k <> 0 -> history d0 ds d -> Forall (fun delta => delta <> 0) ds ->
  (length x <= 255)%nat -> HashToGroup R H x <> rzero R -> keeps R H d0 x N -> keeps R H d x N' -> bring_up_to_date R ds N = Some N'.
Proof.
  intros HR HH Hk K0 Hi HZ Hx Hh H1 H2. pose proof (new_key_range _ _ Hk) as Hkr.
  assert (HF : Forall (fun x => 0 < x < L) ds).
  { pose proof (deltas_range _ _ _ Hi) as HD. rewrite Forall_forall in *. intros y Hy. specialize (HZ y Hy). specialize (HD y Hy). cbv beta in *. lia. }
  destruct (up_to_date R ds HR k (HashToGroup R H x) ltac:(lia) Hh HF) as (E & Hn).
  rewrite (kept R H k d0 x N HR HH Hk K0 Hx Hh H1), (kept R H _ d x N' HR HH (history_key _ _ _ _ Hk Hi) ltac:(lia) Hx Hh H2). exact E.
Qed.

Lemma history_value R H k d0 ds d x N : ristretto_ok R -> hashes_ok H -> shares_key k d0 -> k <> 0 -> history d0 ds d -> Forall (fun delta => delta <> 0) ds ->
  (length x <= 255)%nat -> HashToGroup R H x <> rzero R -> keeps R H d0 x N ->
  new_key k ds <> 0 /\ exists N', bring_up_to_date R ds N = Some N' /\ oprf_Finalize H true x (Z.of_nat (length x)) N' = Ok (0, Some (oprf_value R H (new_key k ds) x)).
Proof.
  intros HR HH Hk K0 Hi HZ Hx Hh H1. pose proof (new_key_range _ _ Hk) as Hkr.
  assert (HF : Forall (fun x => 0 < x < L) ds).
  { pose proof (deltas_range _ _ _ Hi) as HD. rewrite Forall_forall in *. intros y Hy. specialize (HZ y Hy). specialize (HD y Hy). cbv beta in *. lia. }
  destruct (up_to_date R ds HR k (HashToGroup R H x) ltac:(lia) Hh HF) as (E & Hn). split; [lia|].
  eexists. rewrite (kept R H k d0 x N HR HH Hk K0 Hx Hh H1). split; [exact E|]. rewrite finalize_eq; [|lia|apply (ok_enc_len _ HR)].
  unfold oprf_value. reflexivity.
Qed.

(** ** an update goes through *)
Lemma numbers_held K d i : shares_key K d -> 1 <= i <= d_n d -> exists s, In s (d_shares d) /\ s_index s = i.
Proof.
  intros (a & buf & SP & E) Hi. destruct (create_shares_full _ _ _ _ _ SP) as (sh & E' & _ & HI & _). assert (sh = d_shares d) by congruence. subst sh.
  eexists. split; [eapply nth_error_In, HI, Hi|reflexivity].
Qed.

Lemma can_update K delta d dsh n t dealers : shares_key K d -> shares_key delta (mkDep (d_n d) (d_t d) dsh) -> 1 <= t <= n -> n <= 254 ->
  NoDup dealers -> Forall (fun i => 1 <= i <= d_n d) dealers -> 2 * d_t d - 1 <= Z.of_nat (length dealers) ->
  exists d', d_n d' = n /\ d_t d' = t /\ update d dsh d'.
Proof.
  intros HK HD Ht Hn Hnd HF He. destruct (can_multiply (d_shares d) dsh n t dealers Ht Hn) as (dealt & Hdp & HL).
  { rewrite Forall_forall in *. intros i Hi. specialize (HF i Hi). split; [exact (numbers_held _ _ _ HK HF)|exact (numbers_held _ _ i HD HF)]. }
  enough (forall js, Forall (fun j => 1 <= j <= n) js -> exists shs, Forall2 (fun j s => exists recv junk, collected n dealt j recv /\ s = mpc_mul_finish dealers j recv junk) js shs) as G.
  { destruct (G (zrange 1 (Z.to_nat n))) as (shs & HS); [apply Forall_forall; intros j Hj; apply zrange_In in Hj; lia|].
    exists (mkDep n t shs). split; [reflexivity|]. split; [reflexivity|]. exists dealers, dealt. cbn [d_n d_t d_shares]. repeat (split; [assumption || lia|]). exact HS. }
  intros js HJ. induction HJ as [|j js Hj _ (shs & IH)]; [exists []; constructor|]. destruct (can_collect n dealt j Hj HL) as (recv & Hc).
  exists (mpc_mul_finish dealers j recv (fun _ _ => 0) :: shs). constructor; [|exact IH]. exists recv, (fun _ _ => 0). split; [exact Hc|reflexivity].
Qed.
