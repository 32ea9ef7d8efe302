(** Proofs about VspsModel.v *)
From Coq Require Import ZArith Lia List Bool Arith Field.
From Verif Require Import PrimeL Fq Poly Bytes Res Sodium LinSolve.
From Verif Require Import ToprfModel ToprfSpec ToprfProofs DkgModel DkgProofs MpmultModel MpmultProofs VspsModel VspsSpec.
Import ListNotations.
Open Scope list_scope.
Open Scope fq_scope.

Lemma weight_F t delta X i :
  (0 <= vsps_weight t delta X i < L)%Z /\
  F (vsps_weight t delta X i) = sumr 0 (t + 1) (fun j => F (X j i) * fpow (F delta) j).
Proof.
  unfold vsps_weight.
  assert (H : (fun m acc => (0 <= acc < L)%Z /\ F acc = sumr 0 m (fun j => F (X j i) * fpow (F delta) j)) (0 + (t + 1))%nat
     (fold_left (fun acc j => scalar_add acc (scalar_mul (X j i) (vdm_pow j delta))) (seq 0 (t + 1)) 0%Z)).
  { apply fold_seq_inv.
    - split; [pose proof L_pos; lia|]. rewrite sumr_empty by lia. reflexivity.
    - intros k acc Hk (H1 & H2). split; [apply scalar_add_range|].
      rewrite of_Z_scalar_add_L by (assumption || apply scalar_mul_range). rewrite H2, of_Z_scalar_mul, vdm_pow_F.
      rewrite sumr_last by lia. ring. }
  exact H.
Qed.

Section LOOP.
Variable R : ristretto.
Hypothesis HR : ristretto_ok R.
Notation B := (rbase R).

Lemma mult_log n a : (0 <= n < L)%Z ->
  scalarmult R n (renc R (gmul R a B)) =
  ((if Fq_eq_dec (F n * a) 0 then -1 else 0)%Z, Some (renc R (gmul R (F n * a) B))).
Proof.
  intros Hn. unfold scalarmult. rewrite (ok_dec_enc _ HR).
  assert (E : rsmul R (n mod 2 ^ 255) (gmul R a B) = gmul R (F n * a) B).
  { rewrite Z.mod_small. 2:{ pose proof L_lt_2_253. assert (2 ^ 253 < 2 ^ 255)%Z by reflexivity. lia. }
    rewrite (gmul_of_Z R HR) by lia. rewrite (gmul_mul R HR). reflexivity. }
  rewrite E. f_equal. destruct (Fq_eq_dec (F n * a) 0) as [Z0|NZ].
  - rewrite Z0. replace (bytes_eqb (renc R (gmul R 0 B)) (zeros 32)) with true; [reflexivity|]. symmetry.
    apply (renc_zero_iff R HR). apply gmul_0.
  - destruct (bytes_eqb (renc R (gmul R (F n * a) B)) (zeros 32)) eqn:Q; [|reflexivity].
    apply (renc_zero_iff R HR) in Q. apply (gmul_eq_0 R HR) in Q. destruct Q as [Q|Q]; [contradiction|].
    exfalso. exact (ok_base _ HR Q).
Qed.

(** the loop over a list of positions, in logarithms *)
Lemma loop_log t A delta X (a : nat -> Fq) is : forall s,
  (forall i, In i is -> nth_error A i = Some (renc R (gmul R (a i) B))) ->
  (Forall (fun i => F (vsps_weight t delta X i) * a i <> 0) is ->
   vsps_loop R t A delta X is (renc R (gmul R s B)) =
   Ok (0%Z, renc R (gmul R (s + fsum (map (fun i => F (vsps_weight t delta X i) * a i) is)) B))) /\
  (Exists (fun i => F (vsps_weight t delta X i) * a i = 0) is ->
   exists w, vsps_loop R t A delta X is (renc R (gmul R s B)) = Ok (1%Z, w)).
Proof.
  induction is as [|i is IH]; intros s HA.
  - split.
    + intros _. cbn [vsps_loop map]. rewrite fsum_nil. do 4 f_equal. ring.
    + intros H. inversion H.
  - assert (HA' : forall k, In k is -> nth_error A k = Some (renc R (gmul R (a k) B))) by (intros k Hk; apply HA; right; exact Hk).
    cbn [vsps_loop]. rewrite (HA i (or_introl eq_refl)). cbn [of_opt bind].
    rewrite mult_log by apply weight_F.
    assert (EC : core_add R (renc R (gmul R s B)) (renc R (gmul R (F (vsps_weight t delta X i) * a i) B)) =
                 Some (renc R (gmul R (s + F (vsps_weight t delta X i) * a i) B))).
    { unfold core_add. rewrite !(ok_dec_enc _ HR). rewrite <- (gmul_add R HR). reflexivity. }
    set (d := F (vsps_weight t delta X i) * a i) in *.
    destruct (Fq_eq_dec d 0) as [E|E]; cbn [Z.eqb].
    + split; [|intros _; eexists; reflexivity]. intros H. apply Forall_cons_iff in H. destruct H as (H & _). contradiction.
    + rewrite EC. destruct (IH (s + d) HA') as (I1 & I2). split.
      * intros H. apply Forall_cons_iff in H. destruct H as (_ & H). rewrite (I1 H). cbn [map]. rewrite fsum_cons.
        fold d. do 4 f_equal. ring.
      * intros H. apply Exists_cons in H. destruct H as [H|H]; [contradiction|]. apply I2. exact H.
Qed.

Lemma vsps_log t A delta X (a : nat -> Fq) :
  (forall i, (i < t + 1)%nat -> nth_error A i = Some (renc R (gmul R (a i) B))) ->
  let w i := sumr 0 (t + 1) (fun j => F (X j i) * fpow (F delta) j) in
  ((forall i, (i < t + 1)%nat -> w i * a i <> 0) ->
   vsps R t A delta X = Ok (0%Z, renc R (gmul R (sumr 0 (t + 1) (fun i => w i * a i)) B))) /\
  ((exists i, (i < t + 1)%nat /\ w i * a i = 0) -> exists v, vsps R t A delta X = Ok (1%Z, v)).
Proof.
  intros HA w. destruct (loop_log t A delta X a (seq 0 (t + 1)) 0) as (H1 & H2).
  { intros i Hi. apply HA. apply in_seq in Hi. lia. }
  assert (EW : forall i, F (vsps_weight t delta X i) = w i) by (intros i; apply weight_F).
  unfold vsps. replace (zeros 32) with (renc R (gmul R 0 B)) by (rewrite gmul_0; exact (ok_enc_zero _ HR)).
  split.
  - intros H. rewrite H1.
    + unfold sumr. rewrite Nat.sub_0_r. rewrite (fsum_map_ext _ (fun i => w i * a i)) by (intros i _; rewrite EW; reflexivity).
      do 4 f_equal. ring.
    + apply Forall_forall. intros i Hi. rewrite EW. apply H. apply in_seq in Hi. lia.
  - intros (i & Hi & E). apply H2. apply Exists_exists. exists i. split; [apply in_seq; lia|]. rewrite EW. exact E.
Qed.

(** ** weights from the inverse: the polynomials that are 1 at one position and 0 at the others *)
Lemma wbasis xs out i k : xs <> [] -> NoDup xs -> Forall u8 xs -> (i < length xs)%nat -> (k < length xs)%nat ->
  sumr 0 (length xs) (fun j => F (invertedVDMmatrix xs out j i) * fpow (F (nth k xs 0%Z)) j) = fdelta k i.
Proof.
  intros Hne Hnd HF Hi Hk. destruct (inverted_F xs out Hne Hnd HF) as (_ & HRR & _).
  rewrite <- (HRR k i Hk Hi). apply sumr_ext. intros; ring.
Qed.

Lemma wpoly n (X : nat -> Fq) : polyfun n (fun x => sumr 0 n (fun j => X j * fpow x j)).
Proof.
  exists (map X (seq 0 n)). split; [rewrite map_length, seq_length; lia|]. intros x.
  rewrite peval_sumr, map_length, seq_length. apply sumr_ext. intros j Hj. rewrite nth_map_seq by lia. ring.
Qed.

Lemma weighted xs out (f : Fq -> Fq) x : xs <> [] -> NoDup xs -> Forall u8 xs -> polyfun (length xs) f ->
  sumr 0 (length xs) (fun i => sumr 0 (length xs) (fun j => F (invertedVDMmatrix xs out j i) * fpow x j) * f (F (nth i xs 0%Z))) = f x.
Proof.
  intros Hne Hnd HF Hf. revert x.
  apply (polyfun_unique (length xs)
           (fun x => sumr 0 (length xs) (fun i => sumr 0 (length xs) (fun j => F (invertedVDMmatrix xs out j i) * fpow x j) * f (F (nth i xs 0%Z)))) f (map F xs)).
  - unfold sumr at 1. apply polyfun_sum. intros i Hi.
    apply (polyfun_ext _ (fun x => f (F (nth i xs 0%Z)) * sumr 0 (length xs) (fun j => F (invertedVDMmatrix xs out j i) * fpow x j))); [intros; ring|].
    apply polyfun_scale. apply (wpoly (length xs) (fun j => F (invertedVDMmatrix xs out j i))).
  - exact Hf.
  - apply F_NoDup; assumption.
  - rewrite map_length. lia.
  - intros y Hy. apply in_map_iff in Hy. destruct Hy as (z & <- & Hz). apply (In_nth _ _ 0%Z) in Hz. destruct Hz as (k & Hk & <-).
    rewrite (sumr_single 0 (length xs) _ k); [|lia|].
    + rewrite wbasis by assumption. unfold fdelta. rewrite Nat.eqb_refl. ring.
    + intros i Hi Hne'. rewrite wbasis by (assumption || lia). unfold fdelta. destruct (Nat.eqb_spec k i); [congruence|ring].
Qed.

Lemma wnonzero xs out i x : xs <> [] -> NoDup xs -> Forall u8 xs -> (i < length xs)%nat -> ~ In x (map F xs) ->
  sumr 0 (length xs) (fun j => F (invertedVDMmatrix xs out j i) * fpow x j) <> 0.
Proof.
  intros Hne Hnd HF Hi Hx E. set (n := length xs) in *.
  set (X := fun j => F (invertedVDMmatrix xs out j i)).
  assert (Hz : forall y, sumr 0 n (fun j => X j * fpow y j) = 0).
  { apply (polyfun_unique n (fun y => sumr 0 n (fun j => X j * fpow y j)) (fun _ => 0)
             (x :: map F (firstn i xs ++ skipn (Datatypes.S i) xs))).
    - apply wpoly.
    - apply polyfun_zero.
    - constructor.
      + intros H. apply Hx. apply in_map_iff in H. destruct H as (y & <- & Hy). apply in_map.
        rewrite <- (firstn_skipn i xs). apply in_or_app. apply in_app_or in Hy. destruct Hy as [Hy|Hy]; [left; exact Hy|right].
        clear - Hy. revert xs Hy. induction i as [|i IH]; intros [|q xs] Hy; cbn in *; try tauto. apply IH. destruct xs; exact Hy.
      + apply F_NoDup.
        * destruct (nth_error xs i) as [q|] eqn:Q; [|apply nth_error_None in Q; unfold n in *; lia].
          apply nth_error_split in Q. destruct Q as (l1 & l2 & -> & <-).
          rewrite firstn_app, firstn_all, Nat.sub_diag. cbn [firstn]. rewrite app_nil_r.
          rewrite skipn_app. rewrite skipn_all2 by lia. replace (Datatypes.S (length l1) - length l1)%nat with 1%nat by lia. cbn [skipn app].
          apply NoDup_remove_1 in Hnd. exact Hnd.
        * apply Forall_app. rewrite <- (firstn_skipn i xs) in HF at 1. split; [apply Forall_app in HF; tauto|].
          clear - HF. rewrite firstn_skipn in HF. rewrite <- (firstn_skipn (Datatypes.S i) xs) in HF. apply Forall_app in HF. tauto.
    - cbn [length]. rewrite map_length, app_length, firstn_length, skipn_length. fold n. lia.
    - intros y [<-|Hy]; [exact E|]. apply in_map_iff in Hy. destruct Hy as (z & <- & Hz).
      assert (Hk : exists k, (k < n)%nat /\ k <> i /\ nth k xs 0%Z = z).
      { apply in_app_or in Hz. destruct Hz as [Hz|Hz]; apply (In_nth _ _ 0%Z) in Hz; destruct Hz as (k & Hk & Ek).
        - rewrite firstn_length in Hk. exists k. split; [lia|]. split; [lia|]. rewrite <- Ek.
          rewrite <- (firstn_skipn i xs) at 1. rewrite app_nth1; [reflexivity|]. rewrite firstn_length. lia.
        - rewrite skipn_length in Hk. exists (Datatypes.S i + k)%nat. split; [unfold n; lia|]. split; [lia|]. rewrite <- Ek.
          rewrite <- (firstn_skipn (Datatypes.S i) xs) at 1. rewrite app_nth2; rewrite firstn_length; [|lia].
          f_equal. lia. }
      destruct Hk as (k & Hk & Hki & <-). unfold X, n. rewrite wbasis by assumption. unfold fdelta. destruct (Nat.eqb_spec k i); [contradiction|reflexivity]. }
  specialize (Hz (F (nth i xs 0%Z))). unfold X, n in Hz. rewrite wbasis in Hz by assumption. unfold fdelta in Hz.
  rewrite Nat.eqb_refl in Hz. exact (fone_neq_fzero Hz).
Qed.

(** ** commitments *)
Lemma commitment_log h f r : exists cs, length cs = Nat.max (length f) (length r) /\
  forall x, commitment R h f r x = gmul R (peval cs (F x)) B.
Proof.
  destruct (gen_Fq R HR h) as (z & ->).
  exists (padd (map F f) (pscale z (map F r))). split.
  - rewrite padd_length, pscale_length, !map_length. reflexivity.
  - intros x. unfold commitment. rewrite !(gmul_of_Z R HR) by (apply Z.mod_pos_bound; apply L_pos).
    rewrite !of_Z_mod, !of_Z_poly, padd_eval, pscale_eval, (gmul_add R HR). f_equal.
    rewrite <- (gmul_mul R HR). f_equal. ring.
Qed.

(** C102: with rows of t+1 entries _vsps evaluates the committed polynomials at delta *)
Theorem vsps_evaluates h t f r xs delta out :
  length xs = (t + 1)%nat -> NoDup xs -> Forall u8 xs -> (length f <= t + 1)%nat -> (length r <= t + 1)%nat ->
  (forall x, In x xs -> commitment R h f r x <> rzero R) -> (forall x, In x xs -> (delta mod L <> x)%Z) ->
  vsps R t (map (fun x => renc R (commitment R h f r x)) xs) delta (invertedVDMmatrix xs out) =
  Ok (0%Z, renc R (commitment R h f r delta)).
Proof.
  intros Hlen Hnd HF Hf Hr Hc Hd. destruct (commitment_log h f r) as (cs & Hcl & Hcs).
  assert (Hne : xs <> []) by (intros ->; cbn in Hlen; lia).
  destruct (vsps_log t (map (fun x => renc R (commitment R h f r x)) xs) delta (invertedVDMmatrix xs out)
              (fun i => peval cs (F (nth i xs 0%Z)))) as (H1 & _).
  { intros i Hi. rewrite nth_error_map. rewrite (nth_error_nth' xs 0%Z) by lia. cbn [option_map]. rewrite Hcs. reflexivity. }
  rewrite <- Hlen in H1. rewrite H1.
  - rewrite (weighted xs out (peval cs)); try assumption.
    + rewrite Hcs. reflexivity.
    + apply (polyfun_le _ _ cs); [lia|reflexivity].
  - intros i Hi. apply fmul_neq_0.
    + apply wnonzero; try assumption. intros Hin. apply in_map_iff in Hin. destruct Hin as (x & E & Hx).
      apply of_Z_eq in E. apply (Hd x Hx). rewrite <- E. apply Z.mod_small.
      pose proof (proj1 (Forall_forall _ _) HF x Hx) as Hu. unfold u8 in Hu. pose proof L_gt_65536. lia.
    + intros E. apply (Hc (nth i xs 0%Z)); [apply nth_In; exact Hi|]. rewrite Hcs, E. apply gmul_0.
Qed.

Lemma logs (P : Z -> rG R) l : exists p : Z -> Fq, forall x, In x l -> P x = gmul R (p x) B.
Proof.
  induction l as [|z l (p & Hp)]; [exists (fun _ => 0); intros x []|].
  destruct (gen_Fq R HR (P z)) as (k & Hk). exists (fun x => if (x =? z)%Z then k else p x).
  intros x [<-|Hx]; [rewrite Z.eqb_refl; exact Hk|]. destruct (Z.eqb_spec x z) as [->|]; [exact Hk|apply Hp; exact Hx].
Qed.

(** C102: agreement of two windows at t+1 values of delta means one polynomial through both *)
Theorem vsps_sound t (P : Z -> rG R) xs ys deltas out :
  length xs = (t + 1)%nat -> length ys = (t + 1)%nat -> NoDup xs -> NoDup ys -> Forall u8 xs -> Forall u8 ys ->
  NoDup deltas -> Forall (fun d => (0 <= d < L)%Z) deltas -> (t + 1 <= length deltas)%nat ->
  (forall d, In d deltas -> exists v,
     vsps R t (map (fun x => renc R (P x)) xs) d (invertedVDMmatrix xs out) = Ok (0%Z, v) /\
     vsps R t (map (fun x => renc R (P x)) ys) d (invertedVDMmatrix ys out) = Ok (0%Z, v)) ->
  exists cs, length cs = (t + 1)%nat /\ forall x, In x xs \/ In x ys -> P x = rsmul R (poly cs x mod L) (rbase R).
Proof.
  intros Lx Ly Nx Ny Fx Fy Nd Fd Ld H.
  destruct (logs P (xs ++ ys)) as (p & Hp).
  set (side := fun zs x => sumr 0 (t + 1) (fun i => sumr 0 (t + 1) (fun j => F (invertedVDMmatrix zs out j i) * fpow x j) * p (nth i zs 0%Z))).
  assert (Hside : forall zs d v, length zs = (t + 1)%nat -> incl zs (xs ++ ys) ->
            vsps R t (map (fun x => renc R (P x)) zs) d (invertedVDMmatrix zs out) = Ok (0%Z, v) -> v = renc R (gmul R (side zs (F d)) B)).
  { intros zs d v Lz Iz E.
    destruct (vsps_log t (map (fun x => renc R (P x)) zs) d (invertedVDMmatrix zs out) (fun i => p (nth i zs 0%Z))) as (H1 & H2).
    { intros i Hi. rewrite nth_error_map, (nth_error_nth' zs 0%Z) by lia. cbn [option_map].
      rewrite Hp; [reflexivity|]. apply Iz. apply nth_In. lia. }
    cbv zeta in H1, H2.
    set (w := fun i => sumr 0 (t + 1) (fun j => F (invertedVDMmatrix zs out j i) * fpow (F d) j) * p (nth i zs 0%Z)) in *.
    destruct (Exists_dec (fun i => w i = 0) (seq 0 (t + 1)) (fun i => Fq_eq_dec (w i) 0)) as [Hex|Hno].
    - apply Exists_exists in Hex. destruct Hex as (i & Hi & E0). apply in_seq in Hi.
      destruct H2 as (v' & E'); [exists i; split; [lia|exact E0]|]. rewrite E' in E. discriminate E.
    - rewrite H1 in E; [injection E as <-; reflexivity|]. intros i Hi E0. apply Hno. apply Exists_exists. exists i.
      split; [apply in_seq; lia|exact E0]. }
  assert (Hpoly : forall zs, polyfun (t + 1) (side zs)).
  { intros zs. unfold side, sumr at 1. apply polyfun_sum. intros i _.
    apply (polyfun_ext _ (fun x => p (nth i zs 0%Z) * sumr 0 (t + 1) (fun j => F (invertedVDMmatrix zs out j i) * fpow x j))); [intros; ring|].
    apply polyfun_scale. apply (wpoly (t + 1) (fun j => F (invertedVDMmatrix zs out j i))). }
  assert (Hat : forall zs x, length zs = (t + 1)%nat -> NoDup zs -> Forall u8 zs -> In x zs -> side zs (F x) = p x).
  { intros zs x Lz Nz Fz Hx. assert (Hne : zs <> []) by (intros ->; destruct Hx).
    apply (In_nth _ _ 0%Z) in Hx. destruct Hx as (k & Hk & <-). unfold side. rewrite <- Lz.
    rewrite (sumr_single 0 (length zs) _ k); [|lia|].
    - rewrite wbasis by assumption. unfold fdelta. rewrite Nat.eqb_refl. ring.
    - intros i Hi Hik. rewrite wbasis by (assumption || lia). unfold fdelta. destruct (Nat.eqb_spec k i); [congruence|ring]. }
  assert (Heq : forall x, side xs x = side ys x).
  { apply (polyfun_unique (t + 1) _ _ (map F deltas)).
    - apply Hpoly.
    - apply Hpoly.
    - clear - Nd Fd. induction Nd as [|d l Hd Nd IH]; cbn [map]; [constructor|]. apply Forall_cons_iff in Fd. destruct Fd as (Hr & Fd).
      constructor; [|apply IH; exact Fd]. intros Hin. apply in_map_iff in Hin. destruct Hin as (y & E & Hy). apply Hd.
      apply of_Z_inj in E; [subst; exact Hy| |exact Hr]. exact (proj1 (Forall_forall _ _) Fd y Hy).
    - rewrite map_length. exact Ld.
    - intros y Hy. apply in_map_iff in Hy. destruct Hy as (d & <- & Hd). destruct (H d Hd) as (v & E1 & E2).
      apply Hside in E1; [|exact Lx|apply incl_appl, incl_refl]. apply Hside in E2; [|exact Ly|apply incl_appr, incl_refl].
      rewrite E1 in E2. apply (renc_inj R HR) in E2. exact (gmul_inj R HR _ _ _ (ok_base _ HR) E2). }
  destruct (Hpoly xs) as (cs & Hc & Hcs). exists (map fv cs). split; [rewrite map_length; exact Hc|].
  intros x Hx. rewrite (gmul_of_Z R HR) by (apply Z.mod_pos_bound; apply L_pos). rewrite of_Z_mod, of_Z_poly, map_of_Z_fv, <- Hcs.
  destruct Hx as [Hx|Hx].
  - rewrite (Hat xs x) by assumption. apply Hp. apply in_or_app. left. exact Hx.
  - rewrite Heq, (Hat ys x) by assumption. apply Hp. apply in_or_app. right. exact Hx.
Qed.

(** ** t = 1, the line f(x) = x *)
Lemma inverse2 a b out : u8 a -> u8 b -> a <> b ->
  let X := invertedVDMmatrix [a; b] out in let q := F b - F a in
  q <> 0 /\ F (X 0%nat 0%nat) * q = F b /\ F (X 0%nat 1%nat) * q = - F a /\ F (X 1%nat 0%nat) * q = - (1) /\ F (X 1%nat 1%nat) * q = 1.
Proof.
  intros Ua Ub Hab X q.
  assert (Hnd : NoDup [a; b]) by (constructor; [intros [E|[]]; congruence|constructor; [intros []|constructor]]).
  assert (HF : Forall u8 [a; b]) by (repeat constructor; assumption || (unfold u8 in *; lia)).
  assert (Hq : q <> 0).
  { intros E. apply (proj1 (fsub_eq_0 _ _)) in E. apply of_Z_u8_inj in E; congruence. }
  destruct (inverted_F [a; b] out ltac:(discriminate) Hnd HF) as (_ & HRR & _). cbn [length] in HRR. fold X in HRR.
  assert (S2 : forall f, sumr 0 2 f = f 0%nat + f 1%nat) by (intros f; unfold sumr; cbn [seq map Nat.sub]; rewrite !fsum_cons, fsum_nil; ring).
  pose proof (HRR 0 0 ltac:(lia) ltac:(lia))%nat as E00. pose proof (HRR 0 1 ltac:(lia) ltac:(lia))%nat as E01.
  pose proof (HRR 1 0 ltac:(lia) ltac:(lia))%nat as E10. pose proof (HRR 1 1 ltac:(lia) ltac:(lia))%nat as E11.
  rewrite S2 in E00, E01, E10, E11. cbn [nth fpow] in E00, E01, E10, E11. unfold fdelta in *. cbn [Nat.eqb] in E00, E01, E10, E11.
  set (x00 := F (X 0%nat 0%nat)) in *. set (x01 := F (X 0%nat 1%nat)) in *. set (x10 := F (X 1%nat 0%nat)) in *. set (x11 := F (X 1%nat 1%nat)) in *.
  clearbody x00 x01 x10 x11. unfold q in *. clear q.
  split; [exact Hq|]. set (A := F a) in *. set (Bb := F b) in *. clearbody A Bb. clear - E00 E01 E10 E11.
  assert (G10 : x10 * (Bb - A) = - (1)).
  { transitivity ((1 * x00 + Bb * 1 * x10) - (1 * x00 + A * 1 * x10)); [ring|]. rewrite E00, E10. ring. }
  assert (G11 : x11 * (Bb - A) = 1).
  { transitivity ((1 * x01 + Bb * 1 * x11) - (1 * x01 + A * 1 * x11)); [ring|]. rewrite E01, E11. ring. }
  repeat split; try assumption.
  - transitivity ((1 * x00 + A * 1 * x10) * (Bb - A) - A * (x10 * (Bb - A))); [ring|]. rewrite E00, G10. ring.
  - transitivity ((1 * x01 + A * 1 * x11) * (Bb - A) - A * (x11 * (Bb - A))); [ring|]. rewrite E01, G11. ring.
Qed.

Lemma re00 m : (reread 1 m 0 0 = m 0 0)%nat. Proof. reflexivity. Qed.
Lemma re10 m : (reread 1 m 1 0 = m 0 1)%nat. Proof. reflexivity. Qed.
Lemma re01 m : (reread 1 m 0 1 = m 0 1)%nat. Proof. reflexivity. Qed.
Lemma re11 m : (reread 1 m 1 1 = m 1 0)%nat. Proof. reflexivity. Qed.

Lemma line_log h i : commitment R h [0%Z; 1%Z] [0%Z; 0%Z] i = gmul R (F i) B.
Proof.
  unfold commitment. cbn [poly]. replace (0 + i * (0 + i * 0))%Z with 0%Z by ring. rewrite Zmod_0_l.
  rewrite (gmul_of_Z R HR) by (apply Z.mod_pos_bound; apply L_pos).
  rewrite of_Z_mod. rewrite rsmul_0, (radd_0_r R HR). f_equal. f_equal. ring.
Qed.

Lemma line_nonzero h i : (1 <= i <= 255)%Z -> commitment R h [0%Z; 1%Z] [0%Z; 0%Z] i <> rzero R.
Proof.
  intros Hi E. rewrite line_log in E. apply (gmul_eq_0 R HR) in E. destruct E as [E|E]; [|exact (ok_base _ HR E)].
  exact (of_Z_index_neq_0 i Hi E).
Qed.

(** C102: the line is rejected for all but one value of delta *)
Theorem line_rejected h junk delta out : u8 junk -> junk <> 1%Z ->
  (((10 * junk - 13) * delta) mod L <> 1)%Z ->
  vsps_check R 1 (commitments R h [0%Z; 1%Z] [0%Z; 0%Z] 4) delta junk out = Ok 1%Z.
Proof.
  intros Uj Hj Hd. unfold vsps_check. cbn [Nat.eqb]. change (map Z.of_nat (seq 1 1) ++ [junk]) with [1%Z; junk].
  change (map (fun i => ((Z.of_nat 1 + Z.of_nat i) mod 256)%Z) (seq 1 (1 + 1))) with [2%Z; 3%Z].
  set (X := invertedVDMmatrix [1%Z; junk] out). set (Y := invertedVDMmatrix [2%Z; 3%Z] X).
  assert (EC : forall i, commitment R h [0%Z; 1%Z] [0%Z; 0%Z] i = gmul R (F i) B).
  { apply line_log. }
  assert (EA : commitments R h [0%Z; 1%Z] [0%Z; 0%Z] 4 = map (fun i => renc R (gmul R (F (Z.of_nat i)) B)) (seq 1 4)).
  { unfold commitments. apply map_ext. intros i. rewrite EC. reflexivity. }
  rewrite EA. clear EA EC.
  destruct (inverse2 1 junk out ltac:(unfold u8; lia) Uj ltac:(congruence)) as (Hq & X00 & X01 & X10 & X11). fold X in X00, X01, X10, X11.
  destruct (inverse2 2 3 X ltac:(unfold u8; lia) ltac:(unfold u8; lia) ltac:(lia)) as (Hq' & Y00 & Y01 & Y10 & Y11). fold Y in Y00, Y01, Y10, Y11.
  cbn [seq map skipn Nat.add].
  set (A1 := [renc R (gmul R (F (Z.of_nat 1)) B); renc R (gmul R (F (Z.of_nat 2)) B); renc R (gmul R (F (Z.of_nat 3)) B); renc R (gmul R (F (Z.of_nat 4)) B)]).
  set (A2 := [renc R (gmul R (F (Z.of_nat 3)) B); renc R (gmul R (F (Z.of_nat 4)) B)]).
  pose proof (vsps_log 1 A1 delta (reread 1 X) (fun i => F (Z.of_nat (1 + i)))) as V1.
  pose proof (vsps_log 1 A2 delta (reread 1 Y) (fun i => F (Z.of_nat (3 + i)))) as V2.
  cbv zeta in V1, V2.
  destruct V1 as (V1 & V1'); [intros [|[|i]] Hi; [reflexivity|reflexivity|lia]|].
  destruct V2 as (V2 & V2'); [intros [|[|i]] Hi; [reflexivity|reflexivity|lia]|].
  cbn [Nat.add] in V1, V1', V2, V2'.
  set (w1 := fun i => sumr 0 2 (fun j => F (reread 1 X j i) * fpow (F delta) j) * F (Z.of_nat (Datatypes.S i))) in *.
  set (w2 := fun i => sumr 0 2 (fun j => F (reread 1 Y j i) * fpow (F delta) j) * F (Z.of_nat (Datatypes.S (Datatypes.S (Datatypes.S i))))) in *.
  destruct (Exists_dec (fun i => w1 i = 0) (seq 0 2) (fun i => Fq_eq_dec (w1 i) 0)) as [Hex|Hno].
  { apply Exists_exists in Hex. destruct Hex as (i & Hi & E0). apply in_seq in Hi.
    destruct V1' as (v & E); [exists i; split; [lia|exact E0]|]. rewrite E. reflexivity. }
  rewrite V1. 2:{ intros i Hi E0. apply Hno. apply Exists_exists. exists i. split; [apply in_seq; lia|exact E0]. }
  cbn [bind Z.eqb negb].
  destruct (Exists_dec (fun i => w2 i = 0) (seq 0 2) (fun i => Fq_eq_dec (w2 i) 0)) as [Hex|Hno2].
  { apply Exists_exists in Hex. destruct Hex as (i & Hi & E0). apply in_seq in Hi.
    destruct V2' as (v & E); [exists i; split; [lia|exact E0]|]. rewrite E. reflexivity. }
  rewrite V2. 2:{ intros i Hi E0. apply Hno2. apply Exists_exists. exists i. split; [apply in_seq; lia|exact E0]. }
  cbn [bind Z.eqb negb]. clear V1 V1' V2 V2' Hno Hno2.
  destruct (bytes_eqb (renc R (gmul R (sumr 0 2 w1) B)) (renc R (gmul R (sumr 0 2 w2) B))) eqn:Q; [|reflexivity].
  exfalso. apply bytes_eqb_eq in Q. apply (renc_inj R HR) in Q. apply (gmul_inj R HR _ _ _ (ok_base _ HR)) in Q.
  assert (S2 : forall f, sumr 0 2 f = f 0%nat + f 1%nat) by (intros f; unfold sumr; cbn [seq map Nat.sub]; rewrite !fsum_cons, fsum_nil; ring).
  unfold w1, w2 in Q. rewrite !S2 in Q.
  rewrite !re00, !re10, !re01, !re11 in Q.
  cbn [fpow] in Q.
  assert (E2 : F 2 = 1 + 1) by (change (F (1 + 1)%Z = F 1 + F 1); apply of_Z_add).
  assert (E3 : F 3 = 1 + 1 + 1) by (change (F (2 + 1)%Z = 1 + 1 + F 1); rewrite of_Z_add, E2; reflexivity).
  assert (E4 : F 4 = 1 + 1 + 1 + 1) by (change (F (3 + 1)%Z = 1 + 1 + 1 + F 1); rewrite of_Z_add, E3; reflexivity).
  change (Z.of_nat 1) with 1%Z in Q. change (Z.of_nat 2) with 2%Z in Q. change (Z.of_nat 3) with 3%Z in Q. change (Z.of_nat 4) with 4%Z in Q.
  change (F 1) with 1 in *. rewrite E2, E3, E4 in Q. rewrite E2, E3 in Y00, Y01, Y10, Y11.
  apply Hd. rewrite <- (Z.mod_small 1 L) by (pose proof L_gt_65536; lia). apply of_Z_eq.
  rewrite of_Z_mul, of_Z_sub, of_Z_mul. change (F 1) with 1.
  change 10%Z with ((4 + 1) * 2)%Z. change 13%Z with (4 * 3 + 1)%Z. rewrite ?of_Z_add, ?of_Z_mul, ?of_Z_add, E2, E3, E4. change (F 1) with 1.
  set (d := F delta) in *. set (c := F junk) in *.
  set (x00 := F (X 0%nat 0%nat)) in *. set (x01 := F (X 0%nat 1%nat)) in *. set (x10 := F (X 1%nat 0%nat)) in *.
  set (y00 := F (Y 0%nat 0%nat)) in *. set (y01 := F (Y 0%nat 1%nat)) in *. set (y10 := F (Y 1%nat 0%nat)) in *.
  clearbody d c x00 x01 x10 y00 y01 y10. clear - Q X00 X01 X10 Y00 Y01 Y10 Hq.
  assert (Z00 : y00 = 1 + 1 + 1) by (rewrite <- Y00; ring).
  assert (Z01 : y01 = - (1 + 1)) by (rewrite <- Y01; ring).
  assert (Z10 : y10 = - (1)) by (rewrite <- Y10; ring).
  apply (f_equal (fun z => z * (c - 1))) in Q. rewrite Z00, Z01, Z10 in Q.
  assert (QL : forall u v w : Fq, ((x00 * 1 + x01 * (d * 1)) * 1 + (x01 * 1 + x10 * (d * 1)) * (1 + 1)) * (c - 1) =
    (x00 * (c - 1)) + (x01 * (c - 1)) * d + (1 + 1) * ((x01 * (c - 1)) + (x10 * (c - 1)) * d)) by (intros; ring).
  rewrite (QL 0 0 0), X00, X01, X10 in Q. clear QL.
  apply (proj1 (fsub_eq_0 _ _)). apply (proj2 (fsub_eq_0 _ _)) in Q. rewrite <- Q. ring.
Qed.
End LOOP.
