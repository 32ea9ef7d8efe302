(** Proofs about MpmultModel.v *)
From Coq Require Import ZArith Lia List Bool Arith Field.
From Verif Require Import PrimeL Fq Poly Bytes Res Sodium LinSolve.
From Verif Require Import ToprfModel ToprfSpec ToprfProofs DkgModel DkgProofs MpmultModel.
Import ListNotations.
Open Scope list_scope.
Open Scope fq_scope.

Notation F := of_Z.

Lemma mset_same a i j v : mset a i j v i j = v.
Proof. unfold mset. rewrite !Nat.eqb_refl. reflexivity. Qed.
Lemma mset_row a i j v r c : r <> i -> mset a i j v r c = a r c.
Proof. intros H. unfold mset. destruct (Nat.eqb_spec r i); [contradiction|reflexivity]. Qed.
Lemma mset_col a i j v r c : c <> j -> mset a i j v r c = a r c.
Proof. intros H. unfold mset. destruct (Nat.eqb_spec c j); [contradiction|rewrite andb_false_r; reflexivity]. Qed.

(** entries of the first n rows and columns are canonical *)
Definition canon (n : nat) (a : mat) : Prop := forall r c, (r < n)%nat -> (c < n)%nat -> (0 <= a r c < L)%Z.

Lemma mset_canon n a i j v : canon n a -> (0 <= v < L)%Z -> canon n (mset a i j v).
Proof. intros H Hv r c Hr Hc. unfold mset. destruct (_ && _)%bool; [exact Hv|apply H; assumption]. Qed.

Lemma of_Z_r255div a b : F (r255div a b) = F a / F b.
Proof. unfold r255div. rewrite of_Z_scalar_mul, of_Z_scalar_invert. reflexivity. Qed.

(** ** row_max *)
Lemma row_max_pos n a i j : canon n a -> (i < n)%nat -> (j < n)%nat -> (0 < a i j)%Z -> (0 < row_max n a i < L)%Z.
Proof.
  intros HC Hi Hj Hp. unfold row_max.
  assert (H : (fun k c1 => (0 <= c1 < L)%Z /\ ((j < k)%nat -> (0 < c1)%Z)) (0 + n)%nat
     (fold_left (fun c1 j0 => if cmp_gt (a i j0) c1 then a i j0 else c1) (seq 0 n) 0%Z)).
  { apply fold_seq_inv.
    - pose proof L_pos. split; [lia|]. intros; lia.
    - intros k c1 Hk (H1 & H2). unfold cmp_gt. pose proof (HC i k Hi ltac:(lia)).
      destruct (Z.ltb_spec c1 (a i k)).
      + split; [assumption|]. intros. lia.
      + split; [assumption|]. intros Hjk. destruct (Nat.eq_dec j k) as [->|]; [lia|]. apply H2. lia. }
  cbn beta in H. destruct H as (H1 & H2). split; [apply H2; lia|lia].
Qed.

(** ** pivot: if column j has a non-zero entry at some position >= j, the position found has one *)
Lemma nonneg_pos z : (0 <= z < L)%Z -> (0 < z)%Z <-> F z <> 0.
Proof.
  intros Hz. split.
  - intros H E. change 0 with (F 0) in E. apply of_Z_inj in E; try (pose proof L_pos; lia).
  - intros H. destruct (Z.eq_dec z 0) as [->|]; [contradiction H; reflexivity|lia].
Qed.

Lemma r255div_range a b : (0 <= r255div a b < L)%Z.
Proof. apply scalar_mul_range. Qed.

Lemma pivot_found n a ix c j k0 :
  (forall i, (j <= i < n)%nat -> F (c (ix i)) <> 0) ->
  (exists i, (j <= i < n)%nat /\ F (a (ix i) j) <> 0) ->
  let k := snd (pivot n a ix c j k0) in (j <= k < n)%nat /\ F (a (ix k) j) <> 0.
Proof.
  intros Hc (i & Hi & Hne). cbv zeta. unfold pivot.
  assert (H : (fun m st => (0 <= fst st < L)%Z /\
     ((0 < fst st)%Z -> (j <= snd st < n)%nat /\ F (a (ix (snd st)) j) <> 0) /\
     ((i < m)%nat -> (0 < fst st)%Z)) (j + (n - j))%nat
     (fold_left (fun '(pi1, k) i0 => let pi0 := r255div (a (ix i0) j) (c (ix i0)) in
         if cmp_gt pi0 pi1 then (pi0, i0) else (pi1, k)) (seq j (n - j)) (0%Z, k0))).
  { apply fold_seq_inv.
    - cbn [fst snd]. pose proof L_pos. split; [lia|]. split; [lia|]. intros; lia.
    - intros m (pi1, k) Hm (H1 & H2 & H3). cbn [fst snd] in *. cbv zeta. unfold cmp_gt.
      pose proof (r255div_range (a (ix m) j) (c (ix m))) as Hr.
      destruct (Z.ltb_spec pi1 (r255div (a (ix m) j) (c (ix m)))) as [Hlt|Hge]; cbn [fst snd].
      + split; [exact Hr|]. split.
        * intros _. split; [lia|]. intros E.
          assert (Hp : (0 < r255div (a (ix m) j) (c (ix m)))%Z) by lia.
          apply (nonneg_pos _ Hr) in Hp. apply Hp. rewrite of_Z_r255div, E. unfold fdiv. ring.
        * intros _. lia.
      + split; [exact H1|]. split; [exact H2|]. intros Him.
        destruct (Nat.eq_dec i m) as [->|]; [|apply H3; lia].
        assert (Hp : (0 < r255div (a (ix m) j) (c (ix m)))%Z).
        { apply (nonneg_pos _ Hr). rewrite of_Z_r255div. apply fmul_neq_0; [exact Hne|].
          apply finv_neq_0. apply Hc. lia. }
        lia. }
  cbn beta in H. destruct H as (_ & H2 & H3). apply H2. apply H3. lia.
Qed.

(** ** elimination of one row *)
Lemma elim_row_spec n ix j a i :
  canon n a -> (ix i < n)%nat -> (ix j < n)%nat -> ix i <> ix j -> (j < n)%nat ->
  let a' := elim_row n ix j a i in
  canon n a' /\
  (forall r c, r <> ix i -> a' r c = a r c) /\
  (forall c, (c < j)%nat -> a' (ix i) c = a (ix i) c) /\
  F (a' (ix i) j) = F (a (ix i) j) / F (a (ix j) j) /\
  (forall c, (j < c < n)%nat ->
     F (a' (ix i) c) = F (a (ix i) c) - F (a (ix i) j) / F (a (ix j) j) * F (a (ix j) c)).
Proof.
  intros HC Hi Hj Hij Hjn. cbv zeta. unfold elim_row.
  set (pj := r255div (a (ix i) j) (a (ix j) j)).
  assert (Ep : F pj = F (a (ix i) j) / F (a (ix j) j)) by apply of_Z_r255div.
  assert (H : (fun m a' => canon n a' /\ (forall r c, r <> ix i -> a' r c = a r c) /\
     (forall c, (c < j)%nat -> a' (ix i) c = a (ix i) c) /\ F (a' (ix i) j) = F pj /\
     (forall c, (m <= c < n)%nat -> a' (ix i) c = a (ix i) c) /\
     (forall c, (j < c < m)%nat -> F (a' (ix i) c) = F (a (ix i) c) - F pj * F (a (ix j) c))) ((j + 1) + (n - (j + 1)))%nat
     (fold_left (fun a0 l => mset a0 (ix i) l (scalar_sub (a0 (ix i) l) (scalar_mul pj (a0 (ix j) l))))
        (seq (j + 1) (n - (j + 1))) (mset a (ix i) j pj))).
  { apply fold_seq_inv.
    - split; [apply mset_canon; [assumption|apply r255div_range]|].
      split; [intros; apply mset_row; assumption|]. split; [intros; apply mset_col; lia|].
      split; [rewrite mset_same; reflexivity|]. split; [intros; apply mset_col; lia|]. intros; lia.
    - intros m a' Hm (H1 & H2 & H3 & H4 & H5 & H6).
      split; [apply mset_canon; [assumption|apply scalar_sub_range]|].
      split; [intros; rewrite mset_row by assumption; apply H2; assumption|].
      split; [intros; rewrite mset_col by lia; apply H3; assumption|].
      split; [rewrite mset_col by lia; exact H4|].
      split; [intros; rewrite mset_col by lia; apply H5; lia|].
      intros c Hc. destruct (Nat.eq_dec c m) as [->|].
      + rewrite mset_same, of_Z_scalar_sub_L, of_Z_scalar_mul by (apply H1; lia).
        rewrite H5 by lia. rewrite H2 by (intros E; apply Hij; symmetry; exact E). reflexivity.
      + rewrite mset_col by assumption. apply H6. lia. }
  cbn beta in H. destruct H as (H1 & H2 & H3 & H4 & _ & H6). rewrite Ep in *.
  split; [exact H1|]. split; [exact H2|]. split; [exact H3|]. split; [exact H4|].
  intros c Hc. apply H6. lia.
Qed.

(** ** positions *)
Definition perm (n : nat) (ix : nat -> nat) : Prop :=
  (forall p, (p < n)%nat -> (ix p < n)%nat) /\
  (forall p q, (p < n)%nat -> (q < n)%nat -> ix p = ix q -> p = q) /\
  (forall r, (r < n)%nat -> exists p, (p < n)%nat /\ ix p = r).

Lemma perm_id n : perm n (fun i => i).
Proof. split; [auto|]. split; [auto|]. intros r Hr. exists r. auto. Qed.

Lemma swap_at_j ix j k : swap ix j k j = ix k.
Proof. unfold swap. destruct (Nat.eqb_spec j k) as [->|]; [reflexivity|]. rewrite Nat.eqb_refl. reflexivity. Qed.
Lemma swap_at_k ix j k : swap ix j k k = ix j.
Proof. unfold swap. rewrite Nat.eqb_refl. reflexivity. Qed.
Lemma swap_other ix j k p : p <> j -> p <> k -> swap ix j k p = ix p.
Proof. intros. unfold swap. destruct (Nat.eqb_spec p k); [contradiction|]. destruct (Nat.eqb_spec p j); [contradiction|reflexivity]. Qed.
(** the permutation of positions *)
Definition tr (j k p : nat) : nat := if Nat.eqb p k then j else if Nat.eqb p j then k else p.
Lemma swap_tr ix j k p : swap ix j k p = ix (tr j k p).
Proof. unfold swap, tr. destruct (Nat.eqb_spec p k); [reflexivity|]. destruct (Nat.eqb_spec p j); reflexivity. Qed.
Lemma tr_inv j k p : tr j k (tr j k p) = p.
Proof.
  unfold tr. destruct (Nat.eqb_spec p k) as [->|]; [|destruct (Nat.eqb_spec p j) as [->|]].
  - destruct (Nat.eqb_spec j k); [congruence|]. rewrite Nat.eqb_refl. reflexivity.
  - rewrite Nat.eqb_refl. reflexivity.
  - destruct (Nat.eqb_spec p k); [contradiction|]. destruct (Nat.eqb_spec p j); [contradiction|]. reflexivity.
Qed.
Lemma tr_lt n j k p : (j < n)%nat -> (k < n)%nat -> (p < n)%nat -> (tr j k p < n)%nat.
Proof. intros. unfold tr. destruct (Nat.eqb p k); [|destruct (Nat.eqb p j)]; assumption. Qed.
Lemma tr_ge m j k p : (m <= j)%nat -> (m <= k)%nat -> (m <= p)%nat -> (m <= tr j k p)%nat.
Proof. intros. unfold tr. destruct (Nat.eqb p k); [|destruct (Nat.eqb p j)]; assumption. Qed.
Lemma tr_below m j k p : (m <= j)%nat -> (m <= k)%nat -> (p < m)%nat -> tr j k p = p.
Proof. intros. unfold tr. destruct (Nat.eqb_spec p k); [lia|]. destruct (Nat.eqb_spec p j); [lia|reflexivity]. Qed.

Lemma perm_swap n ix j k : (j < n)%nat -> (k < n)%nat -> perm n ix -> perm n (swap ix j k).
Proof.
  intros Hj Hk (H1 & H2 & H3). split; [|split].
  - intros p Hp. rewrite swap_tr. apply H1. apply tr_lt; assumption.
  - intros p q Hp Hq E. rewrite !swap_tr in E. apply H2 in E; try (apply tr_lt; assumption).
    rewrite <- (tr_inv j k p), E. apply tr_inv.
  - intros r Hr. destruct (H3 r Hr) as (p & Hp & <-). exists (tr j k p).
    split; [apply tr_lt; assumption|]. rewrite swap_tr, tr_inv. reflexivity.
Qed.

(** ** elimination of column j from all rows below position j *)
Lemma elim_rows_spec n ix j a :
  perm n ix -> (j < n)%nat -> canon n a ->
  let a' := fold_left (elim_row n ix j) (seq (j + 1) (n - (j + 1))) a in
  canon n a' /\
  (forall p c, (p <= j)%nat -> a' (ix p) c = a (ix p) c) /\
  (forall p, (j < p < n)%nat ->
     (forall c, (c < j)%nat -> a' (ix p) c = a (ix p) c) /\
     F (a' (ix p) j) = F (a (ix p) j) / F (a (ix j) j) /\
     (forall c, (j < c < n)%nat ->
        F (a' (ix p) c) = F (a (ix p) c) - F (a (ix p) j) / F (a (ix j) j) * F (a (ix j) c))).
Proof.
  intros HP Hj HC. cbv zeta. destruct HP as (P1 & P2 & P3).
  assert (H : (fun m a' => canon n a' /\
     (forall p c, (p <= j)%nat \/ (m <= p < n)%nat -> a' (ix p) c = a (ix p) c) /\
     (forall p, (j < p < m)%nat -> (p < n)%nat ->
     (forall c, (c < j)%nat -> a' (ix p) c = a (ix p) c) /\
     F (a' (ix p) j) = F (a (ix p) j) / F (a (ix j) j) /\
     (forall c, (j < c < n)%nat ->
        F (a' (ix p) c) = F (a (ix p) c) - F (a (ix p) j) / F (a (ix j) j) * F (a (ix j) c))))
     ((j + 1) + (n - (j + 1)))%nat
     (fold_left (elim_row n ix j) (seq (j + 1) (n - (j + 1))) a)).
  { apply fold_seq_inv.
    - split; [assumption|]. split; [reflexivity|]. intros; lia.
    - intros m a' Hm (H1 & H2 & H3).
      assert (Hne : forall p, (p < n)%nat -> p <> m -> ix p <> ix m).
      { intros p Hp Hpm E. apply Hpm. apply P2; [assumption|lia|assumption]. }
      destruct (elim_row_spec n ix j a' m) as (E1 & E2 & E3 & E4 & E5);
        [assumption|apply P1; lia|apply P1; lia| |lia|].
      { intros E. apply (Hne j); [lia|lia|congruence]. }
      split; [exact E1|]. split.
      + intros p c Hp. rewrite E2; [apply H2; lia|]. apply Hne; lia.
      + intros p Hp Hpn. destruct (Nat.eq_dec p m) as [->|Hpm].
        * rewrite E4. rewrite !(H2 m) by lia. rewrite !(H2 j) by lia. split; [|split; [reflexivity|]].
          -- intros c Hc. rewrite E3 by assumption. apply H2. lia.
          -- intros c Hc. rewrite E5 by assumption. rewrite !(H2 m) by lia. rewrite !(H2 j) by lia. reflexivity.
        * destruct (H3 p) as (G1 & G2 & G3); [lia|lia|].
          assert (Hx : ix p <> ix m) by (apply Hne; lia).
          split; [|split].
          -- intros c Hc. rewrite E2 by assumption. apply G1. assumption.
          -- rewrite E2 by assumption. exact G2.
          -- intros c Hc. rewrite E2 by assumption. apply G3. assumption. }
  cbn beta in H. destruct H as (H1 & H2 & H3). split; [exact H1|]. split.
  - intros p c Hp. apply H2. lia.
  - intros p Hp. apply H3; lia.
Qed.

(** ** LU invariant *)
Section LU.
  Variable n : nat.
  Variable A0 : nat -> nat -> Fq.
  Hypothesis Hkernel : forall x : nat -> Fq, (forall r, (r < n)%nat -> sumr 0 n (fun c => A0 r c * x c) = 0) ->
    forall c, (c < n)%nat -> x c = 0.

  Definition Upart (a : mat) (ix : nat -> nat) (q c : nat) : Fq := if Nat.leb q c then F (a (ix q) c) else 0.

  Definition LU (j : nat) (a : mat) (ix : nat -> nat) : Prop :=
    perm n ix /\ canon n a /\ (forall q, (q < j)%nat -> F (a (ix q) q) <> 0) /\
    forall p c, (p < n)%nat -> (c < n)%nat ->
      A0 (ix p) c = sumr 0 (Nat.min p j) (fun q => F (a (ix p) q) * Upart a ix q c)
                  + (if Nat.leb (Nat.min p j) c then F (a (ix p) c) else 0).

  (** some entry of column j at a position >= j is not zero *)
  Lemma pivot_exists j a ix : (j < n)%nat -> LU j a ix -> exists i, (j <= i < n)%nat /\ F (a (ix i) j) <> 0.
  Proof.
    intros Hj (HP & HC & Hpiv & HA).
    assert (Hdec : (exists i, (j <= i < n)%nat /\ F (a (ix i) j) <> 0) \/ (forall i, (j <= i < n)%nat -> F (a (ix i) j) = 0)).
    { clear -Hj. assert (H : forall d, (d <= n - j)%nat -> (exists i, (j <= i < n)%nat /\ F (a (ix i) j) <> 0) \/
        (forall i, (j <= i < j + d)%nat -> F (a (ix i) j) = 0)).
      { induction d as [|d IH]; intros Hd; [right; intros; lia|]. destruct IH as [IH|IH]; [lia|left; exact IH|].
        destruct (Fq_eq_dec (F (a (ix (j + d)%nat) j)) 0) as [E|E].
        - right. intros i Hi. destruct (Nat.eq_dec i (j + d)) as [->|]; [exact E|apply IH; lia].
        - left. exists (j + d)%nat. split; [lia|exact E]. }
      destruct (H (n - j)%nat (le_n _)) as [H'|H']; [left; exact H'|right]. intros i Hi. apply H'. lia. }
    destruct Hdec as [H|Hz]; [exact H|]. exfalso.
    (* a kernel vector with last coordinate 1 at j *)
    destruct (upper_solve (fun q k => F (a (ix q) k)) (fun q => - F (a (ix q) j)) j Hpiv) as (x & Hx).
    set (v := fun c => if Nat.ltb c j then x c else if Nat.eqb c j then 1 else 0).
    assert (HvU : forall q, (q < j)%nat -> sumr 0 n (fun c => Upart a ix q c * v c) = 0).
    { intros q Hq. rewrite (sumr_split 0 q n) by lia. rewrite (sumr_split q j n) by lia. rewrite (sumr_first j n) by lia.
      rewrite (sumr_zero 0 q).
      2:{ intros i Hi. unfold Upart. destruct (Nat.leb_spec q i); [lia|]. ring. }
      rewrite (sumr_zero (S j) n).
      2:{ intros i Hi. unfold v. destruct (Nat.ltb_spec i j); [lia|]. destruct (Nat.eqb_spec i j); [lia|]. ring. }
      rewrite (sumr_ext q j _ (fun k => F (a (ix q) k) * x k)).
      2:{ intros i Hi. unfold Upart, v. destruct (Nat.leb_spec q i); [|lia]. destruct (Nat.ltb_spec i j); [|lia]. reflexivity. }
      rewrite Hx by assumption. unfold Upart, v. destruct (Nat.leb_spec q j); [|lia].
      rewrite Nat.ltb_irrefl, Nat.eqb_refl. ring. }
    assert (Hv : v j = 0).
    { apply Hkernel; [|assumption]. intros r Hr. destruct HP as (P1 & P2 & P3).
      destruct (P3 r Hr) as (p & Hp & <-).
      rewrite (sumr_ext 0 n _ (fun c => sumr 0 (Nat.min p j) (fun q => F (a (ix p) q) * (Upart a ix q c * v c))
          + (if Nat.leb (Nat.min p j) c then F (a (ix p) c) else 0) * v c)).
      2:{ intros c Hc. rewrite HA by lia.
          rewrite (sumr_ext 0 (Nat.min p j) (fun q => F (a (ix p) q) * (Upart a ix q c * v c))
              (fun q => F (a (ix p) q) * Upart a ix q c * v c)) by (intros; ring).
          rewrite sumr_scale_r. ring. }
      rewrite sumr_add, sumr_swap.
      rewrite (sumr_zero 0 (Nat.min p j)).
      2:{ intros q Hq. rewrite sumr_scale, HvU by lia. ring. }
      destruct (Nat.le_gt_cases j p) as [Hpj|Hpj].
      - rewrite Nat.min_r by lia. rewrite sumr_zero; [ring|]. intros c Hc. unfold v.
        destruct (Nat.leb_spec j c); [|ring]. destruct (Nat.ltb_spec c j); [lia|].
        destruct (Nat.eqb_spec c j) as [->|]; [|ring]. rewrite Hz by lia. ring.
      - rewrite Nat.min_l by lia. pose proof (HvU p Hpj) as E. unfold Upart in E. rewrite E. ring. }
    unfold v in Hv. rewrite Nat.ltb_irrefl, Nat.eqb_refl in Hv. apply fone_neq_fzero. exact Hv.
  Qed.

  Lemma LU_swap j k a ix : (j <= k < n)%nat -> LU j a ix -> LU j a (swap ix j k).
  Proof.
    intros Hk (HP & HC & Hpiv & HA). split; [apply perm_swap; [lia|lia|assumption]|].
    split; [exact HC|]. split.
    - intros q Hq. rewrite swap_other by lia. apply Hpiv. assumption.
    - intros p c Hp Hc. rewrite (swap_tr ix j k p).
      assert (Em : Nat.min (tr j k p) j = Nat.min p j).
      { destruct (Nat.le_gt_cases j p).
        - pose proof (tr_ge j j k p ltac:(lia) ltac:(lia) ltac:(lia)). lia.
        - rewrite (tr_below j) by lia. reflexivity. }
      rewrite HA by (assumption || (apply tr_lt; lia)). rewrite Em. f_equal.
      apply sumr_ext. intros q Hq. unfold Upart. rewrite (swap_other ix j k q) by lia. reflexivity.
  Qed.

  Lemma LU_step j a ix : (j < n)%nat -> LU j a ix -> F (a (ix j) j) <> 0 ->
    LU (S j) (fold_left (elim_row n ix j) (seq (j + 1) (n - (j + 1))) a) ix.
  Proof.
    intros Hj (HP & HC & Hpiv & HA) Hne.
    destruct (elim_rows_spec n ix j a HP Hj HC) as (E1 & E2 & E3).
    set (a' := fold_left (elim_row n ix j) (seq (j + 1) (n - (j + 1))) a) in *.
    split; [exact HP|]. split; [exact E1|]. split.
    - intros q Hq. rewrite E2 by lia. destruct (Nat.eq_dec q j) as [->|]; [exact Hne|apply Hpiv; lia].
    - intros p c Hp Hc.
      assert (HU : forall q, (q <= j)%nat -> Upart a' ix q c = Upart a ix q c).
      { intros q Hq. unfold Upart. rewrite E2 by lia. reflexivity. }
      destruct (Nat.le_gt_cases p j) as [Hpj|Hpj].
      + rewrite HA by assumption. rewrite !Nat.min_l by lia. rewrite E2 by lia. f_equal.
        apply sumr_ext. intros q Hq. rewrite E2 by lia. rewrite HU by lia. reflexivity.
      + rewrite HA by assumption. rewrite !Nat.min_r by lia. rewrite sumr_last by lia.
        destruct (E3 p) as (G1 & G2 & G3); [lia|].
        rewrite (sumr_ext 0 j (fun q => F (a' (ix p) q) * Upart a' ix q c) (fun q => F (a (ix p) q) * Upart a ix q c)).
        2:{ intros q Hq. rewrite G1 by lia. rewrite HU by lia. reflexivity. }
        rewrite HU by lia. rewrite G2. unfold Upart at 3.
        destruct (Nat.leb_spec j c); destruct (Nat.leb_spec (S j) c); try lia.
        * rewrite G3 by lia. field. exact Hne.
        * replace c with j by lia. field. exact Hne.
        * ring.
  Qed.

  Lemma gaussian_LU a : canon n a -> (forall r, (r < n)%nat -> exists c, (c < n)%nat /\ (0 < a r c)%Z) ->
    (forall r c, (r < n)%nat -> (c < n)%nat -> A0 r c = F (a r c)) -> (1 <= n)%nat ->
    let '(a', ix) := gaussian n a in LU (n - 1) a' ix /\ F (a' (ix (n - 1)%nat) (n - 1)%nat) <> 0.
  Proof.
    intros HC Hrow HA Hn. unfold gaussian.
    assert (H : (fun m (st : mat * (nat -> nat) * nat) => LU m (fst (fst st)) (snd (fst st))) (0 + (n - 1))%nat
      (fold_left (gauss_step n (row_max n a)) (seq 0 (n - 1)) (a, (fun i => i), 0%nat))).
    { apply fold_seq_inv.
      - cbn [fst snd]. split; [apply perm_id|]. split; [assumption|]. split; [intros; lia|].
        intros p c Hp Hc. rewrite Nat.min_0_r. rewrite sumr_empty by lia. cbn [Nat.leb]. rewrite HA by assumption. ring.
      - intros j ((a1, ix), k0) Hj HLU. cbn [fst snd] in *. unfold gauss_step.
        destruct (pivot_found n a1 ix (row_max n a) j k0) as (Hk & Hne).
        + intros i Hi. destruct HLU as ((P1 & _) & _). destruct (Hrow (ix i)) as (c & Hc & Hpos); [apply P1; lia|].
          pose proof (row_max_pos n a (ix i) c HC ltac:(apply P1; lia) Hc Hpos).
          apply nonneg_pos; lia.
        + apply pivot_exists; [lia|exact HLU].
        + set (k := snd (pivot n a1 ix (row_max n a) j k0)) in *. cbn [fst snd].
          apply LU_step; [lia|apply LU_swap; [lia|exact HLU]|]. rewrite swap_at_j. exact Hne. }
    cbn beta in H. destruct (fold_left _ _ _) as ((a', ix), k). cbn [fst snd] in *. split; [exact H|].
    destruct (pivot_exists (n - 1) a' ix ltac:(lia) H) as (i & Hi & Hne).
    replace i with (n - 1)%nat in Hne by lia. exact Hne.
  Qed.
End LU.

(** ** forward substitution *)
Lemma forward_spec n a ix b0 :
  perm n ix -> canon n a -> canon n b0 -> (1 <= n)%nat ->
  let b := forward n a ix b0 in
  canon n b /\
  forall p k, (p < n)%nat -> (k < n)%nat ->
    F (b0 (ix p) k) = sumr 0 p (fun q => F (a (ix p) q) * F (b (ix q) k)) + F (b (ix p) k).
Proof.
  intros (P1 & P2 & P3) HCa HCb Hn. cbv zeta. unfold forward.
  assert (Hneq : forall p q, (p < n)%nat -> (q < n)%nat -> p <> q -> ix p <> ix q).
  { intros p q Hp Hq Hpq E. apply Hpq. apply P2; assumption. }
  match goal with |- canon n ?x /\ _ => set (bf := x) end.
  assert (H : (fun m b => canon n b /\
     forall p k, (p < n)%nat -> (k < n)%nat ->
       F (b0 (ix p) k) = sumr 0 (Nat.min p m) (fun q => F (a (ix p) q) * F (b (ix q) k)) + F (b (ix p) k)) (0 + (n - 1))%nat bf).
  { apply fold_seq_inv.
    - split; [assumption|]. intros p k Hp Hk. rewrite Nat.min_0_r, sumr_empty by lia. ring.
    - intros i b Hi (H1 & H2).
      (* loop over j *)
      match goal with |- canon n ?x /\ _ => set (bj := x) end.
      assert (HJ : (fun m b' => canon n b' /\
         (forall p k, (p <= i)%nat \/ (m <= p < n)%nat -> b' (ix p) k = b (ix p) k) /\
         (forall p k, (i < p < m)%nat -> (p < n)%nat -> (k < n)%nat ->
            F (b' (ix p) k) = F (b (ix p) k) - F (a (ix p) i) * F (b (ix i) k))) ((i + 1) + (n - (i + 1)))%nat bj).
      { apply fold_seq_inv.
        - split; [assumption|]. split; [reflexivity|]. intros; lia.
        - intros j b' Hj (J1 & J2 & J3).
          match goal with |- canon n ?x /\ _ => set (bk := x) end.
          assert (HK : (fun m b'' => canon n b'' /\ (forall r k, r <> ix j -> b'' r k = b' r k) /\
             (forall k, (m <= k)%nat -> b'' (ix j) k = b' (ix j) k) /\
             (forall k, (k < m)%nat -> (k < n)%nat -> F (b'' (ix j) k) = F (b' (ix j) k) - F (a (ix j) i) * F (b' (ix i) k)))
             (0 + n)%nat bk).
          { apply fold_seq_inv.
            - split; [assumption|]. split; [reflexivity|]. split; [reflexivity|]. intros; lia.
            - intros k b'' Hk (K1 & K2 & K3 & K4).
              split; [apply mset_canon; [assumption|apply scalar_sub_range]|].
              split; [intros; rewrite mset_row by assumption; apply K2; assumption|].
              split; [intros; rewrite mset_col by lia; apply K3; lia|].
              intros k' Hk' Hkn. destruct (Nat.eq_dec k' k) as [->|].
              + rewrite mset_same, of_Z_scalar_sub_L, of_Z_scalar_mul by (apply K1; [apply P1; lia|lia]).
                rewrite K3 by lia. rewrite (K2 (ix i)) by (apply Hneq; lia). reflexivity.
              + rewrite mset_col by assumption. apply K4; lia. }
          cbn beta in HK. clearbody bk. destruct HK as (K1 & K2 & _ & K4).
          split; [exact K1|]. split.
          + intros p k Hp. rewrite K2 by (apply Hneq; lia). apply J2. lia.
          + intros p k Hp Hpn Hk. destruct (Nat.eq_dec p j) as [->|].
            * rewrite K4 by lia. rewrite J2 by lia. rewrite (J2 i) by lia. reflexivity.
            * rewrite K2 by (apply Hneq; lia). apply J3; lia. }
      cbn beta in HJ. clearbody bj. destruct HJ as (J1 & J2 & J3). split; [exact J1|].
      intros p k Hp Hk. rewrite H2 by assumption.
      destruct (Nat.le_gt_cases p i) as [Hpi|Hpi].
      + rewrite !Nat.min_l by lia. rewrite J2 by lia. f_equal. apply sumr_ext. intros q Hq. rewrite J2 by lia. reflexivity.
      + rewrite !Nat.min_r by lia. rewrite sumr_last by lia. rewrite (J3 p) by lia. rewrite (J2 i) by lia.
        rewrite (sumr_ext 0 i (fun q => F (a (ix p) q) * F (bj (ix q) k)) (fun q => F (a (ix p) q) * F (b (ix q) k))).
        * ring.
        * intros q Hq. rewrite J2 by lia. reflexivity. }
  cbn beta in H. clearbody bf. destruct H as (H1 & H2). split; [exact H1|].
  intros p k Hp Hk. rewrite H2 by assumption. rewrite Nat.min_l by lia. reflexivity.
Qed.

(** ** back substitution *)
Lemma back_row_spec n a ix b i x j :
  (i < n)%nat -> (j < n)%nat -> (0 <= b (ix j) i < L)%Z -> F (a (ix j) j) <> 0 ->
  let x' := back_row n a ix b i x j in
  (forall r c, r <> j \/ c <> i -> x' r c = x r c) /\ (0 <= x' j i < L)%Z /\
  F (a (ix j) j) * F (x' j i) + sumr (S j) n (fun k => F (a (ix j) k) * F (x k i)) = F (b (ix j) i).
Proof.
  intros Hi Hj Hb Hne. cbv zeta. unfold back_row.
  match goal with |- context [fold_left ?f ?l ?s] => set (xf := fold_left f l s) end.
  assert (H : (fun m x' => (forall r c, r <> j \/ c <> i -> x' r c = x r c) /\ (0 <= x' j i < L)%Z /\
     F (x' j i) = F (b (ix j) i) - sumr (S j) m (fun k => F (a (ix j) k) * F (x k i))) ((j + 1) + (n - (j + 1)))%nat xf).
  { apply fold_seq_inv.
    - split; [|split].
      + intros r c [Hr|Hc]; [apply mset_row|apply mset_col]; assumption.
      + rewrite mset_same. exact Hb.
      + rewrite mset_same. rewrite sumr_empty by lia. ring.
    - intros k x' Hk (H1 & H2 & H3). split; [|split].
      + intros r c Hrc. destruct Hrc as [Hr|Hc]; [rewrite mset_row by assumption|rewrite mset_col by assumption]; apply H1; tauto.
      + rewrite mset_same. apply scalar_sub_range.
      + rewrite mset_same, of_Z_scalar_sub_L, of_Z_scalar_mul by exact H2. rewrite H3. rewrite (H1 k i) by lia.
        rewrite sumr_last by lia. ring. }
  cbn beta in H. clearbody xf. destruct H as (H1 & H2 & H3).
  replace (j + 1 + (n - (j + 1)))%nat with n in H3 by lia. split; [|split].
  - intros r c Hrc. destruct Hrc as [Hr|Hc]; [rewrite mset_row by assumption|rewrite mset_col by assumption]; apply H1; tauto.
  - rewrite mset_same. apply scalar_mul_range.
  - rewrite mset_same, of_Z_scalar_mul, of_Z_scalar_invert, H3. field. exact Hne.
Qed.

Lemma back_col_spec n a ix b x i :
  (i < n)%nat -> perm n ix -> canon n b -> (forall j, (j < n)%nat -> F (a (ix j) j) <> 0) ->
  let x' := back_col n a ix b x i in
  (forall r c, c <> i -> x' r c = x r c) /\
  (forall j, (j < n)%nat -> (0 <= x' j i < L)%Z /\ sumr j n (fun k => F (a (ix j) k) * F (x' k i)) = F (b (ix j) i)).
Proof.
  intros Hi (P1 & _) HC Hne. cbv zeta. unfold back_col.
  match goal with |- (forall r c, _ -> ?y r c = _) /\ _ => set (xf := y) end.
  assert (H : (fun m x' => (forall r c, c <> i -> x' r c = x r c) /\
    (forall j, (m <= j < n)%nat -> (0 <= x' j i < L)%Z /\ sumr j n (fun k => F (a (ix j) k) * F (x' k i)) = F (b (ix j) i))) 0%nat xf).
  { apply fold_rev_seq_inv.
    - split; [intros; apply mset_col; assumption|]. intros j Hj. replace j with (n - 1)%nat by lia.
      rewrite mset_same. split; [apply scalar_mul_range|].
      replace n with (S (n - 1)) at 2 by lia. rewrite sumr_one. rewrite mset_same, of_Z_scalar_mul, of_Z_scalar_invert.
      field. apply Hne. lia.
    - intros j x' Hj (H1 & H2).
      destruct (back_row_spec n a ix b i x' j) as (B1 & B2 & B3); [assumption|lia|apply HC; [apply P1; lia|assumption]|apply Hne; lia|].
      set (x'' := back_row n a ix b i x' j) in *. split.
      + intros r c Hc. rewrite B1 by tauto. apply H1. assumption.
      + intros j' Hj'. destruct (Nat.eq_dec j' j) as [->|].
        * split; [exact B2|]. rewrite sumr_first by lia. rewrite <- B3. f_equal.
          apply sumr_ext. intros k Hk. rewrite B1 by lia. reflexivity.
        * destruct (H2 j') as (G1 & G2); [lia|]. split; [rewrite B1 by lia; exact G1|].
          rewrite <- G2. apply sumr_ext. intros k Hk. rewrite B1 by lia. reflexivity. }
  cbn beta in H. destruct H as (H1 & H2). split; [exact H1|]. intros j Hj. apply H2. lia.
Qed.

Lemma unit_canon n : canon n unit_mat.
Proof. intros r c _ _. unfold unit_mat. pose proof L_gt_65536. destruct (Nat.eqb r c); lia. Qed.

Definition fdelta (i j : nat) : Fq := if Nat.eqb i j then 1 else 0.

Lemma unit_F i j : F (unit_mat i j) = fdelta i j.
Proof. unfold unit_mat, fdelta. destruct (Nat.eqb i j); reflexivity. Qed.

(** ** invert: right inverse *)
Lemma invert_right n a x :
  (1 <= n)%nat -> canon n a -> (forall r, (r < n)%nat -> exists c, (c < n)%nat /\ (0 < a r c)%Z) ->
  (forall v : nat -> Fq, (forall r, (r < n)%nat -> sumr 0 n (fun c => F (a r c) * v c) = 0) -> forall c, (c < n)%nat -> v c = 0) ->
  let x' := invert n a x in
  canon n x' /\
  forall i j, (i < n)%nat -> (j < n)%nat -> sumr 0 n (fun k => F (a i k) * F (x' k j)) = fdelta i j.
Proof.
  intros Hn HC Hrow Hker. cbv zeta. unfold invert.
  pose proof (gaussian_LU n (fun r c => F (a r c)) Hker a HC Hrow ltac:(reflexivity) Hn) as HG.
  destruct (gaussian n a) as (a', ix). destruct HG as ((HP & HCa & Hpiv & HA) & Hlast).
  destruct (forward_spec n a' ix unit_mat HP HCa (unit_canon n) Hn) as (HCb & Hfw).
  set (b := forward n a' ix unit_mat) in *.
  assert (Hne : forall j, (j < n)%nat -> F (a' (ix j) j) <> 0).
  { intros j Hj. destruct (Nat.eq_dec j (n - 1)) as [->|]; [exact Hlast|apply Hpiv; lia]. }
  match goal with |- canon n ?y /\ _ => set (xf := y) end.
  assert (H : (fun m x' => forall i, (i < m)%nat -> (i < n)%nat -> forall j, (j < n)%nat ->
     (0 <= x' j i < L)%Z /\ sumr j n (fun k => F (a' (ix j) k) * F (x' k i)) = F (b (ix j) i)) (0 + n)%nat xf).
  { apply fold_seq_inv.
    - intros; lia.
    - intros i x' Hi H0 i' Hi' Hin j Hj.
      destruct (back_col_spec n a' ix b x' i) as (B1 & B2); [lia|assumption|assumption|assumption|].
      destruct (Nat.eq_dec i' i) as [->|]; [apply B2; assumption|].
      destruct (H0 i') with (j := j) as (G1 & G2); [lia|lia|assumption|].
      split; [rewrite B1 by assumption; exact G1|]. rewrite <- G2. apply sumr_ext. intros k Hk. rewrite B1 by assumption. reflexivity. }
  cbn beta in H. clearbody xf. split.
  - intros r c Hr Hc. apply (H c); lia.
  - intros i j Hi Hj. destruct HP as (P1 & P2 & P3). destruct (P3 i Hi) as (p & Hp & <-).
    rewrite <- unit_F, Hfw by assumption.
    rewrite (sumr_ext 0 n _ (fun c => sumr 0 p (fun q => F (a' (ix p) q) * (Upart a' ix q c * F (xf c j)))
        + Upart a' ix p c * F (xf c j))).
    2:{ intros c Hc. rewrite HA by lia. rewrite Nat.min_l by lia.
        rewrite (sumr_ext 0 p (fun q => F (a' (ix p) q) * (Upart a' ix q c * F (xf c j)))
            (fun q => F (a' (ix p) q) * Upart a' ix q c * F (xf c j))) by (intros; ring).
        rewrite sumr_scale_r. unfold Upart. ring. }
    assert (HU : forall q, (q < n)%nat -> sumr 0 n (fun c => Upart a' ix q c * F (xf c j)) = F (b (ix q) j)).
    { intros q Hq. destruct (H j) with (j := q) as (_ & G); [lia|lia|assumption|]. rewrite <- G.
      rewrite (sumr_split 0 q n) by lia. rewrite (sumr_zero 0 q).
      - rewrite (sumr_ext q n _ (fun k => F (a' (ix q) k) * F (xf k j))); [ring|].
        intros c Hc. unfold Upart. destruct (Nat.leb_spec q c); [reflexivity|lia].
      - intros c Hc. unfold Upart. destruct (Nat.leb_spec q c); [lia|ring]. }
    rewrite sumr_add, sumr_swap, HU by assumption. f_equal.
    apply sumr_ext. intros q Hq. rewrite sumr_scale, HU by lia. reflexivity.
Qed.

(** a right inverse of a matrix with trivial kernel is a left inverse *)
Lemma right_left n (A X : nat -> nat -> Fq) :
  (forall v : nat -> Fq, (forall r, (r < n)%nat -> sumr 0 n (fun c => A r c * v c) = 0) -> forall c, (c < n)%nat -> v c = 0) ->
  (forall i j, (i < n)%nat -> (j < n)%nat -> sumr 0 n (fun k => A i k * X k j) = fdelta i j) ->
  forall i j, (i < n)%nat -> (j < n)%nat -> sumr 0 n (fun k => X i k * A k j) = fdelta i j.
Proof.
  intros Hker HR i j Hi Hj.
  apply (proj1 (fsub_eq_0 _ _)). revert i Hi. apply Hker. intros r Hr.
  rewrite (sumr_ext 0 n _ (fun c => sumr 0 n (fun k => A r c * X c k * A k j) - A r c * fdelta c j)).
  2:{ intros c Hc. rewrite (sumr_ext 0 n (fun k => A r c * X c k * A k j) (fun k => A r c * (X c k * A k j))) by (intros; ring).
      rewrite sumr_scale. ring. }
  rewrite sumr_sub, sumr_swap.
  rewrite (sumr_ext 0 n (fun k => sumr 0 n (fun c => A r c * X c k * A k j)) (fun k => fdelta r k * A k j)).
  2:{ intros k Hk. rewrite sumr_scale_r, HR by lia. reflexivity. }
  rewrite (sumr_single 0 n (fun k => fdelta r k * A k j) r) by (lia || (intros k Hk Hne; unfold fdelta; destruct (Nat.eqb_spec r k); [congruence|ring])).
  rewrite (sumr_single 0 n (fun c => A r c * fdelta c j) j) by (lia || (intros k Hk Hne; unfold fdelta; destruct (Nat.eqb_spec k j); [congruence|ring])).
  unfold fdelta. rewrite !Nat.eqb_refl. ring.
Qed.

(** ** Vandermonde matrices *)
Lemma vdm_pow_F j base : F (vdm_pow j base) = fpow (F base) j.
Proof. induction j as [|j IH]; cbn [vdm_pow fpow]; [reflexivity|]. rewrite of_Z_scalar_mul, IH. ring. Qed.

Lemma vdm_pow_range j base : (0 <= vdm_pow j base < L)%Z.
Proof. destruct j; cbn [vdm_pow]; [pose proof L_gt_65536; lia|apply scalar_mul_range]. Qed.

Lemma peval_sumr cs x : peval cs x = sumr 0 (length cs) (fun k => fpow x k * nth k cs 0).
Proof.
  induction cs as [|c cs IH]; [reflexivity|]. cbn [peval length]. rewrite sumr_first by lia. cbn [nth fpow].
  rewrite IH. rewrite <- sumr_scale. unfold sumr.
  replace (S (length cs) - 1)%nat with (length cs) by lia. rewrite Nat.sub_0_r.
  rewrite <- seq_shift, map_map. rewrite (fsum_map_ext (fun i => fpow x (S i) * nth (S i) (c :: cs) 0) (fun i => x * (fpow x i * nth i cs 0))).
  - ring.
  - intros i _. cbn [fpow nth]. ring.
Qed.

Lemma nth_map_seq (v : nat -> Fq) n k : (k < n)%nat -> nth k (map v (seq 0 n)) 0 = v k.
Proof.
  intros Hk. rewrite (nth_indep _ 0 (v 0%nat)) by (rewrite map_length, seq_length; lia).
  rewrite map_nth. rewrite seq_nth by lia. reflexivity.
Qed.

Lemma F_NoDup l : NoDup l -> Forall u8 l -> NoDup (map F l).
Proof.
  intros Hnd HF. induction Hnd as [|x l Hx Hnd IH]; cbn [map]; [constructor|].
  apply Forall_cons_iff in HF. destruct HF as (Hu & HF). constructor; [|apply IH; assumption].
  intros Hin. apply in_map_iff in Hin. destruct Hin as (y & E & Hy). apply Hx.
  pose proof L_gt_65536. apply of_Z_inj in E.
  - subst. assumption.
  - pose proof (proj1 (Forall_forall _ _) HF y Hy) as Hu'. unfold u8 in *. lia.
  - unfold u8 in *. lia.
Qed.

Lemma vdm_kernel indexes : NoDup indexes -> Forall u8 indexes ->
  forall v : nat -> Fq,
  (forall r, (r < length indexes)%nat -> sumr 0 (length indexes) (fun c => F (genVDMmatrix indexes r c) * v c) = 0) ->
  forall c, (c < length indexes)%nat -> v c = 0.
Proof.
  intros Hnd HF v Hv c Hc. set (n := length indexes) in *.
  assert (Hz : Forall (fun c => c = 0) (map v (seq 0 n))).
  { apply (root_bound (map F indexes)).
    - apply F_NoDup; assumption.
    - rewrite !map_length, seq_length. lia.
    - intros x Hx. apply in_map_iff in Hx. destruct Hx as (i & <- & Hi).
      apply (In_nth _ _ 0%Z) in Hi. destruct Hi as (r & Hr & <-).
      rewrite peval_sumr, map_length, seq_length. transitivity (sumr 0 n (fun c => F (genVDMmatrix indexes r c) * v c)); [|apply Hv; assumption].
      apply sumr_ext. intros k Hk. rewrite nth_map_seq by lia. unfold genVDMmatrix. rewrite vdm_pow_F. reflexivity. }
  rewrite <- (nth_map_seq v n c Hc). apply (proj1 (Forall_forall _ _) Hz). apply nth_In.
  rewrite map_length, seq_length. assumption.
Qed.

Lemma inverted_F indexes out : indexes <> [] -> NoDup indexes -> Forall u8 indexes ->
  let n := length indexes in let X := invertedVDMmatrix indexes out in
  canon n X /\
  (forall i j, (i < n)%nat -> (j < n)%nat -> sumr 0 n (fun k => fpow (F (nth i indexes 0%Z)) k * F (X k j)) = fdelta i j) /\
  (forall i j, (i < n)%nat -> (j < n)%nat -> sumr 0 n (fun k => F (X i k) * fpow (F (nth k indexes 0%Z)) j) = fdelta i j).
Proof.
  intros Hne Hnd HF. cbv zeta. set (n := length indexes).
  assert (Hn : (1 <= n)%nat) by (unfold n; destruct indexes; [contradiction|cbn; lia]).
  destruct (invert_right n (genVDMmatrix indexes) out) as (HC & HR).
  - exact Hn.
  - intros r c _ _. apply vdm_pow_range.
  - intros r Hr. exists 0%nat. split; [lia|]. unfold genVDMmatrix. cbn. lia.
  - apply vdm_kernel; assumption.
  - unfold invertedVDMmatrix. fold n. split; [exact HC|]. split.
    + intros i j Hi Hj. rewrite <- HR by assumption. apply sumr_ext. intros k Hk. unfold genVDMmatrix. rewrite vdm_pow_F. reflexivity.
    + intros i j Hi Hj.
      rewrite <- (right_left n (fun r c => F (genVDMmatrix indexes r c)) (fun r c => F (invert n (genVDMmatrix indexes) out r c))); try assumption.
      * apply sumr_ext. intros k Hk. change (genVDMmatrix indexes k j) with (vdm_pow j (nth k indexes 0%Z)). rewrite vdm_pow_F. reflexivity.
      * apply vdm_kernel; assumption.
Qed.

Lemma of_Z_pow x k : F (x ^ Z.of_nat k)%Z = fpow (F x) k.
Proof.
  induction k as [|k IH]; [reflexivity|]. cbn [fpow]. rewrite Nat2Z.inj_succ, Z.pow_succ_r by lia.
  rewrite of_Z_mul, IH. reflexivity.
Qed.

Lemma of_Z_zsum l : F (zsum l) = fsum (map F l).
Proof. induction l as [|x l IH]; cbn [zsum fold_right map]; [reflexivity|]. rewrite of_Z_add, fsum_cons. f_equal. exact IH. Qed.

(** C21 *)
Lemma inverted_spec indexes out : indexes <> [] -> NoDup indexes -> Forall u8 indexes ->
  let n := length indexes in let X := invertedVDMmatrix indexes out in
  forall i j, (i < n)%nat -> (j < n)%nat ->
  (0 <= X i j < L /\
  zsum (map (fun k => nth i indexes 0 ^ Z.of_nat k * X k j) (seq 0 n)) mod L = (if Nat.eqb i j then 1 else 0) /\
  zsum (map (fun k => X i k * nth k indexes 0 ^ Z.of_nat j) (seq 0 n)) mod L = (if Nat.eqb i j then 1 else 0))%Z.
Proof.
  intros Hne Hnd HF. cbv zeta. intros i j Hi Hj.
  destruct (inverted_F indexes out Hne Hnd HF) as (HC & HR & HL).
  set (X := invertedVDMmatrix indexes out) in *. set (n := length indexes) in *.
  assert (Hd : forall z, F z = fdelta i j -> (z mod L = if Nat.eqb i j then 1 else 0)%Z).
  { intros z E. apply (f_equal fv) in E. rewrite fv_of_Z in E. rewrite E. unfold fdelta.
    pose proof L_gt_65536. destruct (Nat.eqb i j); [change 1 with (F 1)|change 0 with (F 0)]; rewrite fv_of_Z_small by lia; reflexivity. }
  split; [apply HC; assumption|]. split; apply Hd.
  - rewrite of_Z_zsum, map_map. rewrite <- HR by assumption. unfold sumr. rewrite Nat.sub_0_r.
    apply fsum_map_ext. intros k _. rewrite of_Z_mul, of_Z_pow. reflexivity.
  - rewrite of_Z_zsum, map_map. rewrite <- HL by assumption. unfold sumr. rewrite Nat.sub_0_r.
    apply fsum_map_ext. intros k _. rewrite of_Z_mul, of_Z_pow. reflexivity.
Qed.

(** row 0 of the inverse interpolates at 0 *)
Lemma row0_interpolates indexes out cs : indexes <> [] -> NoDup indexes -> Forall u8 indexes ->
  (length cs <= length indexes)%nat ->
  sumr 0 (length indexes) (fun k => F (invertedVDMmatrix indexes out 0%nat k) * peval cs (F (nth k indexes 0%Z))) = peval cs 0.
Proof.
  intros Hne Hnd HF Hlen. destruct (inverted_F indexes out Hne Hnd HF) as (_ & _ & HL).
  set (X := invertedVDMmatrix indexes out) in *. set (n := length indexes) in *.
  assert (Hn : (1 <= n)%nat) by (unfold n; destruct indexes; [contradiction|cbn; lia]).
  rewrite (sumr_ext 0 n _ (fun k => sumr 0 (length cs) (fun j => F (X 0%nat k) * fpow (F (nth k indexes 0%Z)) j * nth j cs 0))).
  2:{ intros k Hk. rewrite peval_sumr, <- sumr_scale. apply sumr_ext. intros; ring. }
  rewrite sumr_swap.
  rewrite (sumr_ext 0 (length cs) _ (fun j => fdelta 0 j * nth j cs 0)).
  2:{ intros j Hj. rewrite sumr_scale_r, HL by lia. reflexivity. }
  rewrite peval_at_0. destruct cs as [|c cs]; [reflexivity|].
  rewrite (sumr_single 0 _ (fun j => fdelta 0 j * nth j (c :: cs) 0) 0); [cbn; ring|cbn; lia|].
  intros j Hj Hjn. unfold fdelta. destruct (Nat.eqb_spec 0 j); [congruence|ring].
Qed.

(** ** multiplication *)
Lemma finish_value indexes peer shares junk : length shares = length indexes ->
  let s := mpc_mul_finish indexes peer shares junk in
  s_index s = peer /\ (0 <= s_value s < L)%Z /\
  F (s_value s) = sumr 0 (length indexes) (fun k => F (invertedVDMmatrix indexes junk 0%nat k) * F (s_value (nth k shares (mkShare 0 0)))).
Proof.
  intros Hlen. cbv zeta. unfold mpc_mul_finish. cbn [s_index s_value]. split; [reflexivity|].
  set (X := invertedVDMmatrix indexes junk). set (n := length indexes).
  assert (H : (fun m acc => (0 <= acc < L)%Z /\ F acc = sumr 0 m (fun k => F (X 0%nat k) * F (s_value (nth k shares (mkShare 0 0))))) (0 + n)%nat
     (fold_left (fun acc i => scalar_add acc (scalar_mul (s_value (nth i shares (mkShare 0 0))) (X 0%nat i))) (seq 0 n) 0%Z)).
  { apply fold_seq_inv.
    - split; [pose proof L_pos; lia|]. rewrite sumr_empty by lia. reflexivity.
    - intros i acc Hi (H1 & H2). split; [apply scalar_add_range|].
      rewrite of_Z_scalar_add_L by (assumption || apply scalar_mul_range). rewrite H2, of_Z_scalar_mul.
      rewrite sumr_last by lia. ring. }
  exact H.
Qed.

(** linear combination of polynomials *)
Fixpoint plin (ls : list Fq) (hs : list (list Fq)) : list Fq :=
  match ls, hs with
  | l :: ls', h :: hs' => padd (pscale l h) (plin ls' hs')
  | _, _ => []
  end.

Lemma plin_length t ls hs : length ls = length hs -> Forall (fun h => length h = t) hs -> hs <> [] -> length (plin ls hs) = t.
Proof.
  intros Hl HF Hne. revert hs Hl HF Hne. induction ls as [|l ls IH]; intros [|h hs] Hl HF Hne; try discriminate; try contradiction.
  cbn [plin]. rewrite padd_length, pscale_length. apply Forall_cons_iff in HF. destruct HF as (H1 & H2).
  destruct hs as [|h' hs].
  - destruct ls; [|discriminate]. cbn. lia.
  - rewrite IH; [lia|cbn in *; lia|assumption|discriminate].
Qed.

Definition dot (ls ys : list Fq) : Fq := fsum (map (fun p => fst p * snd p) (combine ls ys)).

Lemma dot_cons l ls y ys : dot (l :: ls) (y :: ys) = l * y + dot ls ys.
Proof. unfold dot. cbn [combine map]. rewrite fsum_cons. reflexivity. Qed.

Lemma dot_sumr (f : nat -> Fq) ys : sumr 0 (length ys) (fun k => f k * nth k ys 0) = dot (map f (seq 0 (length ys))) ys.
Proof.
  revert f. induction ys as [|y ys IH]; intros f; [reflexivity|]. cbn [length]. rewrite sumr_first by lia.
  cbn [seq map]. rewrite dot_cons. cbn [nth]. f_equal. rewrite <- seq_shift, map_map. rewrite <- IH.
  unfold sumr. replace (S (length ys) - 1)%nat with (length ys) by lia. rewrite Nat.sub_0_r.
  rewrite <- seq_shift, map_map. reflexivity.
Qed.

Lemma dot_sumr_map {A} (f : nat -> Fq) (g : A -> Fq) (d : A) (l : list A) :
  sumr 0 (length l) (fun k => f k * g (nth k l d)) = dot (map f (seq 0 (length l))) (map g l).
Proof.
  replace (length l) with (length (map g l)) by apply map_length. rewrite <- dot_sumr.
  apply sumr_ext. intros i Hi. rewrite map_length in Hi. f_equal.
  rewrite (nth_indep (map g l) 0 (g d)) by (rewrite map_length; lia). rewrite map_nth. reflexivity.
Qed.

Lemma plin_eval ls hs x : length ls = length hs ->
  peval (plin ls hs) x = dot ls (map (fun h => peval h x) hs).
Proof.
  revert hs. induction ls as [|l ls IH]; intros [|h hs] Hl; try discriminate; [reflexivity|].
  cbn [plin map]. rewrite dot_cons. rewrite padd_eval, pscale_eval, IH by (cbn in Hl; lia). reflexivity.
Qed.

Lemma peval_product a b x : peval (pmul a b) x = peval a x * peval b x.
Proof. apply pmul_eval. Qed.

(** what a dealer does *)
Lemma mul_start_ok sa sb n t r buf shs : (1 <= n <= 254)%Z -> Z.of_nat (length r) = (t - 1)%Z -> Z.of_nat (length buf) = n ->
  mpc_mul_start sa sb n t r buf = Ok (0%Z, shs) ->
  (1 <= t)%Z /\ s_index sa = s_index sb /\ shs = shares_of (scalar_mul (s_value sa) (s_value sb) :: r) n.
Proof.
  intros Hn Hr Hb. unfold mpc_mul_start.
  destruct (negb (s_index sa =? s_index sb)%Z || (n <? t)%Z || (t =? 0)%Z)%bool eqn:E; [discriminate|].
  apply orb_false_iff in E. destruct E as (E & E3). apply orb_false_iff in E. destruct E as (E1 & E2).
  apply negb_false_iff in E1. apply Z.eqb_eq in E1. apply Z.ltb_ge in E2. apply Z.eqb_neq in E3.
  assert (Ht : (1 <= t)%Z) by lia.
  rewrite create_shares_eq by (try assumption; try lia; apply scalar_mul_range). cbn [bind].
  intros H. split; [assumption|]. split; [assumption|]. congruence.
Qed.

Section Mult.
  Variables secA secB nA tA n t : Z.
  Variables rA rB : list Z.
  Variables bufA bufB ashares bshares : list share.
  Variable dealers : list Z.
  Variable dealt : list (list share).
  Variable junk : mat.
  Hypothesis HPA : sharing_params secA nA tA rA bufA.
  Hypothesis HPB : sharing_params secB nA tA rB bufB.
  Hypothesis HCA : create_shares secA nA tA rA bufA = Ok ashares.
  Hypothesis HCB : create_shares secB nA tA rB bufB = Ok bshares.
  Hypothesis Hnd : NoDup dealers.
  Hypothesis Henough : (2 * tA - 1 <= Z.of_nat (length dealers))%Z.
  Hypothesis Hn : (1 <= n <= 254)%Z.
  Hypothesis Hdeal : Forall2 (fun d shs => exists sa sb r buf,
     In sa ashares /\ In sb bshares /\ s_index sa = d /\ s_index sb = d /\
     Z.of_nat (length r) = (t - 1)%Z /\ Z.of_nat (length buf) = n /\
     mpc_mul_start sa sb n t r buf = Ok (0%Z, shs)) dealers dealt.

  Let EA : ashares = shares_of (secA :: rA) nA := created _ _ _ _ _ _ HPA HCA.
  Let EB : bshares = shares_of (secB :: rB) nA := created _ _ _ _ _ _ HPB HCB.

  Lemma dealers_polys : (1 <= nA <= 254)%Z -> exists hs : list (list Z),
    Forall2 (fun d h => (1 <= d <= nA)%Z /\ Z.of_nat (length h) = t /\ F (hd 0%Z h) = F (poly (secA :: rA) d * poly (secB :: rB) d)) dealers hs /\
    Forall2 (fun h shs => shs = shares_of h n) hs dealt.
  Proof.
    intros HnA. pose proof Hdeal as HD. clear Hnd Henough Hdeal. induction HD as [|d shs ds shss (sa & sb & r & buf & H1 & H2 & H3 & H4 & H5 & H6 & H7) _ IH].
    - exists []. split; constructor.
    - destruct IH as (hs & I1 & I2). destruct (mul_start_ok _ _ _ _ _ _ _ Hn H5 H6 H7) as (Ht & _ & E).
      exists ((scalar_mul (s_value sa) (s_value sb) :: r) :: hs). split; constructor; try assumption.
      rewrite EA in H1. rewrite EB in H2. apply shares_of_In in H1; [|lia]. apply shares_of_In in H2; [|lia].
      rewrite H3 in H1. rewrite H4 in H2.
      split; [apply H1|]. split; [cbn [length]; lia|]. cbn [hd]. rewrite of_Z_scalar_mul, of_Z_mul.
      destruct H1 as (_ & ->). destruct H2 as (_ & ->). rewrite !of_Z_mod. reflexivity.
  Qed.

  Lemma mult_poly : exists cs, Z.of_nat (length cs) = t /\ (poly cs 0 mod L = (secA * secB) mod L)%Z /\
    forall j recv, (1 <= j <= n)%Z -> Forall2 (fun shs s => nth_error shs (Z.to_nat (j - 1)) = Some s) dealt recv ->
      mpc_mul_finish dealers j recv junk = mkShare j (poly cs j mod L).
  Proof.
    pose proof HPA as (A1 & A2 & A3 & A4 & A5). pose proof HPB as (B1 & _ & _ & B4 & B5).
    destruct dealers_polys as (hs & D1 & D2); [assumption|].
    assert (Hu8 : Forall u8 dealers).
    { clear -D1 A2. induction D1 as [|d h ds hs (H & _) _ IH]; constructor; [unfold u8; lia|assumption]. }
    assert (Hne : dealers <> []) by (intros ->; cbn in Henough; lia).
    assert (Hlh : length dealers = length hs) by (eapply Forall2_length'; exact D1).
    set (lam := map (fun k => F (invertedVDMmatrix dealers junk 0%nat k)) (seq 0 (length dealers))).
    assert (Hll : length lam = length (map (map F) hs)) by (unfold lam; rewrite !map_length, seq_length; assumption).
    exists (map fv (plin lam (map (map F) hs))).
    assert (HPF : map F (map fv (plin lam (map (map F) hs))) = plin lam (map (map F) hs)) by apply map_of_Z_fv.
    split; [|split].
    - rewrite map_length. rewrite (plin_length (Z.to_nat t)); [|assumption| |].
      + destruct D1 as [|d h ds hs' (_ & E & _) _]; [contradiction|]. lia.
      + apply Forall_map. clear -D1. induction D1 as [|d h ds hs (_ & E & _) _ IH]; constructor; [rewrite map_length; lia|assumption].
      + destruct hs; [|discriminate]. destruct dealers; [contradiction|discriminate].
    - apply of_Z_eq. rewrite of_Z_poly, HPF. rewrite plin_eval by assumption. change (F 0) with 0.
      rewrite map_map.
      pose proof (row0_interpolates dealers junk (pmul (map F (secA :: rA)) (map F (secB :: rB))) Hne Hnd Hu8) as HI.
      rewrite (dot_sumr_map (fun k => F (invertedVDMmatrix dealers junk 0%nat k))
         (fun d => peval (pmul (map F (secA :: rA)) (map F (secB :: rB))) (F d)) 0%Z dealers) in HI.
      fold lam in HI. rewrite peval_product in HI. rewrite !peval_at_0 in HI. cbn [map hd] in HI. rewrite of_Z_mul, <- HI.
      + f_equal. clear -D1. induction D1 as [|d h ds hs (_ & _ & E) _ IH]; [reflexivity|]. cbn [map].
        rewrite IH. f_equal. rewrite peval_at_0, peval_product.
        replace (hd 0 (map F h)) with (F (hd 0%Z h)) by (destruct h; reflexivity). rewrite E, of_Z_mul, !of_Z_poly. reflexivity.
      + rewrite pmul_length_tight by (cbn; lia). cbn [length]. rewrite !map_length. lia.
    - intros j recv Hj HR.
      assert (Hlr : length recv = length dealers).
      { rewrite Hlh. transitivity (length dealt); [symmetry; eapply Forall2_length'; exact HR|symmetry; eapply Forall2_length'; exact D2]. }
      destruct (finish_value dealers j recv junk Hlr) as (F1 & F2 & F3).
      set (s := mpc_mul_finish dealers j recv junk) in *. destruct s as [si sv]. cbn [s_index s_value] in *. subst si. f_equal.
      apply eq_mod_of_Z; [assumption|]. rewrite F3, of_Z_poly, HPF, plin_eval by assumption.
      rewrite <- Hlr at 1. rewrite (dot_sumr_map (fun k => F (invertedVDMmatrix dealers junk 0%nat k)) (fun s => F (s_value s))).
      rewrite Hlr. fold lam. rewrite map_map. f_equal.
      clear -D2 HR Hj Hn. revert recv HR. induction D2 as [|h shs hs shss E _ IH]; intros recv HR; inversion HR as [|x y l l' Hx HR' E1 E2]; [reflexivity|].
      cbn [map]. rewrite <- (IH l') by assumption. f_equal. subst shs.
      apply nth_error_In in Hx as Hin. apply shares_of_In in Hin; [|lia]. destruct Hin as (_ & Ev).
      assert (Ei : s_index y = j).
      { unfold shares_of in Hx. rewrite <- (zrange_seq 1) in Hx. erewrite map_nth_error in Hx by (apply zrange_nth; lia).
        injection Hx as <-. cbn [s_index]. lia. }
      rewrite Ev, Ei, of_Z_mod, of_Z_poly. reflexivity.
  Qed.

  Lemma mult_reconstruct parties :
    Forall (fun p => (1 <= fst p <= n)%Z /\
       Forall2 (fun shs s => nth_error shs (Z.to_nat (fst p - 1)) = Some s) dealt (snd p)) parties ->
    NoDup (map fst parties) -> (t <= Z.of_nat (length parties))%Z ->
    dkg_reconstruct (map (fun p => mpc_mul_finish dealers (fst p) (snd p) junk) parties) = ((secA * secB) mod L)%Z.
  Proof.
    intros HF HN Ht. destruct mult_poly as (cs & C1 & C2 & C3).
    set (qs := map (fun p => mpc_mul_finish dealers (fst p) (snd p) junk) parties).
    assert (Ei : map s_index qs = map fst parties) by (unfold qs; rewrite map_map; reflexivity).
    rewrite (dkg_reconstruct_spec cs qs).
    - exact C2.
    - rewrite Ei. assumption.
    - rewrite Ei. clear -HF Hn. induction HF as [|p ps (H & _) _ IH]; constructor; [unfold index_ok; lia|assumption].
    - unfold qs. rewrite map_length. lia.
    - intros s Hs. unfold qs in Hs. apply in_map_iff in Hs. destruct Hs as (p & <- & Hp).
      destruct (proj1 (Forall_forall _ _) HF p Hp) as (H1 & H2). rewrite (C3 _ _ H1 H2). cbn [s_value s_index].
      rewrite of_Z_mod. reflexivity.
  Qed.
End Mult.

(** C23 *)
Lemma mul_start_rejects a b peers t r buf :
  let bad := s_index a <> s_index b \/ (peers < t)%Z \/ t = 0%Z in
  (bad -> mpc_mul_start a b peers t r buf = Ok (1%Z, buf)) /\
  (~ bad -> (0 <= t)%Z -> (peers <= 254)%Z -> Z.of_nat (length r) = (t - 1)%Z -> Z.of_nat (length buf) = peers ->
   mpc_mul_start a b peers t r buf =
     Ok (0%Z, shares_of (scalar_mul (s_value a) (s_value b) :: r) peers)) /\
  (forall ret buf', mpc_mul_start a b peers t r buf = Ok (ret, buf') -> ret <> 0%Z -> bad /\ ret = 1%Z /\ buf' = buf).
Proof.
  cbv zeta. unfold mpc_mul_start.
  destruct (negb (s_index a =? s_index b)%Z || (peers <? t)%Z || (t =? 0)%Z)%bool eqn:E.
  - assert (Hb : s_index a <> s_index b \/ (peers < t)%Z \/ t = 0%Z).
    { apply orb_true_iff in E. destruct E as [E|E]; [apply orb_true_iff in E; destruct E as [E|E]|].
      - apply negb_true_iff in E. apply Z.eqb_neq in E. auto.
      - apply Z.ltb_lt in E. auto.
      - apply Z.eqb_eq in E. auto. }
    split; [reflexivity|]. split; [intros H; contradiction|]. intros ret buf' H _. injection H as <- <-. auto.
  - apply orb_false_iff in E. destruct E as (E & E3). apply orb_false_iff in E. destruct E as (E1 & E2).
    apply negb_false_iff in E1. apply Z.eqb_eq in E1. apply Z.ltb_ge in E2. apply Z.eqb_neq in E3.
    split; [intros [H|[H|H]]; [contradiction|lia|contradiction]|]. split.
    + intros _ Ht Hp Hr Hb.
      rewrite create_shares_eq by (try assumption; try lia; apply scalar_mul_range). reflexivity.
    + intros ret buf' H Hret. destruct (create_shares _ _ _ _ _); [|discriminate]. cbn [bind] in H. congruence.
Qed.

(** all subscripts are in range: index[] is a permutation whatever the matrix holds *)
Lemma gaussian_index n a : (1 <= n)%nat -> perm n (snd (gaussian n a)).
Proof.
  intros Hn. unfold gaussian.
  assert (H : (fun (_ : nat) (st : mat * (nat -> nat) * nat) => perm n (snd (fst st)) /\ (snd st < n)%nat) (0 + (n - 1))%nat
      (fold_left (gauss_step n (row_max n a)) (seq 0 (n - 1)) (a, (fun i => i), 0%nat))).
  { apply (fold_seq_inv (fun (_ : nat) (st : mat * (nat -> nat) * nat) => perm n (snd (fst st)) /\ (snd st < n)%nat)).
    - cbn [fst snd]. split; [apply perm_id|lia].
    - intros j ((a1, ix), k0) Hj (H1 & H2). cbn [fst snd] in *. unfold gauss_step.
      assert (Hk : (snd (pivot n a1 ix (row_max n a) j k0) < n)%nat).
      { unfold pivot.
        assert (HK : (fun (_ : nat) (st : Z * nat) => (snd st < n)%nat) (j + (n - j))%nat
          (fold_left (fun '(pi1, k) i => let pi0 := r255div (a1 (ix i) j) (row_max n a (ix i)) in
              if cmp_gt pi0 pi1 then (pi0, i) else (pi1, k)) (seq j (n - j)) (0%Z, k0))).
        { apply (fold_seq_inv (fun (_ : nat) (st : Z * nat) => (snd st < n)%nat)); [exact H2|]. intros i (pi1, k) Hi Hk. cbn [snd] in *. cbv zeta.
          destruct (cmp_gt _ _); cbn [snd]; lia. }
        exact HK. }
      cbn [fst snd]. split; [apply perm_swap; [lia|exact Hk|exact H1]|exact Hk]. }
  cbn beta in H. destruct (fold_left _ _ _) as ((a', ix), k). exact (proj1 H).
Qed.
