(** Linear algebra over Z/L needed for mpmult.c: sums over ranges and triangular systems *)
From Coq Require Import ZArith Lia List Bool Arith Field.
From Verif Require Import PrimeL Fq Poly.
Import ListNotations.
Open Scope list_scope.
Open Scope fq_scope.

(** sum of f(i) for s <= i < e *)
Definition sumr (s e : nat) (f : nat -> Fq) : Fq := fsum (map f (seq s (e - s))).

Lemma sumr_ext s e f g : (forall i, (s <= i < e)%nat -> f i = g i) -> sumr s e f = sumr s e g.
Proof. intros H. apply fsum_map_ext. intros i Hi. apply in_seq in Hi. apply H. lia. Qed.

Lemma sumr_zero s e f : (forall i, (s <= i < e)%nat -> f i = 0) -> sumr s e f = 0.
Proof. intros H. apply fsum_map_zero. intros i Hi. apply in_seq in Hi. apply H. lia. Qed.

Lemma sumr_empty s e f : (e <= s)%nat -> sumr s e f = 0.
Proof. intros H. unfold sumr. replace (e - s)%nat with 0%nat by lia. reflexivity. Qed.

Lemma sumr_split s m e f : (s <= m <= e)%nat -> sumr s e f = sumr s m f + sumr m e f.
Proof.
  intros H. unfold sumr. replace (e - s)%nat with ((m - s) + (e - m))%nat by lia.
  rewrite seq_app, map_app, fsum_app. replace (s + (m - s))%nat with m by lia. reflexivity.
Qed.

Lemma sumr_one s f : sumr s (S s) f = f s.
Proof.
  unfold sumr. replace (S s - s)%nat with 1%nat by lia. cbn [seq map].
  rewrite fsum_cons, fsum_nil. ring.
Qed.

Lemma sumr_first s e f : (s < e)%nat -> sumr s e f = f s + sumr (S s) e f.
Proof. intros H. rewrite (sumr_split s (S s) e) by lia. rewrite sumr_one. reflexivity. Qed.

Lemma sumr_last s e f : (s <= e)%nat -> sumr s (S e) f = sumr s e f + f e.
Proof. intros H. rewrite (sumr_split s e (S e)) by lia. rewrite sumr_one. reflexivity. Qed.

Lemma sumr_add s e f g : sumr s e (fun i => f i + g i) = sumr s e f + sumr s e g.
Proof. apply fsum_map_add. Qed.
Lemma sumr_sub s e f g : sumr s e (fun i => f i - g i) = sumr s e f - sumr s e g.
Proof. apply fsum_map_sub. Qed.
Lemma sumr_scale s e c f : sumr s e (fun i => c * f i) = c * sumr s e f.
Proof. apply fsum_map_scale. Qed.
Lemma sumr_scale_r s e c f : sumr s e (fun i => f i * c) = sumr s e f * c.
Proof. apply fsum_map_scale_r. Qed.
Lemma sumr_swap s e s' e' f :
  sumr s e (fun i => sumr s' e' (fun j => f i j)) = sumr s' e' (fun j => sumr s e (fun i => f i j)).
Proof. apply fsum_swap. Qed.
Lemma sumr_single s e f i : (s <= i < e)%nat -> (forall j, (s <= j < e)%nat -> j <> i -> f j = 0) ->
  sumr s e f = f i.
Proof.
  intros Hi H. apply fsum_single; [apply seq_NoDup|apply in_seq; lia|].
  intros j Hj. apply in_seq in Hj. apply H. lia.
Qed.

(** an upper triangular system with non-zero diagonal has a solution *)
Lemma upper_solve (U : nat -> nat -> Fq) (y : nat -> Fq) m :
  (forall q, (q < m)%nat -> U q q <> 0) ->
  exists x, forall q, (q < m)%nat -> sumr q m (fun k => U q k * x k) = y q.
Proof.
  intros HU.
  assert (HI : forall d, (d <= m)%nat -> exists x, forall q, (m - d <= q < m)%nat -> sumr q m (fun k => U q k * x k) = y q).
  { induction d as [|d IH]; intros Hd.
    - exists (fun _ => 0). intros q Hq. lia.
    - destruct IH as (x & Hx); [lia|]. set (s := (m - S d)%nat).
      set (v := (y s - sumr (S s) m (fun k => U s k * x k)) / U s s).
      exists (fun k => if Nat.eqb k s then v else x k). intros q Hq.
      destruct (Nat.eq_dec q s) as [->|Hne].
      + rewrite sumr_first by lia. rewrite Nat.eqb_refl.
        rewrite (sumr_ext (S s) m _ (fun k => U s k * x k)).
        * unfold v. field. apply HU. lia.
        * intros i Hi. destruct (Nat.eqb_spec i s); [lia|reflexivity].
      + rewrite <- Hx by lia. apply sumr_ext. intros i Hi. destruct (Nat.eqb_spec i s); [lia|reflexivity]. }
  destruct (HI m (le_n m)) as (x & Hx). exists x. intros q Hq. apply Hx. lia.
Qed.

(** fold over a range with an invariant *)
Lemma fold_seq_inv {S} (P : nat -> S -> Prop) (f : S -> nat -> S) s len st :
  P s st -> (forall i st, (s <= i < s + len)%nat -> P i st -> P (Datatypes.S i) (f st i)) ->
  P (s + len)%nat (fold_left f (seq s len) st).
Proof.
  revert s st. induction len as [|len IH]; intros s st H0 HS; cbn [seq fold_left].
  - rewrite Nat.add_0_r. exact H0.
  - replace (s + Datatypes.S len)%nat with (Datatypes.S s + len)%nat by lia. apply IH.
    + apply HS; [lia|exact H0].
    + intros i st' Hi. apply HS. lia.
Qed.

(** the same downwards *)
Lemma fold_rev_seq_inv {S} (P : nat -> S -> Prop) (f : S -> nat -> S) len st :
  P len st -> (forall i st, (i < len)%nat -> P (Datatypes.S i) st -> P i (f st i)) ->
  P 0%nat (fold_left f (rev (seq 0 len)) st).
Proof.
  revert st. induction len as [|len IH]; intros st H0 HS; [exact H0|].
  rewrite seq_S, rev_app_distr. cbn [rev app fold_left Nat.add]. apply IH.
  - apply HS; [lia|exact H0].
  - intros i st' Hi. apply HS. lia.
Qed.
