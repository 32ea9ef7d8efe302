(** Results of modelled C functions: a defined result, or undefined behaviour. *)
From Coq Require Import List.
Import ListNotations.

(** Defined result or undefined behaviour (out of bounds access, null or dangling pointer,
    non-terminating loop). *)
Inductive res (A : Type) : Type :=
| Ok (a : A)
| UB.
Arguments Ok {A} a.
Arguments UB {A}.

Definition bind {A B} (x : res A) (f : A -> res B) : res B :=
  match x with Ok a => f a | UB => UB end.
Notation "'do' x <- a ;; b" := (bind a (fun x => b)) (at level 200, x pattern, a at level 100, b at level 200).

Definition of_opt {A} (x : option A) : res A := match x with Some a => Ok a | None => UB end.

Lemma bind_ok {A B} (x : res A) (f : A -> res B) b :
  bind x f = Ok b -> exists a, x = Ok a /\ f a = Ok b.
Proof. destruct x as [a|]; cbn; [|discriminate]. intros H. exists a. auto. Qed.

Definition is_ok {A} (x : res A) : Prop := exists a, x = Ok a.

Lemma bind_is_ok {A B} (x : res A) (f : A -> res B) :
  is_ok x -> (forall a, x = Ok a -> is_ok (f a)) -> is_ok (bind x f).
Proof. intros (a & ->) H. cbn. apply H. reflexivity. Qed.

(** ** Arrays and loops *)
From Coq Require Import ZArith Lia.
Open Scope Z_scope.

(** bounds-checked array read *)
Definition getz {A} (l : list A) (i : Z) : res A :=
  if i <? 0 then UB else of_opt (nth_error l (Z.to_nat i)).

Fixpoint upd {A} (l : list A) (i : nat) (v : A) : option (list A) :=
  match l, i with
  | [], _ => None
  | _ :: l', O => Some (v :: l')
  | x :: l', S i' => match upd l' i' v with Some r => Some (x :: r) | None => None end
  end.

(** bounds-checked array write *)
Definition updz {A} (l : list A) (i : Z) (v : A) : res (list A) :=
  if i <? 0 then UB else of_opt (upd l (Z.to_nat i) v).

(** a for loop over a precomputed index list *)
Fixpoint foldM {I S} (f : I -> S -> res S) (l : list I) (s : S) : res S :=
  match l with
  | [] => Ok s
  | i :: l' => do s' <- f i s ;; foldM f l' s'
  end.

(** a, a+1, ..., a+k-1 *)
Definition zrange (a : Z) (k : nat) : list Z := map (fun i => a + Z.of_nat i) (seq 0 k).

(** for(uint8_t i=i0; i<=n; i++) body: the counter wraps at 256; running out of fuel means
    that the loop does not terminate. *)
Fixpoint loop_u8_le {S} (fuel : nat) (i n : Z) (body : Z -> S -> res S) (st : S) : res S :=
  match fuel with
  | O => UB
  | Datatypes.S fuel' =>
      if i <=? n then
        do st' <- body i st ;;
        loop_u8_le fuel' ((i + 1) mod 256) n body st'
      else Ok st
  end.

Lemma zrange_S a k : zrange a (S k) = a :: zrange (a + 1) k.
Proof.
  unfold zrange. cbn [seq map]. rewrite Z.add_0_r. f_equal.
  rewrite <- seq_shift, map_map. apply map_ext. intros i. lia.
Qed.

Lemma zrange_length a k : length (zrange a k) = k.
Proof. unfold zrange. rewrite map_length. apply seq_length. Qed.

Lemma zrange_In a k x : In x (zrange a k) <-> a <= x < a + Z.of_nat k.
Proof.
  unfold zrange. rewrite in_map_iff. split.
  - intros (i & <- & Hi). apply in_seq in Hi. lia.
  - intros Hx. exists (Z.to_nat (x - a)). split; [lia|]. apply in_seq. lia.
Qed.

Lemma zrange_NoDup a k : NoDup (zrange a k).
Proof.
  revert a. induction k as [|k IH]; intros a.
  - constructor.
  - rewrite zrange_S. constructor; [|apply IH]. rewrite zrange_In. lia.
Qed.

Lemma zrange_nth a k i : (i < k)%nat -> nth_error (zrange a k) i = Some (a + Z.of_nat i).
Proof.
  revert a i. induction k as [|k IH]; intros a i Hi; [lia|].
  rewrite zrange_S. destruct i as [|i]; cbn [nth_error].
  - f_equal. lia.
  - rewrite IH by lia. f_equal. lia.
Qed.

Lemma zrange_app a k m : zrange a (k + m) = zrange a k ++ zrange (a + Z.of_nat k) m.
Proof.
  revert a. induction k as [|k IH]; intros a.
  - change (zrange a 0) with (@nil Z). cbn [Nat.add app]. f_equal. lia.
  - cbn [Nat.add]. rewrite !zrange_S. cbn [app]. f_equal. rewrite IH. f_equal. f_equal. lia.
Qed.

Lemma loop_u8_le_foldM {S} fuel i n (body : Z -> S -> res S) st k :
  n <= 254 -> 0 <= i -> i + Z.of_nat k = n + 1 -> (k < fuel)%nat ->
  loop_u8_le fuel i n body st = foldM body (zrange i k) st.
Proof.
  revert fuel i st. induction k as [|k IH]; intros fuel i st Hn Hi E Hf; (destruct fuel as [|fuel]; [lia|]).
  - cbn. destruct (Z.leb_spec i n); [lia|reflexivity].
  - rewrite zrange_S. cbn [loop_u8_le foldM]. destruct (Z.leb_spec i n); [|lia].
    destruct (body i st) as [st'|]; [|reflexivity]. cbn [bind].
    rewrite Z.mod_small by lia. apply IH; lia.
Qed.

Lemma foldM_app {I S} (f : I -> S -> res S) l1 l2 s :
  foldM f (l1 ++ l2) s = do s' <- foldM f l1 s ;; foldM f l2 s'.
Proof.
  revert s. induction l1 as [|i l1 IH]; intros s; cbn [app foldM bind]; [reflexivity|].
  destruct (f i s) as [s'|]; cbn [bind]; [apply IH|reflexivity].
Qed.

Lemma foldM_pure {I S} (f : I -> S -> res S) (g : S -> I -> S) l s :
  (forall i s, In i l -> f i s = Ok (g s i)) -> foldM f l s = Ok (fold_left g l s).
Proof.
  revert s. induction l as [|i l IH]; intros s H; cbn [foldM fold_left]; [reflexivity|].
  rewrite H by (left; reflexivity). cbn [bind]. apply IH. intros j s' Hj. apply H. right; assumption.
Qed.

(** invariant-style rule *)
Lemma foldM_inv {I S} (f : I -> S -> res S) (P : S -> Prop) l s s' :
  P s -> (forall i s1 s2, In i l -> P s1 -> f i s1 = Ok s2 -> P s2) -> foldM f l s = Ok s' -> P s'.
Proof.
  revert s. induction l as [|i l IH]; intros s Hs Hstep E; cbn [foldM] in E.
  - inversion E; subst; assumption.
  - apply bind_ok in E. destruct E as (s1 & E1 & E2). apply (IH s1); [|intros; eapply Hstep; eauto; right; assumption|assumption].
    eapply Hstep; [left; reflexivity|exact Hs|exact E1].
Qed.

Lemma foldM_is_ok {I S} (f : I -> S -> res S) (P : S -> Prop) l s :
  P s -> (forall i s1, In i l -> P s1 -> exists s2, f i s1 = Ok s2 /\ P s2) ->
  exists s', foldM f l s = Ok s' /\ P s'.
Proof.
  revert s. induction l as [|i l IH]; intros s Hs Hstep; cbn [foldM].
  - exists s. auto.
  - destruct (Hstep i s (or_introl eq_refl) Hs) as (s2 & E & H2). rewrite E. cbn [bind].
    apply IH; [assumption|]. intros j s1 Hj. apply Hstep. right; assumption.
Qed.

Lemma upd_length {A} (l : list A) i v l' : upd l i v = Some l' -> length l' = length l.
Proof.
  revert i l'. induction l as [|x l IH]; intros [|i] l'; cbn; try discriminate.
  - intros E; inversion E; reflexivity.
  - destruct (upd l i v) eqn:E; [|discriminate]. intros E'. inversion E'. cbn. f_equal. eapply IH; eassumption.
Qed.

Lemma upd_some {A} (l : list A) i v : (i < length l)%nat -> exists l', upd l i v = Some l'.
Proof.
  revert i. induction l as [|x l IH]; intros [|i] Hi; cbn in *; try lia.
  - eexists; reflexivity.
  - destruct (IH i ltac:(lia)) as (l' & ->). eexists; reflexivity.
Qed.

Lemma upd_none {A} (l : list A) i v : (length l <= i)%nat -> upd l i v = None.
Proof.
  revert i. induction l as [|x l IH]; intros [|i] Hi; cbn in *; try lia; try reflexivity.
  rewrite IH by lia. reflexivity.
Qed.

Lemma upd_eq {A} (l : list A) i v : (i < length l)%nat -> upd l i v = Some (firstn i l ++ v :: skipn (S i) l).
Proof.
  revert i. induction l as [|x l IH]; intros [|i] Hi; cbn in *; try lia.
  - reflexivity.
  - rewrite IH by lia. reflexivity.
Qed.

Lemma upd_app_mid {A} (l1 : list A) x l2 v : upd (l1 ++ x :: l2) (length l1) v = Some (l1 ++ v :: l2).
Proof. induction l1 as [|y l1 IH]; cbn; [reflexivity|]. rewrite IH. reflexivity. Qed.

Lemma nth_error_upd {A} (l : list A) i v l' j : upd l i v = Some l' ->
  nth_error l' j = if (j =? i)%nat then Some v else nth_error l j.
Proof.
  revert i j l'. induction l as [|x l IH]; intros [|i] [|j] l'; cbn; try discriminate.
  - intros E; inversion E; reflexivity.
  - intros E; inversion E; reflexivity.
  - destruct (upd l i v) eqn:E; [|discriminate]. intros E'; inversion E'; reflexivity.
  - destruct (upd l i v) eqn:E; [|discriminate]. intros E'; inversion E'; subst. cbn. eapply IH; eassumption.
Qed.

(** writing f(i) at i-1 for i = 1..k fills an array of length k *)
Lemma fill_loop {A} (f : Z -> A) (body : Z -> list A -> res (list A)) k buf :
  length buf = k ->
  (forall i b, In i (zrange 1 k) -> length b = k -> body i b = updz b (i - 1) (f i)) ->
  foldM body (zrange 1 k) buf = Ok (map f (zrange 1 k)).
Proof.
  intros Hlen Hbody.
  assert (G : forall m done rest, length done = m -> length rest = (k - m)%nat -> (m <= k)%nat ->
    foldM body (zrange (1 + Z.of_nat m) (k - m)) (done ++ rest) =
    Ok (done ++ map f (zrange (1 + Z.of_nat m) (k - m)))).
  { intros m. remember (k - m)%nat as r eqn:Er. revert m Er.
    induction r as [|r IH]; intros m Er done rest Hd Hr Hm.
    - destruct rest; [|cbn in Hr; lia]. cbn. reflexivity.
    - destruct rest as [|x rest]; [cbn in Hr; lia|]. rewrite zrange_S. cbn [foldM map].
      rewrite Hbody; [|apply zrange_In; lia|rewrite app_length; cbn in *; lia].
      unfold updz. destruct (Z.ltb_spec (1 + Z.of_nat m - 1) 0); [lia|].
      replace (Z.to_nat (1 + Z.of_nat m - 1)) with (length done) by lia.
      rewrite upd_app_mid. cbn [of_opt bind].
      replace (1 + Z.of_nat m + 1) with (1 + Z.of_nat (S m)) by lia.
      replace (done ++ f (1 + Z.of_nat m) :: rest) with ((done ++ [f (1 + Z.of_nat m)]) ++ rest)
        by (rewrite <- app_assoc; reflexivity).
      rewrite (IH (S m)); [|lia|rewrite app_length; cbn; lia|cbn in Hr; lia|lia].
      rewrite <- app_assoc. reflexivity. }
  specialize (G O [] buf eq_refl). rewrite Nat.sub_0_r in G. cbn [app] in G. apply G; lia.
Qed.
