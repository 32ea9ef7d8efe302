(** Polynomials over Z/L as coefficient lists: root bound, interpolation
    (mathematical background; models no code). *)
From Coq Require Import ZArith Lia List Permutation Bool Field.
From Verif Require Import Prime PrimeL Fq.
Import ListNotations.
Open Scope fq_scope.

(** [peval [c0; c1; c2] x = c0 + c1 x + c2 x^2]. *)
Fixpoint peval (cs : list Fq) (x : Fq) : Fq :=
  match cs with
  | [] => 0
  | c :: cs' => c + x * peval cs' x
  end.

Lemma peval_app_zeros cs k x : peval (cs ++ repeat 0 k) x = peval cs x.
Proof.
  induction cs as [|c cs IH]; cbn [app peval].
  - induction k as [|k IHk]; cbn [repeat peval]; [reflexivity|]. rewrite IHk. ring.
  - rewrite IH. reflexivity.
Qed.

Lemma peval_zeros cs x : Forall (fun c => c = 0) cs -> peval cs x = 0.
Proof. induction 1 as [|c cs Hc _ IH]; cbn [peval]; [reflexivity|]. rewrite Hc, IH. ring. Qed.

Lemma peval_at_0 cs : peval cs 0 = hd 0 cs.
Proof. destruct cs as [|c cs]; cbn [peval hd]; [reflexivity|ring]. Qed.

(** Synthetic division. *)
Fixpoint sdiv (a : Fq) (cs : list Fq) : list Fq :=
  match cs with
  | [] => []
  | c :: cs' => match cs' with [] => [] | _ :: _ => peval cs' a :: sdiv a cs' end
  end.

Lemma sdiv_length a cs : length (sdiv a cs) = pred (length cs).
Proof.
  induction cs as [|c cs IH]; [reflexivity|].
  destruct cs as [|c' cs]; [reflexivity|].
  change (sdiv a (c :: c' :: cs)) with (peval (c' :: cs) a :: sdiv a (c' :: cs)).
  cbn [length]. rewrite IH. reflexivity.
Qed.

Lemma sdiv_correct a cs x : peval cs x = (x - a) * peval (sdiv a cs) x + peval cs a.
Proof.
  induction cs as [|c cs IH].
  - cbn. ring.
  - destruct cs as [|c' cs].
    + cbn. ring.
    + change (sdiv a (c :: c' :: cs)) with (peval (c' :: cs) a :: sdiv a (c' :: cs)).
      change (peval (c :: c' :: cs) x) with (c + x * peval (c' :: cs) x).
      change (peval (c :: c' :: cs) a) with (c + a * peval (c' :: cs) a).
      cbn [peval] in *. rewrite IH. ring.
Qed.

Lemma sdiv_zero a cs :
  Forall (fun c => c = 0) (sdiv a cs) -> peval cs a = 0 -> Forall (fun c => c = 0) cs.
Proof.
  induction cs as [|c cs IH]; intros H1 H2; [constructor|].
  destruct cs as [|c' cs].
  - constructor; [|constructor]. cbn in H2. rewrite <- H2. ring.
  - change (sdiv a (c :: c' :: cs)) with (peval (c' :: cs) a :: sdiv a (c' :: cs)) in H1.
    change (peval (c :: c' :: cs) a) with (c + a * peval (c' :: cs) a) in H2.
    apply Forall_cons_iff in H1. destruct H1 as [H1 H3]. constructor.
    + rewrite <- H2. rewrite H1. ring.
    + apply IH; assumption.
Qed.

(** A polynomial with at least as many distinct roots as coefficients is zero. *)
Theorem root_bound : forall xs cs,
  NoDup xs -> (length cs <= length xs)%nat -> (forall x, In x xs -> peval cs x = 0) ->
  Forall (fun c => c = 0) cs.
Proof.
  induction xs as [|a xs IH]; intros cs Hnd Hlen Hroot.
  - destruct cs; [constructor|cbn in Hlen; lia].
  - apply NoDup_cons_iff in Hnd. destruct Hnd as [Hna Hnd]. apply (sdiv_zero a).
    + apply IH; [assumption| |].
      * rewrite sdiv_length. cbn in Hlen. lia.
      * intros x Hx. pose proof (Hroot x (or_intror Hx)) as Hr.
        rewrite (sdiv_correct a) in Hr.
        rewrite (Hroot a (or_introl eq_refl)) in Hr.
        assert (E : (x - a) * peval (sdiv a cs) x = 0) by (rewrite <- Hr; ring).
        apply fmul_integral in E. destruct E as [E|E]; [|assumption].
        apply (proj1 (fsub_eq_0 _ _)) in E. exfalso. apply Hna. rewrite <- E. assumption.
    + apply Hroot. left. reflexivity.
Qed.

(** Functions given by a polynomial with [n] coefficients. *)
Definition polyfun (n : nat) (f : Fq -> Fq) : Prop :=
  exists cs, length cs = n /\ forall x, f x = peval cs x.

Fixpoint padd (a b : list Fq) : list Fq :=
  match a, b with
  | [], _ => b
  | _, [] => a
  | x :: a', y :: b' => (x + y) :: padd a' b'
  end.

Lemma padd_eval a b x : peval (padd a b) x = peval a x + peval b x.
Proof.
  revert b. induction a as [|c a IH]; intros [|d b]; cbn [padd peval]; try ring.
  rewrite IH. ring.
Qed.

Lemma padd_length a b : length (padd a b) = Nat.max (length a) (length b).
Proof.
  revert b. induction a as [|c a IH]; intros [|d b]; cbn [padd length]; try lia.
  rewrite IH. lia.
Qed.

Definition pscale (c : Fq) (a : list Fq) : list Fq := map (fmul c) a.

Lemma pscale_eval c a x : peval (pscale c a) x = c * peval a x.
Proof. induction a as [|d a IH]; cbn [pscale map peval]; [ring|]. fold (pscale c a). rewrite IH. ring. Qed.

Lemma pscale_length c a : length (pscale c a) = length a.
Proof. apply map_length. Qed.

Fixpoint pmul (a b : list Fq) : list Fq :=
  match a with
  | [] => []
  | c :: a' => padd (pscale c b) (0 :: pmul a' b)
  end.

Lemma pmul_eval a b x : peval (pmul a b) x = peval a x * peval b x.
Proof.
  induction a as [|c a IH]; cbn [pmul peval]; [ring|].
  rewrite padd_eval, pscale_eval. cbn [peval]. rewrite IH. ring.
Qed.

Lemma pmul_length a b : (length (pmul a b) <= length a + length b)%nat.
Proof.
  induction a as [|c a IH]; cbn [pmul length]; [lia|].
  rewrite padd_length, pscale_length. cbn [length]. lia.
Qed.

Lemma pmul_length_tight a b : (0 < length a -> 0 < length b ->
  length (pmul a b) <= length a + length b - 1)%nat.
Proof.
  induction a as [|c a IH]; intros Ha Hb; [cbn in Ha; lia|].
  cbn [pmul length]. rewrite padd_length, pscale_length. cbn [length].
  destruct a as [|d a].
  - cbn. lia.
  - cbn [length] in IH. specialize (IH ltac:(lia) Hb). cbn [length]. lia.
Qed.

Lemma polyfun_weaken n m f : (n <= m)%nat -> polyfun n f -> polyfun m f.
Proof.
  intros Hnm (cs & Hlen & Hf). exists (cs ++ repeat 0 (m - n)). split.
  - rewrite app_length, repeat_length. lia.
  - intros x. rewrite peval_app_zeros. apply Hf.
Qed.

Lemma polyfun_le n f cs : (length cs <= n)%nat -> (forall x, f x = peval cs x) -> polyfun n f.
Proof. intros Hl Hf. apply (polyfun_weaken (length cs)); [assumption|]. exists cs. auto. Qed.

Lemma polyfun_const n c : (1 <= n)%nat -> polyfun n (fun _ => c).
Proof.
  intros Hn. apply (polyfun_le n _ [c]); [cbn; lia|]. intros x. cbn. ring.
Qed.

Lemma polyfun_zero n : polyfun n (fun _ => 0).
Proof. apply (polyfun_le n _ []); [cbn; lia|]. reflexivity. Qed.

Lemma polyfun_add n f g : polyfun n f -> polyfun n g -> polyfun n (fun x => f x + g x).
Proof.
  intros (a & Ha & Hf) (b & Hb & Hg). exists (padd a b). split.
  - rewrite padd_length. lia.
  - intros x. rewrite padd_eval, Hf, Hg. reflexivity.
Qed.

Lemma polyfun_scale n c f : polyfun n f -> polyfun n (fun x => c * f x).
Proof.
  intros (a & Ha & Hf). exists (pscale c a). split.
  - rewrite pscale_length. assumption.
  - intros x. rewrite pscale_eval, Hf. reflexivity.
Qed.

Lemma polyfun_mul_linear n f a b : polyfun n f -> polyfun (S n) (fun x => (a * x + b) * f x).
Proof.
  intros (cs & Hc & Hf). apply (polyfun_le _ _ (padd (0 :: pscale a cs) (pscale b cs))).
  - rewrite padd_length. cbn [length]. rewrite !pscale_length. lia.
  - intros x. rewrite padd_eval. cbn [peval]. rewrite !pscale_eval, Hf. ring.
Qed.

Lemma polyfun_ext n f g : (forall x, f x = g x) -> polyfun n f -> polyfun n g.
Proof. intros E (cs & Hc & Hf). exists cs. split; [assumption|]. intros x. rewrite <- E. apply Hf. Qed.

Lemma polyfun_sum {A} n (f : A -> Fq -> Fq) l :
  (forall a, In a l -> polyfun n (f a)) -> polyfun n (fun x => fsum (map (fun a => f a x) l)).
Proof.
  induction l as [|a l IH]; intros H.
  - apply polyfun_zero.
  - apply (polyfun_ext n (fun x => f a x + fsum (map (fun a => f a x) l))).
    + reflexivity.
    + apply polyfun_add; [apply H; left; reflexivity|]. apply IH. intros b Hb. apply H. right. assumption.
Qed.

(** Uniqueness: two polynomial functions agreeing on n distinct points are equal. *)
Lemma polyfun_unique n f g xs :
  polyfun n f -> polyfun n g -> NoDup xs -> (n <= length xs)%nat ->
  (forall x, In x xs -> f x = g x) -> forall x, f x = g x.
Proof.
  intros Hf Hg Hnd Hlen Hagree x.
  assert (Hd : polyfun n (fun x => f x + (- (1)) * g x)).
  { apply polyfun_add; [assumption|]. apply polyfun_scale. assumption. }
  destruct Hd as (cs & Hc & Hd).
  assert (Hz : Forall (fun c => c = 0) cs).
  { apply (root_bound xs); [assumption|lia|]. intros y Hy. rewrite <- Hd, Hagree by assumption. ring. }
  pose proof (Hd x) as E. rewrite peval_zeros in E by assumption.
  apply (proj1 (fsub_eq_0 _ _)). rewrite <- E. ring.
Qed.

Lemma peval_inj a b : length a = length b -> (Z.of_nat (length a) < L)%Z ->
  (forall x, peval a x = peval b x) -> a = b.
Proof.
  intros Hlen HL H.
  set (xs := map (fun i => of_Z (Z.of_nat i)) (seq 0 (length a))).
  assert (Hnd : NoDup xs).
  { unfold xs. apply nodup_map_in; [|apply seq_NoDup].
    intros i j Hi Hj E. apply in_seq in Hi, Hj. apply of_Z_inj in E; lia. }
  assert (Hz : Forall (fun c => c = 0) (padd a (pscale (- (1)) b))).
  { apply (root_bound xs); [assumption| |].
    - rewrite padd_length, pscale_length. unfold xs. rewrite map_length, seq_length. lia.
    - intros x _. rewrite padd_eval, pscale_eval, H. ring. }
  clear -Hlen Hz. revert b Hlen Hz. induction a as [|c a IH]; intros [|d b] Hlen Hz; try discriminate; [reflexivity|].
  cbn [pscale map padd] in Hz. inversion Hz; subst. f_equal.
  - apply (proj1 (fsub_eq_0 _ _)). rewrite <- H1. ring.
  - apply IH; [cbn in Hlen; lia|assumption].
Qed.

(** ** Lagrange interpolation *)
Definition feqb (a b : Fq) : bool := if Fq_eq_dec a b then true else false.

Lemma feqb_eq a b : feqb a b = true <-> a = b.
Proof. unfold feqb. destruct (Fq_eq_dec a b); split; congruence. Qed.
Lemma feqb_refl a : feqb a a = true. Proof. apply feqb_eq. reflexivity. Qed.
Lemma feqb_neq a b : a <> b -> feqb a b = false.
Proof. unfold feqb. destruct (Fq_eq_dec a b); congruence. Qed.

(** the Lagrange basis polynomial of point x in xs, evaluated at z *)
Definition lbasis (xs : list Fq) (x z : Fq) : Fq :=
  fprod (map (fun y => if feqb y x then 1 else (z - y) / (x - y)) xs).

Lemma lbasis_self xs x : lbasis xs x x = 1.
Proof.
  unfold lbasis. induction xs as [|y xs IH]; [reflexivity|].
  cbn [map]. rewrite fprod_cons, IH. unfold feqb. destruct (Fq_eq_dec y x) as [|Hne]; [ring|].
  field. rewrite fsub_eq_0. congruence.
Qed.

Lemma lbasis_other xs x y : In y xs -> y <> x -> lbasis xs x y = 0.
Proof.
  intros Hin Hne. unfold lbasis. apply fprod_zero. apply in_map_iff. exists y. split; [|assumption].
  rewrite feqb_neq by assumption. field. rewrite fsub_eq_0. congruence.
Qed.

Lemma polyfun_lbasis_notin xs x : ~ In x xs -> polyfun (S (length xs)) (lbasis xs x).
Proof.
  induction xs as [|y xs IH]; intros Hx.
  - apply (polyfun_ext 1 (fun _ => 1)); [reflexivity|]. apply polyfun_const. lia.
  - apply (polyfun_ext _ (fun z => (finv (x - y) * z + - (y * finv (x - y))) * lbasis xs x z)).
    + intros z. unfold lbasis. cbn [map]. rewrite fprod_cons.
      rewrite feqb_neq by (intros ->; apply Hx; left; reflexivity). unfold fdiv. ring.
    + cbn [length]. apply polyfun_mul_linear. apply IH. intros H. apply Hx. right. assumption.
Qed.

Lemma polyfun_lbasis xs x : NoDup xs -> In x xs -> polyfun (length xs) (lbasis xs x).
Proof.
  induction 1 as [|y xs Hy Hnd IH]; intros Hin; [destruct Hin|].
  cbn [length]. destruct Hin as [->|Hin].
  - apply (polyfun_ext _ (lbasis xs x)).
    + intros z. unfold lbasis. cbn [map]. rewrite fprod_cons, feqb_refl. ring.
    + apply polyfun_lbasis_notin. assumption.
  - apply (polyfun_ext _ (fun z => (finv (x - y) * z + - (y * finv (x - y))) * lbasis xs x z)).
    + intros z. unfold lbasis. cbn [map]. rewrite fprod_cons.
      rewrite feqb_neq by (intros ->; contradiction). unfold fdiv. ring.
    + apply polyfun_mul_linear. apply IH. assumption.
Qed.

Theorem lagrange xs n f z :
  NoDup xs -> (n <= length xs)%nat -> polyfun n f ->
  fsum (map (fun x => lbasis xs x z * f x) xs) = f z.
Proof.
  intros Hnd Hn Hf.
  apply (polyfun_unique (length xs) (fun z => fsum (map (fun x => lbasis xs x z * f x) xs)) f xs);
    [|apply (polyfun_weaken n); assumption|assumption|lia|].
  - apply polyfun_sum. intros x Hx.
    apply (polyfun_ext _ (fun z => f x * lbasis xs x z)); [intros; ring|].
    apply polyfun_scale. apply polyfun_lbasis; assumption.
  - intros y Hy.
    rewrite (fsum_single (fun x => lbasis xs x y * f x) xs y Hnd Hy).
    + rewrite lbasis_self. ring.
    + intros x Hx Hne. rewrite lbasis_other by congruence. ring.
Qed.

(** Existence of an interpolating polynomial. *)
Theorem interpolate_exists xs (v : Fq -> Fq) :
  NoDup xs -> exists cs, length cs = length xs /\ forall x, In x xs -> peval cs x = v x.
Proof.
  intros Hnd.
  assert (Hp : polyfun (length xs) (fun z => fsum (map (fun x => v x * lbasis xs x z) xs))).
  { apply polyfun_sum. intros x Hx. apply polyfun_scale. apply polyfun_lbasis; assumption. }
  destruct Hp as (cs & Hc & Hf). exists cs. split; [assumption|].
  intros y Hy. rewrite <- Hf.
  rewrite (fsum_single (fun x => v x * lbasis xs x y) xs y Hnd Hy).
  - rewrite lbasis_self. ring.
  - intros x Hx Hne. rewrite lbasis_other by congruence. ring.
Qed.

Lemma lbasis_perm xs ys x z : Permutation xs ys -> lbasis xs x z = lbasis ys x z.
Proof. intros H. unfold lbasis. apply fprod_perm. apply Permutation_map. assumption. Qed.

Lemma lbasis0_neq_0 xs x : ~ In 0 xs -> ~ (x = 0) -> lbasis xs x 0 <> 0.
Proof.
  intros H0 Hx. unfold lbasis. apply fprod_neq_0. apply Forall_forall. intros y Hy.
  apply in_map_iff in Hy. destruct Hy as (w & <- & Hw).
  unfold feqb. destruct (Fq_eq_dec w x) as [|Hne]; [exact fone_neq_fzero|].
  unfold fdiv. apply fmul_neq_0.
  - rewrite fsub_eq_0. intros <-. contradiction.
  - apply finv_neq_0. rewrite fsub_eq_0. congruence.
Qed.
