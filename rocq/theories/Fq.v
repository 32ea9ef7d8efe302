(** The field of integers modulo the group order L, with decidable Leibniz equality
    (mathematical background; models no code). *)
From Coq Require Import ZArith Znumtheory Lia List Permutation Bool Eqdep_dec Field.
From Verif Require Import Prime PrimeL.
Import ListNotations.
Open Scope Z_scope.

Lemma L_pos : 0 < L. Proof. vm_compute. reflexivity. Qed.
Lemma L_gt_2_252 : 2 ^ 252 < L. Proof. vm_compute. reflexivity. Qed.
Lemma L_lt_2_253 : L < 2 ^ 253. Proof. vm_compute. reflexivity. Qed.
Lemma L_gt_65536 : 65536 < L. Proof. vm_compute. reflexivity. Qed.
Global Opaque L.
Global Arguments Z.modulo : simpl never.
Global Arguments Z.div : simpl never.
Global Arguments Z.pow : simpl never.
Global Arguments Z.mul : simpl never.
Global Arguments Z.add : simpl never.
Global Arguments Z.sub : simpl never.
Global Arguments Z.of_nat : simpl never.
Global Arguments Z.to_nat : simpl never.

Record Fq : Type := mkFq { fv : Z; fv_ok : (fv mod L =? fv) = true }.

Lemma Fq_eq (a b : Fq) : fv a = fv b -> a = b.
Proof.
  destruct a as [a Ha], b as [b Hb]. cbn. intros ->. f_equal.
  apply (UIP_dec Bool.bool_dec).
Qed.

Lemma of_Z_ok z : ((z mod L) mod L =? z mod L) = true.
Proof. apply Z.eqb_eq. apply Zmod_mod. Qed.

Definition of_Z (z : Z) : Fq := mkFq (z mod L) (of_Z_ok z).

Lemma fv_range (a : Fq) : 0 <= fv a < L.
Proof.
  destruct a as [a Ha]. cbn. apply Z.eqb_eq in Ha. rewrite <- Ha.
  apply Z.mod_pos_bound. apply L_pos.
Qed.

Lemma of_Z_fv (a : Fq) : of_Z (fv a) = a.
Proof.
  apply Fq_eq. cbn. destruct a as [a Ha]. cbn. apply Z.eqb_eq. assumption.
Qed.

Lemma fv_of_Z z : fv (of_Z z) = z mod L.
Proof. reflexivity. Qed.

Lemma fv_of_Z_small z : 0 <= z < L -> fv (of_Z z) = z.
Proof. intros H. cbn. apply Z.mod_small. assumption. Qed.

Lemma of_Z_eq a b : of_Z a = of_Z b <-> a mod L = b mod L.
Proof.
  split.
  - intros H. apply (f_equal fv) in H. exact H.
  - intros H. apply Fq_eq. exact H.
Qed.

Lemma of_Z_mod z : of_Z (z mod L) = of_Z z.
Proof. apply of_Z_eq. apply Zmod_mod. Qed.

Definition fzero := of_Z 0.
Definition fone := of_Z 1.
Definition fadd (a b : Fq) := of_Z (fv a + fv b).
Definition fmul (a b : Fq) := of_Z (fv a * fv b).
Definition fopp (a : Fq) := of_Z (- fv a).
Definition fsub (a b : Fq) := of_Z (fv a - fv b).
Definition finv (a : Fq) := of_Z (pow_mod (fv a) (L - 2) L).
Definition fdiv (a b : Fq) := fmul a (finv b).

Lemma Fq_eq_dec (a b : Fq) : {a = b} + {a <> b}.
Proof.
  destruct (Z.eq_dec (fv a) (fv b)) as [H|H].
  - left. apply Fq_eq. assumption.
  - right. congruence.
Qed.

Lemma of_Z_add a b : of_Z (a + b) = fadd (of_Z a) (of_Z b).
Proof. apply of_Z_eq. cbn. apply Zplus_mod. Qed.
Lemma of_Z_mul a b : of_Z (a * b) = fmul (of_Z a) (of_Z b).
Proof. apply of_Z_eq. cbn. apply Zmult_mod. Qed.
Lemma of_Z_sub a b : of_Z (a - b) = fsub (of_Z a) (of_Z b).
Proof. apply of_Z_eq. cbn. apply Zminus_mod. Qed.
Lemma of_Z_opp a : of_Z (- a) = fopp (of_Z a).
Proof.
  apply of_Z_eq. cbn. rewrite <- (Z.sub_0_l a), <- (Z.sub_0_l (a mod L)).
  rewrite Zminus_mod_idemp_r. reflexivity.
Qed.

Lemma Fq_ind_Z (P : Fq -> Prop) : (forall z, P (of_Z z)) -> forall a, P a.
Proof. intros H a. rewrite <- (of_Z_fv a). apply H. Qed.

Ltac fq_to_Z :=
  intros; repeat match goal with
  | a : Fq |- _ => pattern a; revert a; apply Fq_ind_Z; intros a
  end; unfold fzero, fone;
  repeat first [rewrite <- of_Z_add | rewrite <- of_Z_mul | rewrite <- of_Z_sub | rewrite <- of_Z_opp].

Lemma Fq_ring : ring_theory fzero fone fadd fmul fsub fopp (@eq Fq).
Proof.
  constructor; fq_to_Z; f_equal; ring.
Qed.

Lemma fone_neq_fzero : fone <> fzero.
Proof.
  intros H. apply (f_equal fv) in H. cbn in H. pose proof L_gt_65536.
  rewrite Zmod_0_l, Zmod_1_l in H by lia. discriminate.
Qed.

Lemma of_Z_eq_0 z : of_Z z = fzero <-> (L | z).
Proof.
  pose proof L_pos. split.
  - intros H0. apply (f_equal fv) in H0. cbn in H0. rewrite Zmod_0_l in H0.
    apply Zmod_divide; lia.
  - intros H0. apply Fq_eq. cbn. rewrite Zmod_0_l. apply Zdivide_mod. assumption.
Qed.

Lemma finv_l a : a <> fzero -> fmul (finv a) a = fone.
Proof.
  intros Ha. pose proof L_gt_65536.
  unfold finv. rewrite pow_mod_correct by lia. rewrite of_Z_mod.
  rewrite <- (of_Z_fv a) at 2. rewrite <- of_Z_mul. apply of_Z_eq.
  replace (fv a ^ (L - 2) * fv a) with (fv a ^ (L - 1)).
  - rewrite (fermat L (fv a) prime_L).
    + rewrite Zmod_1_l by lia. reflexivity.
    + intros Hd. apply of_Z_eq_0 in Hd. rewrite of_Z_fv in Hd. contradiction.
  - replace (L - 1) with (Z.succ (L - 2)) by lia. rewrite Z.pow_succ_r by lia. ring.
Qed.

Lemma Fq_field : field_theory fzero fone fadd fmul fsub fopp fdiv finv (@eq Fq).
Proof.
  constructor.
  - exact Fq_ring.
  - exact fone_neq_fzero.
  - reflexivity.
  - exact finv_l.
Qed.

Add Field Fqf : Fq_field.

Declare Scope fq_scope.
Delimit Scope fq_scope with fq.
Bind Scope fq_scope with Fq.
Notation "0" := fzero : fq_scope.
Notation "1" := fone : fq_scope.
Infix "+" := fadd : fq_scope.
Infix "*" := fmul : fq_scope.
Infix "-" := fsub : fq_scope.
Infix "/" := fdiv : fq_scope.
Notation "- x" := (fopp x) : fq_scope.

Open Scope fq_scope.

Lemma fmul_integral (a b : Fq) : a * b = 0 -> a = 0 \/ b = 0.
Proof.
  intros H. destruct (Fq_eq_dec a 0) as [|Ha]; [left; assumption|right].
  replace b with (finv a * (a * b)).
  - rewrite H. ring.
  - field. assumption.
Qed.

Lemma fmul_neq_0 (a b : Fq) : a <> 0 -> b <> 0 -> a * b <> 0.
Proof. intros Ha Hb H. apply fmul_integral in H. tauto. Qed.

Lemma fsub_eq_0 (a b : Fq) : a - b = 0 <-> a = b.
Proof.
  split; intros H.
  - replace a with ((a - b) + b) by ring. rewrite H. ring.
  - subst. ring.
Qed.

Lemma finv_neq_0 (a : Fq) : a <> 0 -> finv a <> 0.
Proof.
  intros Ha H. pose proof (finv_l a Ha) as E. rewrite H in E.
  apply fone_neq_fzero. rewrite <- E. ring.
Qed.

Lemma finv_0 : finv 0 = 0.
Proof.
  pose proof L_gt_65536. unfold finv. rewrite pow_mod_correct by lia. rewrite of_Z_mod.
  change (fv 0) with (0 mod L)%Z. rewrite Zmod_0_l. rewrite Z.pow_0_l by lia. reflexivity.
Qed.

Lemma of_Z_inj a b : (0 <= a < L)%Z -> (0 <= b < L)%Z -> of_Z a = of_Z b -> a = b.
Proof.
  intros Ha Hb H. apply (f_equal fv) in H. rewrite !fv_of_Z_small in H by assumption. assumption.
Qed.

(** Finite sums and products over lists. *)
Definition fsum (l : list Fq) : Fq := fold_right fadd 0 l.
Definition fprod (l : list Fq) : Fq := fold_right fmul 1 l.

Lemma fsum_cons a l : fsum (a :: l) = a + fsum l. Proof. reflexivity. Qed.
Lemma fprod_cons a l : fprod (a :: l) = a * fprod l. Proof. reflexivity. Qed.
Lemma fsum_nil : fsum [] = 0. Proof. reflexivity. Qed.

Lemma fsum_app l l' : fsum (l ++ l') = fsum l + fsum l'.
Proof. induction l as [|a l IH]; cbn [app]; rewrite ?fsum_cons, ?fsum_nil; [ring|]. rewrite IH. ring. Qed.

Lemma fprod_app l l' : fprod (l ++ l') = fprod l * fprod l'.
Proof.
  induction l as [|a l IH]; cbn [app]; rewrite ?fprod_cons.
  - unfold fprod at 2. cbn. ring.
  - rewrite IH. ring.
Qed.

Lemma fsum_perm l l' : Permutation l l' -> fsum l = fsum l'.
Proof.
  induction 1; rewrite ?fsum_cons.
  - reflexivity.
  - rewrite IHPermutation. reflexivity.
  - ring.
  - congruence.
Qed.

Lemma fprod_perm l l' : Permutation l l' -> fprod l = fprod l'.
Proof.
  induction 1; rewrite ?fprod_cons.
  - reflexivity.
  - rewrite IHPermutation. reflexivity.
  - ring.
  - congruence.
Qed.

Lemma fprod_neq_0 l : Forall (fun x => x <> 0) l -> fprod l <> 0.
Proof.
  induction 1 as [|x l Hx Hl IH].
  - exact fone_neq_fzero.
  - rewrite fprod_cons. apply fmul_neq_0; assumption.
Qed.

Lemma fprod_zero l : In 0 l -> fprod l = 0.
Proof.
  induction l as [|x l IH]; intros H; [destruct H|].
  rewrite fprod_cons. destruct H as [->|H]; [ring|]. rewrite IH by assumption. ring.
Qed.

Lemma fsum_map_add {A} (f g : A -> Fq) l :
  fsum (map (fun x => f x + g x) l) = fsum (map f l) + fsum (map g l).
Proof. induction l as [|a l IH]; cbn [map]; rewrite ?fsum_cons, ?fsum_nil; [ring|]. rewrite IH. ring. Qed.

Lemma fsum_map_sub {A} (f g : A -> Fq) l :
  fsum (map (fun x => f x - g x) l) = fsum (map f l) - fsum (map g l).
Proof. induction l as [|a l IH]; cbn [map]; rewrite ?fsum_cons, ?fsum_nil; [ring|]. rewrite IH. ring. Qed.

Lemma fsum_map_scale {A} c (f : A -> Fq) l :
  fsum (map (fun x => c * f x) l) = c * fsum (map f l).
Proof. induction l as [|a l IH]; cbn [map]; rewrite ?fsum_cons, ?fsum_nil; [ring|]. rewrite IH. ring. Qed.

Lemma fsum_map_scale_r {A} c (f : A -> Fq) l :
  fsum (map (fun x => f x * c) l) = fsum (map f l) * c.
Proof. induction l as [|a l IH]; cbn [map]; rewrite ?fsum_cons, ?fsum_nil; [ring|]. rewrite IH. ring. Qed.

Lemma fsum_map_ext {A} (f g : A -> Fq) l :
  (forall x, In x l -> f x = g x) -> fsum (map f l) = fsum (map g l).
Proof. intros H. f_equal. apply map_ext_in. assumption. Qed.

Lemma fsum_map_zero {A} (f : A -> Fq) l : (forall x, In x l -> f x = 0) -> fsum (map f l) = 0.
Proof.
  induction l as [|a l IH]; intros H; [reflexivity|].
  cbn [map]. rewrite fsum_cons, H, IH; [ring| |left; reflexivity].
  intros x Hx. apply H. right. assumption.
Qed.

Lemma fsum_swap {A B} (f : A -> B -> Fq) l l' :
  fsum (map (fun x => fsum (map (fun y => f x y) l')) l)
  = fsum (map (fun y => fsum (map (fun x => f x y) l)) l').
Proof.
  induction l as [|a l IH]; cbn [map].
  - rewrite fsum_nil. rewrite fsum_map_zero; reflexivity.
  - rewrite fsum_cons, IH. rewrite <- fsum_map_add. apply fsum_map_ext.
    intros x _. rewrite fsum_cons. reflexivity.
Qed.

(** A sum with a single non-zero term. *)
Lemma fsum_single {A} (f : A -> Fq) l a :
  NoDup l -> In a l -> (forall x, In x l -> x <> a -> f x = 0) -> fsum (map f l) = f a.
Proof.
  induction 1 as [|x l Hx Hnd IH]; intros Hin H; [destruct Hin|].
  cbn [map]. rewrite fsum_cons. destruct Hin as [->|Hin].
  - rewrite fsum_map_zero; [ring|]. intros y Hy. apply H; [right; assumption|].
    intros ->. contradiction.
  - rewrite IH; [|assumption|].
    + rewrite (H x); [ring|left; reflexivity|]. intros ->. contradiction.
    + intros y Hy. apply H. right. assumption.
Qed.
