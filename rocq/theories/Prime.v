(** Fermat's little theorem and Pocklington's criterion over [Z]
    (mathematical background; models no code). *)
From Coq Require Import ZArith Znumtheory Lia List Permutation Bool.
Import ListNotations.
Open Scope Z_scope.

(** Modular exponentiation by repeated squaring. *)
Fixpoint pow_mod_pos (a : Z) (e : positive) (m : Z) : Z :=
  match e with
  | xH => a mod m
  | xO e' => let r := pow_mod_pos a e' m in (r * r) mod m
  | xI e' => let r := pow_mod_pos a e' m in (((r * r) mod m) * a) mod m
  end.

Definition pow_mod (a e m : Z) : Z :=
  match e with
  | Zpos p => pow_mod_pos a p m
  | _ => 1 mod m
  end.

Lemma pow_mod_pos_correct a e m : m <> 0 -> pow_mod_pos a e m = (a ^ Zpos e) mod m.
Proof.
  intros Hm. induction e as [e IH|e IH|]; cbn [pow_mod_pos].
  - rewrite IH. rewrite Pos2Z.inj_xI.
    rewrite <- Zmult_mod. rewrite Zmult_mod_idemp_l.
    rewrite Z.pow_add_r, Z.pow_1_r by lia.
    replace (2 * Z.pos e) with (Z.pos e + Z.pos e) by lia.
    rewrite Z.pow_add_r by lia. reflexivity.
  - rewrite IH. rewrite Pos2Z.inj_xO.
    rewrite <- Zmult_mod.
    replace (2 * Z.pos e) with (Z.pos e + Z.pos e) by lia.
    rewrite Z.pow_add_r by lia. reflexivity.
  - rewrite Z.pow_1_r. reflexivity.
Qed.

Lemma pow_mod_correct a e m : m <> 0 -> 0 <= e -> pow_mod a e m = (a ^ e) mod m.
Proof.
  intros Hm He. destruct e as [|p|p]; cbn [pow_mod].
  - reflexivity.
  - apply pow_mod_pos_correct; assumption.
  - lia.
Qed.

(** ** Fermat *)
Definition zprod (l : list Z) : Z := fold_right Z.mul 1 l.

Lemma zprod_perm l l' : Permutation l l' -> zprod l = zprod l'.
Proof.
  induction 1; cbn [zprod fold_right] in *; unfold zprod in *; cbn [fold_right] in *.
  - reflexivity.
  - rewrite IHPermutation. reflexivity.
  - ring.
  - congruence.
Qed.

Definition zrange (p : Z) : list Z := map Z.of_nat (seq 1 (Z.to_nat (p - 1))).

Lemma zrange_in p x : In x (zrange p) <-> 1 <= x < p.
Proof.
  unfold zrange. rewrite in_map_iff. split.
  - intros (n & <- & Hn). apply in_seq in Hn. lia.
  - intros H. exists (Z.to_nat x). split; [lia|]. apply in_seq. lia.
Qed.

Lemma zrange_nodup p : NoDup (zrange p).
Proof.
  unfold zrange. apply FinFun.Injective_map_NoDup; [|apply seq_NoDup].
  intros a b; lia.
Qed.

Lemma zprod_map_mul_mod a p l :
  p <> 0 ->
  zprod (map (fun i => (a * i) mod p) l) mod p = (a ^ Z.of_nat (length l) * zprod l) mod p.
Proof.
  intros Hp. induction l as [|x l IH].
  - cbn. reflexivity.
  - cbn [map zprod fold_right length].
    fold (zprod l). fold (zprod (map (fun i => (a * i) mod p) l)).
    rewrite Zmult_mod_idemp_l.
    rewrite <- Zmult_mod_idemp_r. rewrite IH. rewrite Zmult_mod_idemp_r.
    rewrite Nat2Z.inj_succ, Z.pow_succ_r by lia.
    f_equal. ring.
Qed.

Lemma prime_not_div_small p x : prime p -> 1 <= x < p -> ~ (p | x).
Proof.
  intros Hp Hx Hd. apply Z.divide_pos_le in Hd; lia.
Qed.

Lemma zprod_not_div p l : prime p -> (forall x, In x l -> ~ (p | x)) -> ~ (p | zprod l).
Proof.
  intros Hp. induction l as [|x l IH]; intros H Hd.
  - cbn in Hd. apply Z.divide_1_r in Hd. destruct Hp. lia.
  - cbn in Hd. apply prime_mult in Hd; [|assumption]. destruct Hd as [Hd|Hd].
    + apply (H x); [left; reflexivity|assumption].
    + apply IH; [|assumption]. intros y Hy. apply H. right. assumption.
Qed.

Lemma mod_eq_divide a b m : 0 < m -> (a mod m = b mod m <-> (m | a - b)).
Proof.
  intros Hm. split.
  - intros H. apply Zmod_divide; [lia|]. rewrite Zminus_mod, H, Z.sub_diag. apply Zmod_0_l.
  - intros [k Hk]. replace a with (b + k * m) by lia. apply Z_mod_plus_full.
Qed.

Lemma nodup_map_in {A B} (f : A -> B) l :
  (forall x y, In x l -> In y l -> f x = f y -> x = y) -> NoDup l -> NoDup (map f l).
Proof.
  intros Hinj Hnd. induction Hnd as [|x l Hx Hnd IH]; cbn; constructor.
  - intros Hin. apply in_map_iff in Hin. destruct Hin as (y & E & Hy).
    apply Hinj in E; [subst; contradiction|right; assumption|left; reflexivity].
  - apply IH. intros a b Ha Hb. apply Hinj; right; assumption.
Qed.

Theorem fermat p a : prime p -> ~ (p | a) -> (a ^ (p - 1)) mod p = 1.
Proof.
  intros Hp Ha. pose proof (prime_ge_2 p Hp) as Hp2.
  assert (Hperm : Permutation (map (fun i => (a * i) mod p) (zrange p)) (zrange p)).
  { apply NoDup_Permutation_bis.
    - apply nodup_map_in; [|apply zrange_nodup].
      intros x y Hx Hy E. apply zrange_in in Hx, Hy.
      apply mod_eq_divide in E; [|lia].
      replace (a * x - a * y) with (a * (x - y)) in E by ring.
      apply prime_mult in E; [|assumption]. destruct E as [E|E]; [contradiction|].
      destruct (Z.eq_dec x y) as [|Hne]; [assumption|exfalso].
      destruct (Z_lt_le_dec x y).
      + apply Z.divide_opp_r in E. apply Z.divide_pos_le in E; lia.
      + apply Z.divide_pos_le in E; lia.
    - rewrite map_length. lia.
    - intros x Hx. apply in_map_iff in Hx. destruct Hx as (i & <- & Hi).
      apply zrange_in in Hi. apply zrange_in.
      assert (0 <= (a * i) mod p < p) by (apply Z.mod_pos_bound; lia).
      assert ((a * i) mod p <> 0); [|lia].
      intros E. apply Zmod_divide in E; [|lia].
      apply prime_mult in E; [|assumption]. destruct E as [E|E]; [contradiction|].
      apply Z.divide_pos_le in E; lia. }
  apply zprod_perm in Hperm.
  assert (H := zprod_map_mul_mod a p (zrange p) ltac:(lia)).
  rewrite Hperm in H.
  assert (Hlen : Z.of_nat (length (zrange p)) = p - 1).
  { unfold zrange. rewrite map_length, seq_length. lia. }
  rewrite Hlen in H.
  apply mod_eq_divide in H; [|lia].
  replace (zprod (zrange p) - a ^ (p - 1) * zprod (zrange p))
    with ((1 - a ^ (p - 1)) * zprod (zrange p)) in H by ring.
  apply prime_mult in H; [|assumption]. destruct H as [H|H].
  - transitivity (1 mod p); [|apply Zmod_1_l; lia]. symmetry.
    apply mod_eq_divide; [lia|assumption].
  - exfalso. revert H. apply zprod_not_div; [assumption|].
    intros x Hx. apply zrange_in in Hx. apply prime_not_div_small; assumption.
Qed.

(** ** Pocklington *)
Lemma pow_mod_one x k m : 1 < m -> 0 <= k -> x mod m = 1 -> (x ^ k) mod m = 1.
Proof.
  intros Hm Hk Hx.
  rewrite <- (Zmod_1_l m) in Hx by lia. apply mod_eq_divide in Hx; [|lia].
  rewrite <- (Zmod_1_l m) by lia. apply mod_eq_divide; [lia|].
  revert k Hk. apply natlike_ind.
  - rewrite Z.pow_0_r. exists 0. reflexivity.
  - intros k Hk IH. rewrite Z.pow_succ_r by assumption.
    replace (x * x ^ k - 1) with (x * (x ^ k - 1) + (x - 1)) by ring.
    apply Z.divide_add_r; [apply Z.divide_mul_r; assumption|assumption].
Qed.

(** Every prime divisor of N is 1 mod p. *)
Lemma pocklington_div N p R a r :
  prime p -> 1 < N -> 0 < R -> N - 1 = p * R ->
  (a ^ (N - 1)) mod N = 1 -> Z.gcd ((a ^ R) mod N - 1) N = 1 ->
  prime r -> (r | N) -> (p | r - 1).
Proof.
  intros Hp HN HR HNR Hpow Hgcd Hr HrN.
  pose proof (prime_ge_2 r Hr) as Hr2. pose proof (prime_ge_2 p Hp) as Hp2.
  destruct (Zdivide_dec p (r - 1)) as [|Hnd]; [assumption|exfalso].
  assert (HN1 : (r | a ^ (N - 1) - 1)).
  { apply Z.divide_trans with N; [assumption|]. apply mod_eq_divide; [lia|].
    rewrite Hpow, Zmod_1_l by lia. reflexivity. }
  set (b := a ^ R).
  assert (Hb1 : ~ (r | b - 1)).
  { intros Hd.
    assert (Hd2 : (r | b mod N - 1)).
    { rewrite Z.mod_eq by lia.
      replace (b - N * (b / N) - 1) with ((b - 1) - N * (b / N)) by ring.
      apply Z.divide_sub_r; [assumption|]. apply Z.divide_mul_l. assumption. }
    assert (Hg : (r | Z.gcd (b mod N - 1) N)) by (apply Z.gcd_greatest; assumption).
    unfold b in Hg. rewrite Hgcd in Hg. apply Z.divide_1_r_nonneg in Hg; lia. }
  assert (Hbp : (b ^ p) mod r = 1).
  { unfold b. rewrite <- Z.pow_mul_r by lia. rewrite Z.mul_comm, <- HNR.
    transitivity (1 mod r); [|apply Zmod_1_l; lia]. apply mod_eq_divide; [lia|assumption]. }
  assert (Hrb : ~ (r | b)).
  { intros Hd. assert (Hd' : (r | b ^ p)).
    { replace p with (Z.succ (p - 1)) by lia. rewrite Z.pow_succ_r by lia.
      apply Z.divide_mul_l. assumption. }
    apply Zdivide_mod in Hd'. lia. }
  pose proof (fermat r b Hr Hrb) as Hf.
  assert (Hrp : rel_prime p (r - 1)).
  { apply prime_rel_prime; assumption. }
  apply rel_prime_bezout in Hrp. destruct Hrp as [u v Huv].
  (* make the exponents non-negative *)
  set (k := Z.abs u + Z.abs v).
  assert (E : (u + k * (r - 1)) * p = 1 + (k * p - v) * (r - 1)).
  { replace ((u + k * (r - 1)) * p) with (u * p + v * (r - 1) + (k * p - v) * (r - 1)) by ring.
    rewrite Huv. ring. }
  assert (Hk : 0 <= k) by (unfold k; lia).
  assert (Hu : 0 <= u + k * (r - 1)).
  { assert (k * 1 <= k * (r - 1)) by (apply Z.mul_le_mono_nonneg_l; lia). unfold k in *; lia. }
  assert (Hv : 0 <= k * p - v).
  { assert (k * 1 <= k * p) by (apply Z.mul_le_mono_nonneg_l; lia). unfold k in *; lia. }
  assert (Hw : 0 <= (k * p - v) * (r - 1)) by (apply Z.mul_nonneg_nonneg; lia).
  clearbody k.
  apply Hb1. apply mod_eq_divide; [lia|].
  assert (H1 : (b ^ ((u + k * (r - 1)) * p)) mod r = 1).
  { rewrite Z.mul_comm, Z.pow_mul_r by lia. apply pow_mod_one; lia. }
  rewrite E in H1. rewrite Z.pow_add_r, Z.pow_1_r in H1 by lia.
  rewrite (Z.mul_comm (k * p - v)), Z.pow_mul_r in H1 by lia.
  rewrite <- Zmult_mod_idemp_r in H1.
  rewrite (pow_mod_one (b ^ (r - 1))) in H1 by lia.
  rewrite Z.mul_1_r in H1. rewrite H1, Zmod_1_l by lia. reflexivity.
Qed.

Lemma prime_divisor n : 1 < n -> exists r, prime r /\ (r | n).
Proof.
  intros Hn. assert (H0 : 0 <= n) by lia. revert Hn. revert n H0.
  apply (Z_lt_induction (fun n => 1 < n -> exists r, prime r /\ (r | n))).
  intros n IH Hn. destruct (prime_dec n) as [Hp|Hp].
  - exists n. split; [assumption|apply Z.divide_refl].
  - apply not_prime_divide in Hp; [|assumption]. destruct Hp as (d & Hd & Hdn).
    destruct (IH d) as (r & Hr & Hrd); [lia|lia|].
    exists r. split; [assumption|]. eapply Z.divide_trans; eassumption.
Qed.

(** If all prime divisors exceed the square root, the number is prime. *)
Lemma prime_by_large_divisors N :
  1 < N -> (forall r, prime r -> (r | N) -> N < r * r) -> prime N.
Proof.
  intros HN H. destruct (prime_dec N) as [|Hp]; [assumption|exfalso].
  apply not_prime_divide in Hp; [|assumption]. destruct Hp as (d & Hd & [e He]).
  assert (He1 : 1 < e) by nia.
  destruct (prime_divisor d) as (r & Hr & Hrd); [lia|].
  destruct (prime_divisor e) as (s & Hs & Hse); [lia|].
  assert (N < r * r).
  { apply H; [assumption|]. rewrite He. apply Z.divide_mul_r. assumption. }
  assert (N < s * s).
  { apply H; [assumption|]. rewrite He. apply Z.divide_mul_l. assumption. }
  pose proof (prime_ge_2 r Hr). pose proof (prime_ge_2 s Hs).
  apply Z.divide_pos_le in Hrd; [|lia]. apply Z.divide_pos_le in Hse; [|lia].
  assert (r * s <= N) by (rewrite He; nia). nia.
Qed.

Lemma pocklington1 N p R a :
  prime p -> 1 < N -> 0 < R -> N - 1 = p * R -> N < p * p ->
  pow_mod a (N - 1) N = 1 -> Z.gcd (pow_mod a R N - 1) N = 1 -> prime N.
Proof.
  intros Hp HN HR HNR Hbig H1 H2. rewrite pow_mod_correct in H1, H2 by lia.
  apply prime_by_large_divisors; [assumption|]. intros r Hr HrN.
  pose proof (pocklington_div N p R a r Hp HN HR HNR H1 H2 Hr HrN) as Hd.
  pose proof (prime_ge_2 r Hr). pose proof (prime_ge_2 p Hp).
  apply Z.divide_pos_le in Hd; [|lia]. nia.
Qed.

Lemma pocklington2 N p1 p2 R1 R2 a1 a2 :
  prime p1 -> prime p2 -> p1 <> p2 -> 1 < N -> 0 < R1 -> 0 < R2 ->
  N - 1 = p1 * R1 -> N - 1 = p2 * R2 -> N < (p1 * p2) * (p1 * p2) ->
  pow_mod a1 (N - 1) N = 1 -> Z.gcd (pow_mod a1 R1 N - 1) N = 1 ->
  pow_mod a2 (N - 1) N = 1 -> Z.gcd (pow_mod a2 R2 N - 1) N = 1 -> prime N.
Proof.
  intros Hp1 Hp2 Hne HN HR1 HR2 HNR1 HNR2 Hbig H1 H2 H3 H4.
  rewrite pow_mod_correct in H1, H2, H3, H4 by lia.
  apply prime_by_large_divisors; [assumption|]. intros r Hr HrN.
  pose proof (pocklington_div N p1 R1 a1 r Hp1 HN HR1 HNR1 H1 H2 Hr HrN) as [k1 Hk1].
  pose proof (pocklington_div N p2 R2 a2 r Hp2 HN HR2 HNR2 H3 H4 Hr HrN) as Hd2.
  pose proof (prime_ge_2 r Hr). pose proof (prime_ge_2 p1 Hp1). pose proof (prime_ge_2 p2 Hp2).
  rewrite Hk1 in Hd2. apply prime_mult in Hd2; [|assumption].
  destruct Hd2 as [[k Hk]|Hd2].
  - assert (r - 1 = k * (p1 * p2)) by (rewrite Hk1, Hk; ring).
    assert (1 <= k) by nia. set (F := p1 * p2) in *.
    assert (Hf : 1 * F <= k * F) by (apply Z.mul_le_mono_nonneg_r; [unfold F; apply Z.mul_nonneg_nonneg|]; lia).
    assert (F < r) by lia. assert (0 <= F) by (unfold F; apply Z.mul_nonneg_nonneg; lia).
    eapply Z.lt_trans; [exact Hbig|]. apply Z.mul_lt_mono_nonneg; lia.
  - exfalso. apply Hne. symmetry. apply prime_div_prime; assumption.
Qed.

(** Trial division for the small primes. *)
Fixpoint no_div (fuel : nat) (d n : Z) : bool :=
  match fuel with
  | O => true
  | S f => negb (n mod d =? 0) && no_div f (d + 1) n
  end.

Lemma no_div_spec fuel d n : 0 < d -> no_div fuel d n = true ->
  forall x, d <= x < d + Z.of_nat fuel -> ~ (x | n).
Proof.
  revert d. induction fuel as [|f IH]; intros d Hd H x Hx; [lia|].
  cbn [no_div] in H. apply andb_prop in H. destruct H as [H1 H2].
  destruct (Z.eq_dec x d) as [->|Hne].
  - intros Hdiv. apply Zdivide_mod in Hdiv. rewrite Hdiv in H1. discriminate.
  - apply (IH (d + 1)); [lia|assumption|lia].
Qed.

Lemma trial_prime n fuel :
  1 < n -> n < (2 + Z.of_nat fuel) * (2 + Z.of_nat fuel) -> no_div fuel 2 n = true -> prime n.
Proof.
  intros Hn Hf H. apply prime_by_large_divisors; [assumption|].
  intros r Hr Hrn. pose proof (prime_ge_2 r Hr).
  destruct (Z_lt_le_dec r (2 + Z.of_nat fuel)).
  - exfalso. revert Hrn. apply (no_div_spec fuel 2 n); [lia|assumption|lia].
  - nia.
Qed.
