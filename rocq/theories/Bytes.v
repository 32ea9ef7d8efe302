(** Byte strings, fixed width integers and their encodings.  This is the memory
    representation used by the model of /repo/src/*.c: a [uint8_t] is a [byte], a buffer
    is a [list byte], multi-byte integers are [Z] values reduced modulo 2^(8k).
    The host is little endian. *)
From Coq Require Import ZArith NArith Lia List Bool.
From Coq.Strings Require Import Byte.
From Verif Require Import Fq.
Import ListNotations.
Open Scope Z_scope.

Notation byte := Byte.byte.
Notation bytes := (list Byte.byte).

Definition bz (b : byte) : Z := Z.of_N (Byte.to_N b).
Definition zb (z : Z) : byte :=
  match Byte.of_N (Z.to_N (z mod 256)) with Some b => b | None => x00 end.

Lemma bz_range b : 0 <= bz b < 256.
Proof. unfold bz. pose proof (Byte.to_N_bounded b). lia. Qed.

Lemma zb_bz b : zb (bz b) = b.
Proof.
  unfold zb. pose proof (bz_range b). rewrite Z.mod_small by assumption.
  unfold bz. rewrite N2Z.id, Byte.of_to_N. reflexivity.
Qed.

Lemma bz_zb z : bz (zb z) = z mod 256.
Proof.
  unfold zb. assert (H : 0 <= z mod 256 < 256) by (apply Z.mod_pos_bound; lia).
  destruct (Byte.of_N (Z.to_N (z mod 256))) as [b|] eqn:E.
  - apply Byte.to_of_N in E. unfold bz. rewrite E. lia.
  - apply Byte.of_N_None_iff in E. lia.
Qed.

Lemma bz_inj a b : bz a = bz b -> a = b.
Proof. intros H. rewrite <- (zb_bz a), <- (zb_bz b), H. reflexivity. Qed.

Definition byte_eqb (a b : byte) : bool := Byte.eqb a b.
Lemma byte_eqb_eq a b : byte_eqb a b = true <-> a = b.
Proof.
  unfold byte_eqb. split.
  - apply Byte.byte_dec_bl.
  - intros ->. apply Byte.byte_dec_lb. reflexivity.
Qed.

Fixpoint bytes_eqb (a b : bytes) : bool :=
  match a, b with
  | [], [] => true
  | x :: a', y :: b' => byte_eqb x y && bytes_eqb a' b'
  | _, _ => false
  end.

Lemma bytes_eqb_eq a b : bytes_eqb a b = true <-> a = b.
Proof.
  revert b. induction a as [|x a IH]; intros [|y b]; cbn; try (split; congruence).
  rewrite andb_true_iff, byte_eqb_eq, IH. split.
  - intros [-> ->]. reflexivity.
  - intros H. inversion H. auto.
Qed.

Lemma bytes_eqb_refl a : bytes_eqb a a = true.
Proof. apply bytes_eqb_eq. reflexivity. Qed.

Lemma bytes_eqb_neq a b : bytes_eqb a b = false <-> a <> b.
Proof.
  destruct (bytes_eqb a b) eqn:E.
  - apply bytes_eqb_eq in E. split; congruence.
  - split; [|reflexivity]. intros _ H. apply bytes_eqb_eq in H. congruence.
Qed.

Lemma bytes_eq_dec (a b : bytes) : {a = b} + {a <> b}.
Proof. apply list_eq_dec. apply Byte.byte_eq_dec. Qed.

Definition zeros (n : nat) : bytes := repeat x00 n.

(** little endian *)
Fixpoint le_bytes (n : nat) (z : Z) : bytes :=
  match n with
  | O => []
  | S n' => zb z :: le_bytes n' (z / 256)
  end.

Fixpoint of_le (l : bytes) : Z :=
  match l with
  | [] => 0
  | b :: l' => bz b + 256 * of_le l'
  end.

(** big endian (network byte order: htons, htonl, htonll) *)
Definition be_bytes (n : nat) (z : Z) : bytes := rev (le_bytes n z).
Definition of_be (l : bytes) : Z := of_le (rev l).

Lemma le_bytes_length n z : length (le_bytes n z) = n.
Proof. revert z. induction n as [|n IH]; intros z; cbn; [reflexivity|]. rewrite IH. reflexivity. Qed.

Lemma be_bytes_length n z : length (be_bytes n z) = n.
Proof. unfold be_bytes. rewrite rev_length. apply le_bytes_length. Qed.

Lemma of_le_range l : 0 <= of_le l < 256 ^ Z.of_nat (length l).
Proof.
  induction l as [|b l IH]; cbn [of_le length].
  - cbn. lia.
  - rewrite Nat2Z.inj_succ, Z.pow_succ_r by lia. pose proof (bz_range b). lia.
Qed.

Lemma of_be_range l : 0 <= of_be l < 256 ^ Z.of_nat (length l).
Proof. unfold of_be. rewrite <- (rev_length l). apply of_le_range. Qed.

Lemma of_le_le_bytes n z : of_le (le_bytes n z) = z mod 256 ^ Z.of_nat n.
Proof.
  revert z. induction n as [|n IH]; intros z; cbn [le_bytes of_le].
  - cbn. rewrite Z.mod_1_r. reflexivity.
  - rewrite IH, bz_zb. rewrite Nat2Z.inj_succ, Z.pow_succ_r by lia.
    rewrite Z.rem_mul_r by (try apply Z.pow_pos_nonneg; lia). reflexivity.
Qed.

Lemma of_be_be_bytes n z : of_be (be_bytes n z) = z mod 256 ^ Z.of_nat n.
Proof. unfold of_be, be_bytes. rewrite rev_involutive. apply of_le_le_bytes. Qed.

Lemma le_bytes_of_le l : le_bytes (length l) (of_le l) = l.
Proof.
  induction l as [|b l IH]; cbn [length of_le le_bytes]; [reflexivity|].
  pose proof (bz_range b). f_equal.
  - rewrite <- (zb_bz b) at 2. unfold zb. do 3 f_equal.
    rewrite Z.mul_comm, Z_mod_plus_full. reflexivity.
  - rewrite Z.mul_comm, Z.div_add by lia.
    rewrite Z.div_small by assumption. exact IH.
Qed.

Lemma be_bytes_of_be l : be_bytes (length l) (of_be l) = l.
Proof.
  unfold be_bytes, of_be. rewrite <- (rev_length l), le_bytes_of_le. apply rev_involutive.
Qed.

Lemma le_bytes_inj n a b : 0 <= a < 256 ^ Z.of_nat n -> 0 <= b < 256 ^ Z.of_nat n ->
  le_bytes n a = le_bytes n b -> a = b.
Proof.
  intros Ha Hb H. apply (f_equal of_le) in H. rewrite !of_le_le_bytes in H.
  rewrite !Z.mod_small in H by assumption. assumption.
Qed.

Lemma be_bytes_inj n a b : 0 <= a < 256 ^ Z.of_nat n -> 0 <= b < 256 ^ Z.of_nat n ->
  be_bytes n a = be_bytes n b -> a = b.
Proof.
  intros Ha Hb H. apply (f_equal of_be) in H. rewrite !of_be_be_bytes in H.
  rewrite !Z.mod_small in H by assumption. assumption.
Qed.

Lemma of_le_inj a b : length a = length b -> of_le a = of_le b -> a = b.
Proof.
  intros Hl H. rewrite <- (le_bytes_of_le a), <- (le_bytes_of_le b), Hl, H. reflexivity.
Qed.

Lemma zeros_length n : length (zeros n) = n.
Proof. apply repeat_length. Qed.

Lemma of_le_zeros n : of_le (zeros n) = 0.
Proof. induction n as [|n IH]; cbn; [reflexivity|]. fold (zeros n). rewrite IH. reflexivity. Qed.

(** [sub l off n]: the n bytes at offset off, [None] when that leaves the buffer. *)
Definition sub {A} (l : list A) (off n : nat) : option (list A) :=
  if (off + n <=? length l)%nat then Some (firstn n (skipn off l)) else None.

Lemma sub_some {A} (l : list A) off n r :
  sub l off n = Some r -> (off + n <= length l)%nat /\ length r = n /\ r = firstn n (skipn off l).
Proof.
  unfold sub. destruct (Nat.leb_spec (off + n) (length l)) as [H|H]; [|discriminate].
  intros E. inversion E. subst. split; [assumption|]. split; [|reflexivity].
  rewrite firstn_length, skipn_length. lia.
Qed.

Lemma sub_in_range {A} (l : list A) off n :
  (off + n <= length l)%nat -> sub l off n = Some (firstn n (skipn off l)).
Proof. intros H. unfold sub. destruct (Nat.leb_spec (off + n) (length l)); [reflexivity|lia]. Qed.

Lemma sub_out {A} (l : list A) off n : (length l < off + n)%nat -> sub l off n = None.
Proof. intros H. unfold sub. destruct (Nat.leb_spec (off + n) (length l)); [lia|reflexivity]. Qed.

Lemma sub_app_l {A} (a b : list A) n : length a = n -> sub (a ++ b) 0 n = Some a.
Proof.
  intros <-. rewrite sub_in_range by (rewrite app_length; lia).
  cbn [skipn]. rewrite firstn_app, Nat.sub_diag, firstn_all, firstn_O, app_nil_r. reflexivity.
Qed.

Lemma sub_app_mid {A} (a b c : list A) off n :
  length a = off -> length b = n -> sub (a ++ b ++ c) off n = Some b.
Proof.
  intros <- <-. rewrite sub_in_range by (rewrite !app_length; lia).
  rewrite skipn_app, skipn_all, Nat.sub_diag. cbn [app skipn].
  rewrite firstn_app, Nat.sub_diag, firstn_all, firstn_O, app_nil_r. reflexivity.
Qed.

Lemma sub_all {A} (a : list A) : sub a 0 (length a) = Some a.
Proof. rewrite sub_in_range by lia. cbn [skipn]. rewrite firstn_all. reflexivity. Qed.

(** ASCII literals *)
Definition str (s : list byte) : bytes := s.
