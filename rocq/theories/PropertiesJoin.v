(** Property theorems C103: the sessions of the distributed key generation a peer joins.
    Vocabulary: JoinSpec.v (announces, renumbered), WireSpec.v (fresh), TpSpec.v (signed). *)
From Coq Require Import ZArith List.
From Coq.Strings Require Import Byte.
From Verif Require Import Bytes Res Mem Sodium WireModel WireSpec TpCrypto TpModel PeerModel TpSpec TpExamples TpRunExamples JoinSpec SafeSpec GoodSpec NetSpec.
From Verif Require Import Join JoinExamples Net NetExamples.
Import ListNotations.
Open Scope list_scope.
Open Scope Z_scope.

(** C103.  Full statement: a peer joins a session only once, only of the trusted party it means to
    work with, and with the numbers that party chose.  All three are false.  The peer that has just
    joined joins the same session again, with the same bytes: *)
Theorem C103_once_refuted : exists C (p : peer C) eps lt msg now p1 now2 p2, crypto_ok C /\ zlen msg = 177 /\
  start_peer C p eps lt msg now = Ok (0, p1) /\ now < now2 /\ start_peer C p1 eps lt msg now2 = Ok (0, p2) /\ p_sid C p2 = p_sid C p1.
Proof. exact C103_twice. Qed.
Print Assumptions C103_once_refuted.

(** two announcements of one session signed with different keys are both accepted: *)
Theorem C103_trusted_party_refuted : exists C (p : peer C) eps lt msg msg' now p1 p2, crypto_ok C /\ zlen msg = 177 /\ zlen msg' = 177 /\
  start_peer C p eps lt msg now = Ok (0, p1) /\ start_peer C p eps lt msg' now = Ok (0, p2) /\ p_sid C p1 = p_sid C p2 /\ p_tp_pk C p1 <> p_tp_pk C p2.
Proof. exact C103_two_parties. Qed.
Print Assumptions C103_trusted_party_refuted.

(** and the threshold can be lowered on the way: *)
Theorem C103_numbers_refuted : exists C c eps n t name buf sid sk now c' msg (p : peer C) lt p', crypto_ok C /\
  start_tp C c eps n t name buf sid sk now = Ok (0, c', msg) /\
  start_peer C p eps lt (renumbered msg n 2) now = Ok (0, p') /\ p_sid C p' = t_sid c' /\ p_tp_pk C p' = t_pk c' /\ p_t C p' < t_t c'.
Proof. exact C103_lowered. Qed.
Print Assumptions C103_numbers_refuted.

(** Exactly: a peer joins iff the message is an announcement whose header is signed with the key that
    the message itself contains, which is fresh by the peer's clock and whose numbers are in range ... *)
Theorem C103_joins_iff_partial : forall C (p : peer C) eps lt msg now, zlen msg = 177 ->
  ((exists p', start_peer C p eps lt msg now = Ok (0, p')) <->
   (exists pk sid ts n t, announces C msg pk sid ts n t /\ fresh eps 0 ts now /\ 2 <= t < n /\ n <= 128)).
Proof. exact joins_iff. Qed.
Print Assumptions C103_joins_iff_partial.

(** ... and then has the key, the session and the numbers of the message. *)
Theorem C103_joined_partial : forall C (p : peer C) eps lt msg now p', zlen msg = 177 -> start_peer C p eps lt msg now = Ok (0, p') ->
  announces C msg (p_tp_pk C p') (p_sid C p') (p_tp_last C p') (p_n C p') (p_t C p') /\
  fresh eps 0 (p_tp_last C p') now /\ 2 <= p_t C p' < p_n C p' /\ p_n C p' <= 128.
Proof. exact joined. Qed.
Print Assumptions C103_joined_partial.

Example C103_joins_nonvacuous : exists msg pk n t, announces toyC msg pk tx_sid tx_now n t /\ fresh 3600 0 tx_now (tx_now + 1) /\ 2 <= t < n /\ n <= 128.
Proof. exact C103_announces_example. Qed.

(** What the peer did before, in this context or another, makes no difference. *)
Theorem C103_nothing_remembered : forall C (p q : peer C) eps lt lt2 msg now r p', start_peer C p eps lt msg now = Ok (r, p') ->
  exists q', start_peer C q eps lt2 msg now = Ok (r, q') /\
    (r = 0 -> p_sid C q' = p_sid C p' /\ p_tp_pk C q' = p_tp_pk C p' /\ p_n C q' = p_n C p' /\ p_t C q' = p_t C p' /\ p_step C q' = 0 /\
      p_transcript C q' = p_transcript C p').
Proof. exact join_forgets. Qed.
Print Assumptions C103_nothing_remembered.

(** Whoever joined a session joins it again exactly as long as the announcement is fresh ... *)
Theorem C103_again_while_fresh : forall C (p : peer C) eps lt msg now p' now2, zlen msg = 177 -> start_peer C p eps lt msg now = Ok (0, p') ->
  (exists p2, start_peer C p' eps lt msg now2 = Ok (0, p2) /\ p_sid C p2 = p_sid C p' /\ p_tp_pk C p2 = p_tp_pk C p' /\ p_n C p2 = p_n C p' /\ p_t C p2 = p_t C p') <->
  fresh eps 0 (p_tp_last C p') now2.
Proof. exact join_again. Qed.
Print Assumptions C103_again_while_fresh.

(** ... so that, with clocks away from the ends of the 64-bit range, two joins of one announcement are
    at most two windows apart, on any peers. *)
Theorem C103_window_partial : forall C (p q : peer C) eps lt lt2 msg now now2 p' q', zlen msg = 177 ->
  0 <= eps <= now -> now + eps < 2 ^ 64 -> eps <= now2 -> now2 + eps < 2 ^ 64 ->
  start_peer C p eps lt msg now = Ok (0, p') -> start_peer C q eps lt2 msg now2 = Ok (0, q') -> Z.abs (now2 - now) <= 2 * eps.
Proof. exact join_window. Qed.
Print Assumptions C103_window_partial.

Example C103_window_nonvacuous : exists (p : peer toyC) lt msg now now2 p' q', zlen msg = 177 /\ 0 <= 3600 <= now /\ now + 3600 < 2 ^ 64 /\ 3600 <= now2 /\ now2 + 3600 < 2 ^ 64 /\
  start_peer toyC p 3600 lt msg now = Ok (0, p') /\ start_peer toyC p 3600 lt msg now2 = Ok (0, q') /\ now2 - now = 3600.
Proof. exact C103_window_example. Qed.

(** Whoever carries the announcement chooses the number of peers and the threshold freely. *)
Theorem C103_renumbered : forall C c eps n t name buf sid sk now c' msg p peps lt pnow n' t',
  crypto_ok C -> start_tp C c eps n t name buf sid sk now = Ok (0, c', msg) -> zlen sid = 32 -> is_u64 now -> fresh peps 0 now pnow ->
  2 <= t' < n' -> n' <= 128 ->
  exists p', start_peer C p peps lt (renumbered msg n' t') pnow = Ok (0, p') /\
    p_n C p' = n' /\ p_t C p' = t' /\ p_sid C p' = t_sid c' /\ p_tp_pk C p' = t_pk c'.
Proof. exact join_renumbered. Qed.
Print Assumptions C103_renumbered.

Example C103_renumbered_nonvacuous : exists c' msg, start_tp toyC d_blank 3600 5 3 [x70] (zeros (Z.to_nat msg0_SIZE)) tx_sid tx_sk tx_now = Ok (0, c', msg) /\
  zlen tx_sid = 32 /\ is_u64 tx_now /\ fresh 3600 0 tx_now (tx_now + 1) /\ renumbered msg 4 2 <> msg.
Proof. exact C103_renumbered_example. Qed.

(** But the lengths of later messages tell, and they are signed: if nobody forges the header of a message
    of the trusted party or of the peer, then a peer whose nine calls and the trusted party's all return 0
    had started with the trusted party's numbers, whatever was in the announcement that reached it. *)
Theorem C103_numbers_noticed_partial : forall C, crypto_ok C -> forall c calls outs k p pcalls pouts,
  done_well C c calls outs -> survived C head c calls outs (k, p, pcalls, pouts) -> p_n C p = t_n c /\ p_t C p = t_t c.
Proof. exact numbers_noticed. Qed.
Print Assumptions C103_numbers_noticed_partial.

Example C103_numbers_noticed_nonvacuous : exists C c calls outs (x : party C), crypto_ok C /\ done_well C c calls outs /\ survived C head c calls outs x /\ t_n c = 4 /\ t_t c = 2.
Proof. exact C103_noticed_example. Qed.
