(** Property theorems C24-C28 and C40: the message layer of src/tp-dkg.c.
    Vocabulary: WireSpec.v (header, message, fields, encode, fresh, checks, first_failing) and
    WireHistory.v (arrival, recv_history, accepted). *)
From Coq Require Import ZArith Lia List Bool Sorting.Sorted.
From Coq.Strings Require Import Byte.
From Verif Require Import Bytes Res Mem Sodium WireModel WireSpec WireHistory WireProofs WireExamples.
Import ListNotations.
Open Scope list_scope.
Open Scope Z_scope.

(** C24.  The sender fills the header in front of the body it has put into its output buffer;
    the resulting bytes are signature, header and that body, nothing else changes, and the
    addressee accepts them and records the time stamp. *)
Theorem C24_sent_message_accepted : forall S buf off len msgno from to sk sid now,
  sigs_ok S -> 0 <= off -> 111 <= len < 2 ^ 32 -> off + len <= zlen buf ->
  is_byte msgno -> is_byte from -> is_byte to -> zlen sid = 32 -> is_u64 now ->
  exists buf' sig body, send_msg S buf off len msgno from to sk sid now = Ok buf' /\
    rd buf (off + 111) (len - 111) = Ok body /\
    rd buf' off len = Ok (message sig (header msgno len from to now sid) body) /\
    (forall o k, o + k <= off \/ off + len <= o -> rd buf' o k = rd buf o k) /\
    forall window recorded now', fresh window recorded now now' ->
      recv_msg S buf' off len msgno from to (sig_pk S sk) sid window recorded now' = Ok (0, now).
Proof. exact sent_accepted. Qed.
Print Assumptions C24_sent_message_accepted.

Example C24_nonvacuous : exists S (buf : bytes) off len msgno from to (sid : bytes) now,
  sigs_ok S /\ 0 <= off /\ 111 <= len < 2 ^ 32 /\ off + len <= zlen buf /\
  is_byte msgno /\ is_byte from /\ is_byte to /\ zlen sid = 32 /\ is_u64 now /\ fresh 3600 0 now (now + 5) /\ 0 < off /\ 111 < len.
Proof. exact C24_example. Qed.

(** C25.  Every byte string [m] of the expected length is the encoding of some fields; it is
    accepted exactly if all checks hold, and otherwise the code names the first that fails. *)
Theorem C25_acceptance_checks : forall S buf off len m msgno from to pk sid window recorded now,
  rd buf off len = Ok m -> 111 <= len ->
  exists f r recorded', fields_ok f /\ encode f = m /\
    recv_msg S buf off len msgno from to pk sid window recorded now = Ok (r, recorded') /\
    (r = 0 <-> all_hold (checks S f len msgno from to pk sid window recorded now)) /\
    (r <> 0 -> first_failing (checks S f len msgno from to pk sid window recorded now) r) /\
    (r = 0 -> recorded' = f_ts f).
Proof. exact recv_checks. Qed.
Print Assumptions C25_acceptance_checks.

(** C25, the fields of a byte string are determined by it. *)
Theorem C25_fields_unique : forall f g, fields_ok f -> fields_ok g -> encode f = encode g -> f = g.
Proof. exact encode_inj. Qed.
Print Assumptions C25_fields_unique.

Example C25_nonvacuous : exists m, rd m 0 113 = Ok m /\ ex_recv m 3600 0 1700000000 = Ok (0, 1700000000) /\
  ex_recv (ex_forged [x00; x00] 1700000000) 3600 0 1700000000 = Ok (6, 1700000000).
Proof. exact C25_example. Qed.

(** C26 is false: two messages with one signature and different bodies are both accepted. *)
Theorem C26_bodies_authenticated_refuted : exists S sk sig hd body body' last',
  sigs_ok S /\ body <> body' /\
  recv_msg S (message sig hd body) 0 113 9 2 255 (sig_pk S sk) ex_sid 3600 0 1700000000 = Ok (0, last') /\
  recv_msg S (message sig hd body') 0 113 9 2 255 (sig_pk S sk) ex_sid 3600 0 1700000000 = Ok (0, last').
Proof. exact C26_refutation. Qed.
Print Assumptions C26_bodies_authenticated_refuted.

(** C26, exactly: the body never influences the receive check. *)
Theorem C26_body_not_covered : forall S sig hd body body' pre post len msgno from to pk sid window recorded now,
  zlen sig = 64 -> zlen hd = 47 -> zlen body' = zlen body -> len = 111 + zlen body ->
  recv_msg S (pre ++ message sig hd body' ++ post) (zlen pre) len msgno from to pk sid window recorded now =
  recv_msg S (pre ++ message sig hd body ++ post) (zlen pre) len msgno from to pk sid window recorded now.
Proof. exact body_not_covered. Qed.
Print Assumptions C26_body_not_covered.

Example C26_nonvacuous : exists sig hd body body' : bytes,
  zlen sig = 64 /\ zlen hd = 47 /\ zlen body' = zlen body /\ body <> body' /\ 113 = 111 + zlen body.
Proof. exact C26_example. Qed.

(** C26, the part that holds: if only headers in [signed] verify under pk (the key's owner
    signed them), then the header of an accepted message is one of them.
    Missing for C26: the body. *)
Theorem C26_header_authenticated_partial :
  forall S (signed : bytes -> Prop) buf off len m msgno from to pk sid window recorded now recorded',
  (forall h s, sig_verify S pk h s = true -> signed h) ->
  rd buf off len = Ok m -> 111 <= len ->
  recv_msg S buf off len msgno from to pk sid window recorded now = Ok (0, recorded') ->
  exists sig body, m = message sig (header msgno len from to recorded' sid) body /\ zlen sig = 64 /\
    signed (header msgno len from to recorded' sid).
Proof. exact header_authenticated. Qed.
Print Assumptions C26_header_authenticated_partial.

Example C26_partial_nonvacuous : exists S (signed : bytes -> Prop) m,
  (forall h s, sig_verify S ex_pk h s = true -> signed h) /\ rd m 0 113 = Ok m /\
  recv_msg S m 0 113 9 2 255 ex_pk ex_sid 3600 0 1700000000 = Ok (0, 1700000000) /\
  ~ signed (header 9 113 3 255 1700000000 ex_sid).
Proof. exact C26_partial_example. Qed.

(** C27.  The accepted time stamps of one sender never decrease, whatever arrives. *)
Theorem C27_accepted_timestamps_sorted : forall S window l recorded outs,
  0 <= recorded -> Forall arrival_ok l -> recv_history S window recorded l = Ok outs ->
  StronglySorted Z.le (accepted outs).
Proof. exact history_sorted. Qed.
Print Assumptions C27_accepted_timestamps_sorted.

(** C27 is false in its second half: a forged (rejected) message in between lets consecutive
    accepted time stamps differ by more than the window. *)
Theorem C27_consecutive_within_window_refuted : exists S window l outs a b,
  sigs_ok S /\ 0 < window /\ Forall arrival_ok l /\ recv_history S window 0 l = Ok outs /\
  accepted outs = [a; b] /\ 0 < a /\ window < b - a.
Proof. exact C27_refutation. Qed.
Print Assumptions C27_consecutive_within_window_refuted.

(** C27, second half, when no message fails only in its signature.
    Missing: histories with such messages, and time stamp 0. *)
Theorem C27_consecutive_within_window_partial : forall S window l, 0 <= window -> forall recorded outs,
  0 <= recorded -> Forall arrival_ok l -> recv_history S window recorded l = Ok outs ->
  Forall (fun o => fst o <> 6) outs -> Forall (fun ts => 0 < ts) (accepted outs) ->
  forall l1 a b l2, accepted outs = l1 ++ a :: b :: l2 -> b - a <= window.
Proof. exact history_window. Qed.
Print Assumptions C27_consecutive_within_window_partial.

Example C27_nonvacuous : exists outs, recv_history toyS 3600 0 ex_hist = Ok outs /\ Forall arrival_ok ex_hist /\
  accepted outs = [1700000000; 1700003600] /\ Forall (fun o => fst o <> 6) outs /\ Forall (fun ts => 0 < ts) (accepted outs).
Proof. exact C27_example. Qed.

(** C28 is false: a message with a forged signature is rejected with code 6 but changes the
    recorded time stamp, so that a genuine message is rejected as too old. *)
Theorem C28_rejected_leaves_state_refuted : exists S window forged genuine recorded',
  sigs_ok S /\
  let recv := fun m recorded => recv_msg S m 0 113 9 2 255 ex_pk ex_sid window recorded 1700000000 in
  recv forged 1700000000 = Ok (6, recorded') /\ recorded' <> 1700000000 /\
  recv genuine 1700000000 = Ok (0, 1700000010) /\ recv genuine recorded' = Ok (5, recorded').
Proof. exact C28_refutation. Qed.
Print Assumptions C28_rejected_leaves_state_refuted.

(** C28, exactly: the recorded time stamp becomes the message's when the code is 0 or 6
    (signature), and stays as it was for every other rejection. *)
Theorem C28_recorded_timestamp : forall S buf off len m msgno from to pk sid window recorded now r recorded',
  rd buf off len = Ok m -> 111 <= len ->
  recv_msg S buf off len msgno from to pk sid window recorded now = Ok (r, recorded') ->
  recorded' = if (r =? 0) || (r =? 6) then of_be (firstn 8 (skipn 71 m)) else recorded.
Proof. exact recorded_after. Qed.
Print Assumptions C28_recorded_timestamp.

Example C28_nonvacuous : exists m r, rd m 0 113 = Ok m /\ ex_recv m 3600 1700000000 1700000000 = Ok (r, 1700000000) /\ r = 5.
Proof. exact C28_example. Qed.

(** C40.  Sequences of messages that are absorbed as the same byte string are equal.  The
    length is absorbed as 32 bits, so messages are shorter than 2^32. *)
Theorem C40_transcript_unambiguous : forall t ms1 ms2,
  Forall (fun m => zlen m < 2 ^ 32) ms1 -> Forall (fun m => zlen m < 2 ^ 32) ms2 ->
  fold_left update_transcript ms1 t = fold_left update_transcript ms2 t -> ms1 = ms2.
Proof. exact transcript_unambiguous. Qed.
Print Assumptions C40_transcript_unambiguous.

Example C40_nonvacuous : exists ms1 ms2 : list bytes,
  Forall (fun m => zlen m < 2 ^ 32) ms1 /\ Forall (fun m => zlen m < 2 ^ 32) ms2 /\ concat ms1 = concat ms2 /\ ms1 <> ms2.
Proof. exact C40_example. Qed.
