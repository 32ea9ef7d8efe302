(** Property C91: what a Noise session says about itself. *)
From Coq Require Import ZArith List Bool.
From Coq.Strings Require Import Byte.
From Verif Require Import Bytes Res Mem XkModel XkSpec XkSession XkExamples XkStatusSpec XkStatus XkStatusExamples.
Import ListNotations.
Open Scope list_scope.
Open Scope Z_scope.

(** After any requests to a new session: unless it is dead, the status is "transport" once three
    messages were exchanged, and before that tells whether this side writes or reads the next one.  A
    session that died in the handshake reports the status it had when it was created. *)
Theorem C91_status : forall X init d pid e d' s0 ops s trc,
  creates X init d pid e = Some (d', s0) -> Forall gop_ok ops -> grun X ops s0 = (s, trc) ->
  (~ dead X s -> session_get_status s =
     if (3 <=? exchanged trc)%nat then Transport_status else if writes init (exchanged trc) then Handshake_write else Handshake_read)
  /\ (dead X s -> (exchanged trc < 3)%nat -> session_get_status s = if init then Handshake_write else Handshake_read).
Proof. exact session_status. Qed.
Print Assumptions C91_status.

(** The maximum of security is reported when the handshake is over and, by the side that wrote the last
    message of the handshake, only once the other side has shown that it finished as well: the
    initiator has received a second message. *)
Theorem C91_max_security : forall X init d pid e d' s0 ops s trc,
  creates X init d pid e = Some (d', s0) -> Forall gop_ok ops -> grun X ops s0 = (s, trc) ->
  (session_reached_max_security s = true <-> in_transport s /\ (init = true -> 2 <= zlen (received trc))).
Proof. exact max_security. Qed.
Print Assumptions C91_max_security.

(** The length announced for the next message: payload and overhead of its position; refused exactly
    for the payloads that do not fit. *)
Theorem C91_next_length : forall X init d pid e d' s0 ops s trc len,
  creates X init d pid e = Some (d', s0) -> Forall gop_ok ops -> grun X ops s0 = (s, trc) -> ~ dead X s -> 0 <= len ->
  session_compute_next_message_len s len = if len <=? longest (exchanged trc) then Some (len + message_overhead (exchanged trc)) else None.
Proof. exact next_length. Qed.
Print Assumptions C91_next_length.
(** ... and a message that is then written has that length. *)
Theorem C91_next_length_true : forall X init d pid e d' s0 ops s trc m s' c, xprims_ok X -> zlen (d_spub d) = 32 ->
  creates X init d pid e = Some (d', s0) -> Forall gop_ok ops -> grun X ops s0 = (s, trc) ->
  zlen (em_msg m) < 2 ^ 32 -> gstep X (GWrite m) s = (s', RSuccess, GMessage c) ->
  session_compute_next_message_len s (zlen (em_msg m)) = Some (zlen c).
Proof. exact next_length_true. Qed.
Print Assumptions C91_next_length_true.

(** The sessions that a device creates, in any history of requests to it, are numbered 1, 2, 3, ...,
    all below 2^32; no request to a session changes its number. *)
Theorem C91_ids : forall X prologue info sk spriv d0 ops, device_create X prologue info sk spriv = Some d0 ->
  map session_get_id (sessions X ops d0) = map (fun k => 1 + Z.of_nat k) (seq 0 (length (sessions X ops d0)))
  /\ NoDup (map session_get_id (sessions X ops d0)) /\ Forall (fun i => 0 < i < 2 ^ 32) (map session_get_id (sessions X ops d0)).
Proof. exact ids. Qed.
Print Assumptions C91_ids.
Theorem C91_id_kept : forall X s ops s' trc, grun X ops s = (s', trc) -> session_get_id s' = session_get_id s.
Proof. exact id_kept. Qed.
Print Assumptions C91_id_kept.

Example C91_nonvacuous : exists d pid e d' s0, creates toyX true d pid e = Some (d', s0) /\
  (exists ops s trc, Forall gop_ok ops /\ grun toyX ops s0 = (s, trc) /\ ~ dead toyX s /\ exchanged trc = 5%nat /\ zlen (received trc) = 1
     /\ session_get_status s = Transport_status /\ session_reached_max_security s = false /\ session_compute_next_message_len s 100 = Some 116)
  /\ (exists ops s trc, Forall gop_ok ops /\ grun toyX ops s0 = (s, trc) /\ exchanged trc = 6%nat /\ zlen (received trc) = 2 /\ session_reached_max_security s = true).
Proof. exact C91_example. Qed.
Example C91_waiting_nonvacuous : exists d e d' s0 ops s trc, creates toyX false d 0 e = Some (d', s0) /\ Forall gop_ok ops /\ grun toyX ops s0 = (s, trc)
  /\ ~ dead toyX s0 /\ dead toyX s /\ exchanged trc = 0%nat /\ session_get_status s0 = Handshake_read /\ session_get_status s = Handshake_read
  /\ session_compute_next_message_len s0 7 = Some 55.
Proof. exact C91_waiting_example. Qed.
Example C91_length_nonvacuous : exists d pid e d' s0 ops s trc m s' c, zlen (d_spub d) = 32 /\ creates toyX true d pid e = Some (d', s0) /\ Forall gop_ok ops
  /\ grun toyX ops s0 = (s, trc) /\ zlen (em_msg m) < 2 ^ 32 /\ gstep toyX (GWrite m) s = (s', RSuccess, GMessage c) /\ zlen (em_msg m) = 1 /\ zlen c = 65.
Proof. exact C91_length_example. Qed.
Example C91_ids_nonvacuous : exists prologue info sk spriv d0 ops, device_create toyX prologue info sk spriv = Some d0
  /\ map session_get_id (sessions toyX ops d0) = [1; 2; 3] /\ length ops = 6%nat.
Proof. exact C91_ids_example. Qed.
