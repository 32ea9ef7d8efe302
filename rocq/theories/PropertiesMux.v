(** Property theorems C59, C60 and C64: collecting the answers of several peers
    (python/pyoprf/multiplexer.py).  Vocabulary: MuxSpec.v. *)
From Coq Require Import ZArith Lia List Bool.
From Coq.Strings Require Import Byte.
From Verif Require Import Bytes Res Mem MuxModel MuxSpec MuxProofs MuxExamples.
Import ListNotations.
Open Scope list_scope.
Open Scope Z_scope.

(** C59.  Full statement: entry i of what gather returns is peer i's answer to the current request,
    whatever the order in which the answers arrive.  False if the call is for fewer answers than there
    are peers: the answer of a peer that was late is taken for its answer to the next request. *)
Theorem C59_late_answer_refuted : exists gs ps out1 out2 ps' i p m, gathers gs ps [out1; out2] ps' /\ nth_error ps i = Some p /\
  nth_error out1 i = Some None /\ nth_error out2 i = Some (Some m) /\ zlen m = 2 /\ Forall (fun g => g_len g = 2) gs /\ exists rest, bytes_of p = m ++ rest /\ zlen rest = 2.
Proof. exact C59_stale_witness. Qed.
Print Assumptions C59_late_answer_refuted.

(** In any case each entry is made from the first messages not yet read of its own peer. *)
Theorem C59_own_stream : forall A (proc : bytes -> option A) len n pend sched ps out ps', gather A proc len n pend sched ps = (Got out, ps') ->
  length out = length ps /\ length ps' = length ps /\
  forall i p, nth_error ps i = Some p -> exists p' o, nth_error ps' i = Some p' /\ nth_error out i = Some o /\
    match o with
    | Some v => answers proc len (bytes_of p) v (bytes_of p')
    | None => reports_failure proc len (bytes_of p) (bytes_of p') \/ silent proc len (bytes_of p) (bytes_of p')
    end.
Proof. exact gather_sound. Qed.
Print Assumptions C59_own_stream.

(** Hence no order of arrival, no other peer and no number of answers asked for changes a value. *)
Theorem C59_same_value : forall A (proc : bytes -> option A) len n1 pend1 sched1 ps1 out1 ps1' n2 pend2 sched2 ps2 out2 ps2' i p1 p2 v1 v2,
  gather A proc len n1 pend1 sched1 ps1 = (Got out1, ps1') -> gather A proc len n2 pend2 sched2 ps2 = (Got out2, ps2') ->
  nth_error ps1 i = Some p1 -> nth_error ps2 i = Some p2 -> bytes_of p1 = bytes_of p2 ->
  nth_error out1 i = Some (Some v1) -> nth_error out2 i = Some (Some v2) -> v1 = v2.
Proof. exact gather_independent. Qed.
Print Assumptions C59_same_value.

Theorem C59_raw_messages : forall len n pend sched ps out ps', gather bytes raw len n pend sched ps = (Got out, ps') ->
  forall i p, nth_error ps i = Some p -> exists p' o, nth_error ps' i = Some p' /\ nth_error out i = Some o /\
    match o with
    | Some m => bytes_of p = m ++ bytes_of p' /\ m <> fail_pkt /\ (zlen m = len \/ zlen m < len /\ bytes_of p' = [])
    | None => bytes_of p = bytes_of p' \/ bytes_of p = fail_pkt ++ bytes_of p' /\ (len = 6 \/ 6 < len /\ bytes_of p' = [])
    end.
Proof. exact gather_raw. Qed.
Print Assumptions C59_raw_messages.

(** If every call is for the answers of all peers, the answers of a peer to successive requests are the
    successive messages of that peer, none lost and none repeated. *)
Theorem C59_in_order_partial : forall gs ps outs ps', gathers gs ps outs ps' -> Forall (fun g => zlen ps <= g_n g) gs ->
  forall i p, nth_error ps i = Some p -> exists p' os, nth_error ps' i = Some p' /\
    Forall2 (fun out o => nth_error out i = Some o) outs os /\ bytes_of p = concat (map said os) ++ bytes_of p'.
Proof. exact gathers_in_order. Qed.
Print Assumptions C59_in_order_partial.
Theorem C59_message_sizes : forall len n pend sched ps out ps', gather bytes raw len n pend sched ps = (Got out, ps') -> zlen ps <= n ->
  forall i p, nth_error ps i = Some p -> exists p' o, nth_error ps' i = Some p' /\ nth_error out i = Some o /\ bytes_of p = said o ++ bytes_of p' /\
    (zlen (said o) = len \/ zlen (said o) < len /\ bytes_of p' = []).
Proof. exact gather_all. Qed.
Print Assumptions C59_message_sizes.

Example C59_nonvacuous : exists gs ps outs ps', gathers gs ps outs ps' /\ Forall (fun g => zlen ps <= g_n g) gs /\ zlen ps = 3 /\
  outs = [[Some [x01; x02]; Some [x11; x12]; Some [x21; x22]]; [Some [x03; x04]; Some [x13; x14]; Some [x23; x24]]].
Proof. exact C59_order_example. Qed.
Example C59_proc_nonvacuous : exists n pend sched ps out ps', gather Z odd_proc 2 n pend sched ps = (Got out, ps') /\ n = 3 /\ out = [Some 1; Some 19; Some 33].
Proof. exact C59_proc_example. Qed.

(** C60.  Full statement: gather returns n answers of the expected length whenever n peers give them,
    whatever the other peers do.  False: *)
Theorem C60_short_answer_refuted : exists len n pend sched ps out ps' i, gather bytes raw len n pend sched ps = (Got out, ps') /\
  len = 2 /\ n = 2 /\ zlen ps = 3 /\ nth_error out i = Some (Some []).
Proof. exact C60_short_witness. Qed.
Print Assumptions C60_short_answer_refuted.
Theorem C60_failure_counts_refuted : exists len n pend sched ps out ps', gather bytes raw len n pend sched ps = (Got out, ps') /\
  n = 2 /\ zlen ps = 3 /\ zlen (filter (fun o => match o with Some _ => true | None => false end) out) = 1.
Proof. exact C60_fail_witness. Qed.
Print Assumptions C60_failure_counts_refuted.
Theorem C60_other_peer_refuted : exists len n pend sched ps ps', gather bytes raw len n pend sched ps = (Raised, ps') /\
  n = 2 /\ zlen ps = 3 /\ Exists (fun r => r 1 = true /\ r 2 = true) sched /\ (forall i p, (1 <= i)%nat -> nth_error ps i = Some p -> delivers len p).
Proof. exact C60_stall_witness. Qed.
Print Assumptions C60_other_peer_refuted.

(** What holds: n different peers answered or reported a failure, one of them with a value. *)
Theorem C60_enough_partial : forall A (proc : bytes -> option A) len n pend sched ps out ps', gather A proc len n pend sched ps = (Got out, ps') ->
  exists qs, NoDup qs /\ n <= Z.of_nat (length qs) /\
    (forall i, In i qs -> exists p p', nth_error ps i = Some p /\ nth_error ps' i = Some p' /\
       ((exists v, nth_error out i = Some (Some v)) \/ reports_failure proc len (bytes_of p) (bytes_of p'))) /\
    (1 <= n -> exists i v, nth_error out i = Some (Some v)).
Proof. exact gather_enough. Qed.
Print Assumptions C60_enough_partial.
(** A peer that is still connected afterwards gave a message of the expected length. *)
Theorem C60_full_if_connected : forall len n pend sched ps out ps' i p' m, gather bytes raw len n pend sched ps = (Got out, ps') ->
  nth_error out i = Some (Some m) -> nth_error ps' i = Some p' -> is_connected p' = true -> zlen m = len.
Proof. exact gather_short. Qed.
Print Assumptions C60_full_if_connected.
(** If n peers deliver and the others say nothing at all, the call returns. *)
Theorem C60_returns_partial : forall len, 0 < len -> forall (G : Z -> bool) n pend sched ps,
  (forall k p, nth_error ps k = Some p -> m_fd p <> NoFd /\
     (if G (Z.of_nat k) then delivers len p /\ (pend (Z.of_nat k) = len \/ Exists (fun r => r (Z.of_nat k) = true) sched)
      else pend (Z.of_nat k) <> len /\ Forall (fun r => r (Z.of_nat k) = false) sched)) ->
  n <= zlen (filter G (zrange 0 (length ps))) ->
  exists out ps', gather bytes raw len n pend sched ps = (Got out, ps').
Proof. exact gather_returns. Qed.
Print Assumptions C60_returns_partial.
Example C60_nonvacuous : exists len (G : Z -> bool) n pend sched ps, 0 < len /\ n = 2 /\ zlen ps = 3 /\
  (forall k p, nth_error ps k = Some p -> m_fd p <> NoFd /\
     (if G (Z.of_nat k) then delivers len p /\ (pend (Z.of_nat k) = len \/ Exists (fun r => r (Z.of_nat k) = true) sched)
      else pend (Z.of_nat k) <> len /\ Forall (fun r => r (Z.of_nat k) = false) sched)) /\
  n <= zlen (filter G (zrange 0 (length ps))).
Proof. exact C60_returns_example. Qed.

(** C64.  Full statement: a peer of either type can be connected; while it is, reads return the bytes it
    sends, in order, and the peer was authenticated.  False: *)
Theorem C64_tcp_refuted : forall cert cs rs p, pruns cs (new_peer TCP cert) = (rs, p) ->
  is_connected p = false /\ forall up strm, fst (m_connect up strm p) = false.
Proof. exact (fun cert cs rs p => never_tcp TCP cert cs rs p ltac:(discriminate)). Qed.
Print Assumptions C64_tcp_refuted.
Theorem C64_certificate_refuted : exists cs rs p, pruns cs (new_peer SSL true) = (rs, p) /\ is_connected p = true /\ m_auth p = false.
Proof. exact C64_cert_witness. Qed.
Print Assumptions C64_certificate_refuted.
Theorem C64_interrupted_read_refuted : exists cs rs p, pruns cs (new_peer SSL false) = (rs, p) /\
  cs = [PConnect true [Data [x01]; Stall; Data [x02; x03; x04]]; PRead 2; PRead 2] /\ rs = [Done true; Bytes None; Bytes (Some [x02; x03])].
Proof. exact C64_timeout_witness. Qed.
Print Assumptions C64_interrupted_read_refuted.

(** After any history a connected peer was authenticated exactly if no certificate file was given. *)
Theorem C64_authenticated_exactly : forall ty cert cs rs p, pruns cs (new_peer ty cert) = (rs, p) -> is_connected p = true -> ty = SSL /\ m_auth p = negb cert.
Proof. exact connected_auth. Qed.
Print Assumptions C64_authenticated_exactly.
Theorem C64_read_partial : forall ty cert cs rs p size b p1, pruns cs (new_peer ty cert) = (rs, p) -> m_read size p = (Some b, p1) ->
  is_connected p = true /\ m_fd p = OpenFd /\ ty = SSL /\ bytes_of p = b ++ bytes_of p1 /\ zlen b <= size /\ (is_connected p1 = true <-> zlen b = size).
Proof. exact read_connected. Qed.
Print Assumptions C64_read_partial.
Theorem C64_in_order_partial : forall cs p rs p1, pruns cs p = (rs, p1) -> undisturbed cs rs -> bytes_of p = got rs ++ bytes_of p1.
Proof. exact reads_in_order. Qed.
Print Assumptions C64_in_order_partial.
(** After close a peer delivers and takes nothing, and its socket is closed, until it is connected again.
    This is for a peer that was not in the state closed already; for one that was, close does nothing, and if
    a connect failed in between, the socket it opened stays open. *)
Theorem C64_close_partial : forall ty cert cs rs p, pruns cs (new_peer ty cert) = (rs, p) -> m_state p <> Closed ->
  forall cs' rs' p1, no_connect cs' -> pruns (PClose :: cs') p = (rs', p1) ->
  (exists rest, rs' = Done true :: rest /\ dead cs' rest) /\ m_state p1 = Closed /\ m_fd p1 <> OpenFd /\ m_out p1 = m_out p.
Proof. exact close_closes. Qed.
Print Assumptions C64_close_partial.
Theorem C64_close_refuted : exists ty cert cs rs p, pruns (cs ++ [PClose]) (new_peer ty cert) = (rs, p) /\ m_state p = Closed /\ m_fd p = OpenFd.
Proof. exact C64_leak_witness. Qed.
Print Assumptions C64_close_refuted.
Example C64_close_nonvacuous : exists ty cert cs rs p cs' rs' p1, pruns cs (new_peer ty cert) = (rs, p) /\ m_state p <> Closed /\ no_connect cs' /\
  pruns (PClose :: cs') p = (rs', p1) /\ In (PSend true [x01]) cs' /\ In (PRead 1) cs' /\ is_connected p = true /\ bytes_of p <> [].
Proof. exact C64_close_example. Qed.
Example C64_nonvacuous : exists cs rs p, pruns cs (new_peer SSL false) = (rs, p) /\ is_connected p = true /\
  rs = [Done true; Bytes (Some [x01; x02]); Done true; Bytes (Some [x03]); Bytes (Some [x04]); Bytes None; Done true; Bytes None; Done false; Done true; Done true; Bytes (Some [x05])].
Proof. exact C64_example. Qed.
Example C64_in_order_nonvacuous : exists cs p rs p1, pruns cs p = (rs, p1) /\ undisturbed cs rs /\ got rs = [x01; x02; x03; x04].
Proof. exact C64_order_example. Qed.
