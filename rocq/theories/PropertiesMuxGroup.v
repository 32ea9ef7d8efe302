(** Property C92: a conversation with a group of peers (python/pyoprf/multiplexer.py). *)
From Coq Require Import ZArith List Bool.
From Coq.Strings Require Import Byte.
From Verif Require Import Bytes Res Mem MuxModel MuxSpec MuxGroupSpec MuxGroup MuxGroupExamples.
Import ListNotations.
Open Scope list_scope.
Open Scope Z_scope.

(** connect; any number of rounds, each a request to all peers and the answers of all; close.  If no call
    raises, every peer was sent all requests, in order and once each; its answers are, in order, what its own
    connection delivered; it was authenticated exactly if no certificate file was given; afterwards every
    connection is closed. *)
Theorem C92_conversation : forall l env ps1 rs outs ps2 i ty cert up strm,
  length env = length l -> mux_connect env (new_peers l) = (true, ps1) -> talk rs ps1 outs ps2 ->
  Forall (fun r => length (rd_up r) = length l /\ zlen l <= g_n (rd_call r)) rs ->
  nth_error l i = Some (ty, cert) -> nth_error env i = Some (up, strm) ->
  ty = SSL /\ exists p os c, nth_error ps2 i = Some p /\ m_out p = concat (map rd_msg rs) /\ m_auth p = negb cert
    /\ Forall2 (fun out o => nth_error out i = Some o) outs os /\ wire strm = concat (map said os) ++ bytes_of p
    /\ nth_error (mux_close ps2) i = Some c /\ m_state c = Closed /\ m_fd c = ShutFd /\ m_out c = m_out p.
Proof. exact conversation. Qed.
Print Assumptions C92_conversation.

(** connect stops at the first peer that raises: those before it are connected, with their own streams,
    that one and those after it are not; it raises exactly if there is such a peer, and only because the
    connection failed, the type is not SSL, or the peer is connected already. *)
Theorem C92_connect_in_order : forall env ps ok ps', length env = length ps -> mux_connect env ps = (ok, ps') ->
  length ps' = length ps /\ exists k, (k <= length ps)%nat /\ (ok = true <-> k = length ps) /\
  forall i p up strm, nth_error ps i = Some p -> nth_error env i = Some (up, strm) -> exists p', nth_error ps' i = Some p' /\
    ((i < k)%nat -> (up = true /\ m_type p = SSL /\ is_connected p = false)
       /\ is_connected p' = true /\ m_fd p' = OpenFd /\ m_auth p' = negb (m_cert p) /\ bytes_of p' = wire strm /\ m_out p' = [])
    /\ (i = k -> (up = false \/ m_type p <> SSL \/ is_connected p = true) /\ m_state p' = m_state p)
    /\ ((k < i)%nat -> p' = p).
Proof. exact connect_in_order. Qed.
Print Assumptions C92_connect_in_order.

(** broadcast likewise: a prefix of the peers, all of them exactly if it does not raise, was sent the
    message once, behind what was sent before; the others were sent nothing. *)
Theorem C92_broadcast_in_order : forall env msg ps ok ps', length env = length ps -> mux_broadcast env msg ps = (ok, ps') ->
  length ps' = length ps /\ exists k, (k <= length ps)%nat /\ (ok = true <-> k = length ps) /\
  forall i p up, nth_error ps i = Some p -> nth_error env i = Some up -> exists p', nth_error ps' i = Some p' /\
    m_state p' = m_state p /\ m_fd p' = m_fd p /\ m_auth p' = m_auth p /\ bytes_of p' = bytes_of p
    /\ ((i < k)%nat -> up = true /\ m_fd p = OpenFd /\ m_out p' = m_out p ++ msg)
    /\ (i = k -> (up = false \/ m_fd p <> OpenFd) /\ p' = p)
    /\ ((k < i)%nat -> p' = p).
Proof. exact broadcast_in_order. Qed.
Print Assumptions C92_broadcast_in_order.

Example C92_nonvacuous : exists l env ps1 rs outs ps2, length env = length l /\ mux_connect env (new_peers l) = (true, ps1) /\ talk rs ps1 outs ps2
  /\ Forall (fun r => length (rd_up r) = length l /\ zlen l <= g_n (rd_call r)) rs /\ zlen l = 3
  /\ outs = [[Some [x01; x02]; Some [x11; x12]; Some [x21; x22]]; [Some [x03; x04]; Some [x13; x14]; Some [x23; x24]]]
  /\ map m_out ps2 = [[x61; x62; x63]; [x61; x62; x63]; [x61; x62; x63]].
Proof. exact C92_example. Qed.
Example C92_broadcast_nonvacuous : exists env msg ps ps', length env = length ps /\ zlen ps = 3 /\ mux_broadcast env msg ps = (false, ps') /\ map m_out ps' = [msg; []; []] /\ msg = [x61].
Proof. exact C92_partial_example. Qed.
Example C92_connect_nonvacuous : exists env ps ps', length env = length ps /\ zlen ps = 3 /\ mux_connect env ps = (false, ps') /\ map is_connected ps' = [true; false; false].
Proof. exact C92_connect_example. Qed.
