(** Property theorems C65 to C72: the Noise XK library (src/noise_xk).  Vocabulary: XkSpec.v. *)
From Coq Require Import ZArith Lia List Bool.
From Coq.Strings Require Import Byte.
From Verif Require Import Bytes Res Mem XkModel XkSpec XkProofs XkChannel XkSession XkRegistry XkNonces XkExamples.
Import ListNotations.
Open Scope list_scope.
Open Scope Z_scope.

(** C65.  Whatever is asked of a session, in whatever order, its answers are those of the Noise XK
    pattern as the Noise specification defines it. *)
Theorem C65_initiator_conforms : forall X, xprims_ok X -> forall d pid e d' s peer ops,
  lookup_peer_by_id d pid = Some peer -> session_create_initiator X d pid e = Some (d', s) -> Forall op_ok ops ->
  answers (mstep X) ops s
  = answers (nstep X) ops (NHandshake (Initialize X true (d_prologue d) (d_spriv d, d_spub d) (e, x_base X e) (Some (p_s peer)))).
Proof. exact initiator_conforms. Qed.
Print Assumptions C65_initiator_conforms.
Theorem C65_responder_conforms : forall X, xprims_ok X -> forall d e d' s ops,
  session_create_responder X d e = Some (d', s) -> Forall op_ok ops ->
  answers (mstep X) ops s
  = answers (nstep X) ops (NHandshake (Initialize X false (d_prologue d) (d_spriv d, d_spub d) (e, x_base X e) None)).
Proof. exact responder_conforms. Qed.
Print Assumptions C65_responder_conforms.
Example C65_nonvacuous : exists d pid e d' s peer ops, lookup_peer_by_id d pid = Some peer /\ session_create_initiator toyX d pid e = Some (d', s) /\ Forall op_ok ops
  /\ answers (mstep toyX) ops s = [None; Some m1; None; Some [x02; x02]; Some m3; Some m4; Some (session_get_hash a3)].
Proof. exact C65_witness. Qed.
Example C65_responder_nonvacuous : exists d e d' s ops, session_create_responder toyX d e = Some (d', s) /\ Forall op_ok ops
  /\ answers (mstep toyX) ops s = [Some [x01]; Some m2; Some []; None; Some [x04]; Some (session_get_hash a3)].
Proof. exact C65_responder_witness. Qed.
Example C65_primitives : xprims_ok toyX.
Proof. exact toyX_ok. Qed.

(** C66.  Two devices that know each other complete the handshake, receive the payloads of all three
    messages and the same handshake hash, and from then on have two reliable streams of messages. *)
Theorem C66_honest_channel : forall X, xprims_ok X -> forall di dr pid peer entry ei er di' dr' si sr p1 p2 p3,
  honest_pair X di dr pid peer entry ->
  session_create_initiator X di pid ei = Some (di', si) ->
  session_create_responder X dr er = Some (dr', sr) ->
  zlen p1 <= 4294967215 -> zlen p2 <= 4294967215 -> zlen p3 <= 4294967215 ->
  exists m1 m2 m3 si1 si2 si3 sr1 sr2 sr3,
    session_write X (pack_message_with_conf_level 0 p1) si = (si1, RSuccess, Some m1)
    /\ session_read X dr sr m1 = (sr1, RSuccess, Some (mkEncap (Auth_level 0) p1))
    /\ session_write X (pack_message_with_conf_level 0 p2) sr1 = (sr2, RSuccess, Some m2)
    /\ session_read X di si1 m2 = (si2, RSuccess, Some (mkEncap (Auth_level 2) p2))
    /\ session_write X (pack_message_with_conf_level 0 p3) si2 = (si3, RSuccess, Some m3)
    /\ session_read X dr sr2 m3 = (sr3, RSuccess, Some (mkEncap (Auth_level 2) p3))
    /\ in_transport si3 /\ in_transport sr3
    /\ session_get_peer_id si3 = pid /\ session_get_peer_id sr3 = p_id entry
    /\ session_get_hash si3 = session_get_hash sr3
    /\ forall es, zlen es <= 2 ^ 64 - 1 -> Forall (fun e => zlen (payload_of e) <= 4294967279) es ->
         channel X es di dr si3 sr3 [] [] = queues es [] [].
Proof. exact honest_channel. Qed.
Print Assumptions C66_honest_channel.
Example C66_nonvacuous : exists di dr pid peer entry ei er di' dr' si sr,
  honest_pair toyX di dr pid peer entry /\ session_create_initiator toyX di pid ei = Some (di', si) /\ session_create_responder toyX dr er = Some (dr', sr)
  /\ queues [Send true [x01]; Send false [x02]; Send true [x03]; Deliver false; Deliver true; Deliver true; Deliver false] [] []
     = [Some [x01]; Some [x02]; None; Some [x03]].
Proof. exact C66_witness. Qed.

(** C67.  A responder names a peer only after the handshake, and then the entry of the registry whose
    key the third message carried, authenticated; an initiator always names the peer it was created for. *)
Theorem C67_responder_identity : forall X d e d' s0 ops s trc,
  session_create_responder X d e = Some (d', s0) -> Forall gop_ok ops -> grun X ops s0 = (s, trc) ->
  (~ in_transport s -> session_get_peer_id s = 0 /\ session_get_peer_info s = None)
  /\ (in_transport s -> exists dev input out q k h key,
        In (GRead dev input, RSuccess, out) trc /\ 48 <= zlen input /\ In q (d_peers dev) /\ session_get_peer_id s = p_id q /\ (p_id q <> 0 -> session_get_peer_info s = Some (p_info q))
        /\ x_open X k (nonce12 1) h (firstn 48 input) = Some key /\ lookup_peer_by_static dev key = Some q).
Proof. exact responder_identity. Qed.
Print Assumptions C67_responder_identity.
Theorem C67_initiator_identity : forall X d pid e d' s0 peer ops s trc,
  lookup_peer_by_id d pid = Some peer -> session_create_initiator X d pid e = Some (d', s0) -> grun X ops s0 = (s, trc) ->
  session_get_peer_id s = pid /\ session_get_peer_info s = Some (p_info peer).
Proof. exact initiator_identity. Qed.
Print Assumptions C67_initiator_identity.
Example C67_nonvacuous : exists d e d' s0 ops s trc, session_create_responder toyX d e = Some (d', s0) /\ Forall gop_ok ops /\ grun toyX ops s0 = (s, trc)
  /\ in_transport s /\ session_get_peer_id s = 2 /\ zlen (d_peers d) = 3.
Proof. exact C67_witness. Qed.
Example C67_unknown_initiator : exists e d' s0, session_create_responder toyX d_c e = Some (d', s0)
  /\ codes (snd (grun toyX [GRead d_c m1; GWrite (pack_message_with_conf_level 1 [x02; x02]); GRead d_c m3] s0))
     = [(RSuccess, [x01]); (RSuccess, m2); (RStuck CRs_rejected_by_policy, [])].
Proof. exact C67_unknown_refused. Qed.
Example C67_forged_key : exists s trc, x_base toyX (d_spriv d_e) <> d_spub d_e /\ session_create_responder toyX d_b e_b = Some (count_session d_b, s_b)
  /\ grun toyX [GRead d_b e1; GWrite (pack_message []); GRead d_b e3] s_b = (s, trc)
  /\ codes trc = [(RSuccess, []); (RSuccess, e2); (RStuck CDecrypt_error, [])]
  /\ lookup_peer_by_static d_b (d_spub d_e) = Some (mkXpeer 2 [x41] (pub k_a)) /\ s_pinfo s = [x41] /\ session_get_peer_info s = None.
Proof. exact C67_forged. Qed.

(** C68.  Full statement: a request that comes out of turn is refused and does no harm.  False for
    sending. *)
Theorem C68_out_of_turn_refuted : exists s m s', session_of toyX s /\ ~ dead toyX s /\ session_get_status s = Handshake_read /\ zlen (em_msg m) = 1
  /\ gstep toyX (GWrite m) s = (s', RStuck CIncorrect_transition, GNothing) /\ dead toyX s'.
Proof. exact C68_refuted_witness. Qed.
Print Assumptions C68_out_of_turn_refuted.
(** What each return code means. *)
Theorem C68_outcomes : forall X s o s' c r, gop_ok o -> gstep X o s = (s', c, r) ->
  (forall e, c = RError e -> s' = s /\ r = GNothing)
  /\ (forall e, c = RStuck e -> dead X s' /\ r = GNothing)
  /\ (c = RSuccess -> r <> GNothing)
  /\ (in_transport s -> in_transport s' /\ forall e, c <> RStuck e).
Proof. exact error_outcomes. Qed.
Print Assumptions C68_outcomes.
(** What can end a session. *)
Theorem C68_causes : forall X s, session_of X s ->
  dead X s \/ (forall o s' c r, gop_ok o -> gstep X o s = (s', c, r) -> forall e, c = RStuck e ->
    match o with
    | GWrite _ => session_get_status s = Handshake_read /\ e = CIncorrect_transition \/ e = CDH_error
    | GRead _ _ => e = CDH_error \/ e = CDecrypt_error \/ e = CRs_rejected_by_policy \/ (e = CInput_size /\ oversized o)
    end).
Proof. exact dead_or_alive. Qed.
Print Assumptions C68_causes.
Theorem C68_read_out_of_turn_partial : forall X s d i, ~ dead X s -> session_get_status s = Handshake_write -> gop_ok (GRead d i) ->
  gstep X (GRead d i) s = (s, RError CIncorrect_transition, GNothing).
Proof. exact read_out_of_turn. Qed.
Print Assumptions C68_read_out_of_turn_partial.
Theorem C68_write_out_of_turn : forall X s m, session_of X s -> ~ dead X s -> session_get_status s = Handshake_read ->
  zlen (em_msg m) <= 4294967215 -> em_msg m = [] \/ em_level m = Conf_level 0 ->
  exists s', gstep X (GWrite m) s = (s', RStuck CIncorrect_transition, GNothing) /\ dead X s'.
Proof. exact write_out_of_turn. Qed.
Print Assumptions C68_write_out_of_turn.
Example C68_nonvacuous : exists s o s' e r, session_of toyX s /\ gop_ok o /\ gstep toyX o s = (s', RStuck e, r) /\ e = CDecrypt_error.
Proof. exact C68_stuck_witness. Qed.
Example C68_harmless_nonvacuous : exists s o e, session_of toyX s /\ gop_ok o /\ in_transport s /\ gstep toyX o s = (s, RError e, GNothing) /\ e = CDecrypt_error.
Proof. exact C68_error_witness. Qed.

(** C69.  After the handshake the k-th message sent and the k-th received use nonce k, for k below
    2^64 - 1; then sending is refused. *)
Theorem C69_nonces : forall X d pid e d' s0 ops s trc,
  session_create_responder X d e = Some (d', s0) \/ session_create_initiator X d pid e = Some (d', s0) ->
  Forall gop_ok ops -> grun X ops s0 = (s, trc) -> in_transport s ->
  exists send_key recv_key,
    (forall k p c, nth_error (skipn (if s_init s then 2 else 1) (sent trc)) k = Some (p, c) ->
       Z.of_nat k < 2 ^ 64 - 1 /\ c = x_seal X send_key (nonce12 (Z.of_nat k)) [] p)
    /\ (forall k p c, nth_error (skipn (if s_init s then 1 else 2) (received trc)) k = Some (p, c) ->
       Z.of_nat k < 2 ^ 64 - 1 /\ x_open X recv_key (nonce12 (Z.of_nat k)) [] c = Some p)
    /\ (zlen (skipn (if s_init s then 2 else 1) (sent trc)) = 2 ^ 64 - 1 -> forall p, zlen p <= 4294967279 ->
       gstep X (GWrite (pack_message p)) s = (s, RError CSaturated_nonce, GNothing)).
Proof. exact nonces_of_session. Qed.
Print Assumptions C69_nonces.
Theorem C69_nonces_differ : forall i j, 0 <= i < 2 ^ 64 -> 0 <= j < 2 ^ 64 -> nonce12 i = nonce12 j -> i = j.
Proof. exact nonce12_inj. Qed.
Print Assumptions C69_nonces_differ.
(** Requests that fail, such as damaged, repeated or reordered messages, leave no trace: the
    others have the same effect and results without them. *)
Theorem C69_failures_leave_no_trace : forall X ops s s' trc, in_transport s -> Forall gop_ok ops -> grun X ops s = (s', trc) ->
  grun X (map (fun e => fst (fst e)) (filter succeeded trc)) s = (s', filter succeeded trc).
Proof. exact failures_leave_no_trace. Qed.
Print Assumptions C69_failures_leave_no_trace.
Example C69_nonvacuous : exists d pid e d' s0 ops s trc, session_create_initiator toyX d pid e = Some (d', s0) /\ Forall gop_ok ops /\ grun toyX ops s0 = (s, trc)
  /\ in_transport s /\ skipn 2 (sent trc) = [([x04], m4); ([x05; x05], m5)].
Proof. exact C69_witness. Qed.
Example C69_damaged_nonvacuous : exists s ops s' trc, in_transport s /\ Forall gop_ok ops /\ grun toyX ops s = (s', trc)
  /\ map (fun e => succeeded e) trc = [false; true; false; true].
Proof. exact C69_damaged_witness. Qed.

(** C70.  The registry of peers after any history of additions, restorations, removals and sessions. *)
Theorem C70_registry : forall X, xprims_ok X -> forall prologue info sk spriv d0 ops d tr,
  device_create X prologue info sk spriv = Some d0 -> Forall rop_ok ops -> rrun X ops d0 = (d, tr) ->
  (forall i p, lookup_peer_by_id d i = Some p <-> live tr p /\ p_id p = i)
  /\ (forall key p, zlen key = 32 -> lookup_peer_by_static d key = Some p <-> live tr p /\ p_s p = key)
  /\ ids_of tr = map Z.of_nat (seq 1 (length (ids_of tr)))
  /\ (forall name key, zlen key = 32 ->
        (device_add_peer d name key = None <-> (exists p, live tr p /\ p_s p = key) \/ zlen (ids_of tr) = 2 ^ 32 - 2)
        /\ (forall d' p, device_add_peer d name key = Some (d', p) -> p = mkXpeer (1 + zlen (ids_of tr)) name key)).
Proof. exact registry. Qed.
Print Assumptions C70_registry.
Example C70_nonvacuous : exists prologue info sk spriv d0 ops d tr,
  device_create toyX prologue info sk spriv = Some d0 /\ Forall rop_ok ops /\ rrun toyX ops d0 = (d, tr)
  /\ map (fun e => match snd e with Some p => p_id p | None => 0 end) tr = [1; 2; 0; 0; 0; 0; 3; 0]
  /\ map p_id (d_peers d) = [3; 2] /\ lookup_peer_by_static d (pub k_c) = Some (mkXpeer 3 [x45] (pub k_c)).
Proof. exact C70_witness. Qed.
Example C70_add_nonvacuous : exists d name key d' p, device_of toyX d /\ zlen key = 32 /\ device_add_peer d name key = Some (d', p) /\ p_id p = 4.
Proof. exact C70_add_witness. Qed.

(** C71.  A device or peer that was stored encrypted is restored as it was; what is restored was
    sealed under the device's key for the same name. *)
Theorem C71_device_roundtrip : forall X, xprims_ok X -> forall d n8 prologue, zlen n8 = 8 -> zlen (d_spriv d) = 32 -> d_spub d = x_base X (d_spriv d) ->
  zlen (serialize_device_secret X d n8) = 56
  /\ device_create_from_secret X prologue (d_info d) (d_sk d) (serialize_device_secret X d n8)
     = device_create X prologue (d_info d) (d_sk d) (d_spriv d).
Proof. exact device_secret_roundtrip. Qed.
Print Assumptions C71_device_roundtrip.
Theorem C71_peer_roundtrip : forall X, xprims_ok X -> forall d d2 p n8, zlen n8 = 8 -> zlen (p_s p) = 32 -> d_sk d2 = d_sk d ->
  zlen (serialize_peer_secret X d p n8) = 56
  /\ deserialize_peer_secret X d2 (p_info p) (serialize_peer_secret X d p n8) = device_add_peer d2 (p_info p) (p_s p).
Proof. exact peer_secret_roundtrip. Qed.
Print Assumptions C71_peer_roundtrip.
Theorem C71_restored_is_authentic : forall X d name blob d' p, deserialize_peer_secret X d name blob = Some (d', p) ->
  zlen blob = 56 /\ p_info p = name /\ exists key, x_open X (d_sk d) (nonce12 (bytes_to_nonce blob)) name (skipn 8 blob) = Some key /\ p_s p = key.
Proof. exact restored_is_authentic. Qed.
Print Assumptions C71_restored_is_authentic.
Example C71_nonvacuous : zlen n8 = 8 /\ zlen (d_spriv d_a) = 32 /\ d_spub d_a = x_base toyX (d_spriv d_a)
  /\ (exists p, In p (d_peers d_a) /\ zlen (p_s p) = 32
       /\ device_add_peer (dev k_c) (p_info p) (p_s p) = Some (with_peers k_c [(p_info p, p_s p)], mkXpeer 1 (p_info p) (p_s p)))
  /\ device_create_from_secret toyX [] [x44] (le_bytes 32 5) (bad (serialize_device_secret toyX d_a n8)) = None.
Proof. exact C71_witness. Qed.

(** C72.  Lengths and security levels of messages; what is sent under which level, and what a receiver
    that asks for a level gets. *)
Theorem C72_lengths_and_levels : forall X, xprims_ok X -> forall d pid e d' s0 ops s trc, zlen (d_spub d) = 32 ->
  session_create_responder X d e = Some (d', s0) \/ session_create_initiator X d pid e = Some (d', s0) ->
  Forall gop_ok ops -> grun X ops s0 = (s, trc) ->
  forall n ev, nth_error trc n = Some ev -> good (index trc n) ev.
Proof. exact levels_and_lengths. Qed.
Print Assumptions C72_lengths_and_levels.
Theorem C72_send_rule : forall X, xprims_ok X -> forall d pid e d' s0 ops s trc m r, zlen (d_spub d) = 32 ->
  session_create_responder X d e = Some (d', s0) \/ session_create_initiator X d pid e = Some (d', s0) ->
  Forall gop_ok ops -> grun X ops s0 = (s, trc) -> ~ dead X s ->
  em_level m = Conf_level r -> em_msg m <> [] -> zlen (em_msg m) <= 4294967215 ->
  let provided := snd (payload_security (length (filter succeeded trc))) in
  (~ conf_met r provided -> gstep X (GWrite m) s = (s, RError CSecurity_level, GNothing))
  /\ (conf_met r provided -> gstep X (GWrite m) s = gstep X (GWrite (mkEncap (Conf_level 0) (em_msg m))) s).
Proof. exact level_rule. Qed.
Print Assumptions C72_send_rule.
Theorem C72_receive_rule : forall r e p, unpack_message_with_auth_level r e = Some p <->
  p = em_msg e /\ (p = [] \/ exists l, em_level e = Auth_level l /\ r <= l).
Proof. exact unpack_rule. Qed.
Print Assumptions C72_receive_rule.
Example C72_nonvacuous : gstep toyX (GWrite (pack_message_with_conf_level 1 [x01])) s_a = (s_a, RError CSecurity_level, GNothing)
  /\ gstep toyX (GWrite (pack_message_with_conf_level 3 [x01])) s_a = (s_a, RError CSecurity_level, GNothing)
  /\ snd (gstep toyX (GWrite (pack_message_with_conf_level 2 [x01])) s_a) = GMessage m1
  /\ snd (gstep toyX (GWrite (pack_message_with_conf_level 1 [x02; x02])) b1) = GMessage m2
  /\ gstep toyX (GWrite (pack_message_with_conf_level 2 [x02; x02])) b1 = (b1, RError CSecurity_level, GNothing).
Proof. exact C72_witness. Qed.
Example C72_lengths_nonvacuous : exists d pid e d' s0 ops s trc, zlen (d_spub d) = 32 /\ session_create_initiator toyX d pid e = Some (d', s0)
  /\ Forall gop_ok ops /\ grun toyX ops s0 = (s, trc) /\ length (filter succeeded trc) = 5%nat /\ ~ dead toyX s.
Proof. exact C72_lengths_witness. Qed.
