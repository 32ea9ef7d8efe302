(** C74 to C76: the Noise functions of the Python package (PyNoiseSpec.v says what the words mean). *)
From Coq Require Import ZArith List.
From Coq.Strings Require Import Byte.
From Verif Require Import Bytes Mem PyModel XkModel XkSpec XkExamples PyNoise PyNoiseSpec PyNoiseProofs PyNoiseUse PyNoiseExamples.
Import ListNotations.
Open Scope Z_scope.

(** ** C74 *)
Theorem C74_session_delivers_partial : forall X, xprims_ok X -> forall a b pa pb ea eb iname rname name dsti dstr auth,
  zlen a = 32 -> zlen b = 32 -> py_pubkey X a = Ret pa -> py_pubkey X b = Ret pb ->
  arg_ok (arg_of iname default_iname) -> arg_ok (arg_of rname default_rname) -> arg_ok (arg_of name default_rname) ->
  arg_ok (arg_of dsti default_dst) -> arg_ok (arg_of dstr default_dst) ->
  prologue_of (arg_of dsti default_dst) = prologue_of (arg_of dstr default_dst) ->
  Forall (fun kn => zlen (fst kn) = 32 /\ arg_ok (snd kn)) auth -> zlen auth < 2 ^ 32 - 2 -> In pa (map fst auth) ->
  exists si m1 sr m2 si',
    py_initiator_session X clear a pb iname rname dsti ea = Ret (si, m1)
    /\ py_responder_session X clear b auth m1 dstr name eb = Ret (sr, m2)
    /\ py_initiator_session_complete X clear si m2 = (si', Ret tt)
    /\ forall es, zlen es <= 2 ^ 64 - 1 -> Forall (fun e => zlen (payload_of e) <= 4294967215) es -> responder_waits es false ->
         py_channel X clear es si' sr [] [] = Some (queues es [] []).
Proof. exact python_session_delivers. Qed.
Print Assumptions C74_session_delivers_partial.
Example C74_nonvacuous :
  zlen k_a = 32 /\ zlen k_b = 32 /\ py_pubkey toyX k_a = Ret (pub k_a) /\ py_pubkey toyX k_b = Ret (pub k_b)
  /\ arg_ok default_iname /\ arg_ok default_rname /\ arg_ok default_dst /\ arg_ok (n_v 49)
  /\ Forall (fun kn => zlen (fst kn) = 32 /\ arg_ok (snd kn)) n_auth /\ zlen n_auth < 2 ^ 32 - 2 /\ In (pub k_a) (map fst n_auth)
  /\ zlen n_es <= 2 ^ 64 - 1 /\ Forall (fun e => zlen (payload_of e) <= 4294967215) n_es /\ responder_waits n_es false.
Proof. exact n_hypotheses. Qed.

Theorem C74_responder_first_refuted : exists X a b auth ea eb si m1 sr m2 si', xprims_ok X /\ In (x_base X a) (map fst auth)
  /\ py_initiator_session X clear a (x_base X b) None None None ea = Ret (si, m1)
  /\ py_responder_session X clear b auth m1 None None eb = Ret (sr, m2)
  /\ py_initiator_session_complete X clear si m2 = (si', Ret tt)
  /\ (exists p, snd (py_send X clear sr p) = Raise
        /\ exists q si'' c, py_send X clear si' q = (si'', Ret c) /\ snd (py_recv X clear sr c) = Ret q
             /\ snd (py_recv X clear (fst (py_send X clear sr p)) c) = Raise).
Proof. exact responder_first. Qed.
Print Assumptions C74_responder_first_refuted.

Theorem C74_prologue_refuted : exists X a b auth ea eb v w si m1 sr m2 si', xprims_ok X /\ In (x_base X a) (map fst auth) /\ v <> w
  /\ py_initiator_session X clear a (x_base X b) None None (Some (PStr v)) ea = Ret (si, m1)
  /\ py_responder_session X clear b auth m1 (Some (PStr w)) None eb = Ret (sr, m2)
  /\ py_initiator_session_complete X clear si m2 = (si', Ret tt)
  /\ exists p si'' c sr'', py_send X clear si' p = (si'', Ret c) /\ py_recv X clear sr c = (sr'', Ret p).
Proof. exact prologue_differs. Qed.
Print Assumptions C74_prologue_refuted.

Theorem C74_abi_refuted : exists X J a b e, xprims_ok X /\ junk_ok J /\ zlen a = 32 /\ zlen b = 32
  /\ py_initiator_session X J a (x_base X b) None None None e = Raise
  /\ exists ps m, py_initiator_session X clear a (x_base X b) None None None e = Ret (ps, m).
Proof. exact abi_raises. Qed.
Print Assumptions C74_abi_refuted.

(** a long message is cut without an error *)
Theorem C74_long_message_refuted : forall X J ps p, 2 ^ 32 <= zlen p < 2 ^ 63 ->
  exists p', zlen p' < zlen p /\ py_send X J ps p = py_send X J ps p'.
Proof. exact send_truncates. Qed.
Print Assumptions C74_long_message_refuted.

(** after the handshake, a call that raises changes nothing *)
Theorem C74_failure_keeps_session : forall X o d s, pyop_len o < 2 ^ 32 -> in_transport s ->
  snd (pystep X clear o (d, Some s)) = Raise -> fst (pystep X clear o (d, Some s)) = (d, Some s).
Proof. exact failure_keeps. Qed.
Print Assumptions C74_failure_keeps_session.
Example C74_failure_nonvacuous : exists d s, fst (py_recv toyX clear (fst n_r) (of_py [] (snd (py_send toyX clear n_i2 n_p1)))) = (d, Some s)
  /\ in_transport s /\ snd (pystep toyX clear (PRecv [x00; x01]) (d, Some s)) = Raise.
Proof. exact n_failure. Qed.

(** ** C75 *)
Theorem C75_high_level_safe_partial : forall X J, junk_ok J ->
  (forall a rpub iname rname dst e, 31 <= zlen a -> 31 <= zlen rpub ->
     py_initiator_session X J a rpub iname rname dst e <> Bad
     /\ forall ps m ops, py_initiator_session X J a rpub iname rname dst e = Ret (ps, m) -> Forall (fun r => snd r <> Bad) (snd (pyrun X J ops ps)))
  /\ (forall b auth msg dst name e, 31 <= zlen b -> Forall (fun kn => 31 <= zlen (fst kn)) auth ->
     py_responder_session X J b auth msg dst name e <> Bad
     /\ forall ps m ops, py_responder_session X J b auth msg dst name e = Ret (ps, m) -> Forall (fun r => snd r <> Bad) (snd (pyrun X J ops ps))).
Proof. exact high_level_safe. Qed.
Print Assumptions C75_high_level_safe_partial.
Example C75_nonvacuous : junk_ok clear /\ 31 <= zlen k_b /\ Forall (fun kn => 31 <= zlen (fst kn)) n_auth
  /\ py_responder_session toyX clear k_b n_auth (snd n_i) None None e_b = Ret (fst n_r, snd n_r)
  /\ map (fun e => match snd e with Ret _ => true | _ => false end) (snd (pyrun toyX clear n_ops (fst n_r))) = [true; false; true].
Proof. exact n_safe. Qed.

Theorem C75_low_level_refuted :
  (exists X b auth m1 eb sr m2, xprims_ok X /\ py_responder_session X clear b auth m1 None None eb = Ret (sr, m2) /\ py_get_pubkey (snd sr) (fst sr) = Bad)
  /\ (exists X d d' e, xprims_ok X /\ py_create_device X default_dst default_iname e = Ret d /\ py_create_session_initiator X d 7 e = Ret (d', None)
        /\ snd (py_initiator_1st_msg X clear None) = Bad)
  /\ (exists X d d' p key, xprims_ok X /\ py_create_device X default_dst default_iname key = Ret d /\ py_add_peer d default_rname key = Ret (d', Some p)
        /\ py_add_peer d' default_rname key = Ret (d', None) /\ py_get_peerid None = Bad)
  /\ (exists X a b e, xprims_ok X /\ zlen a = 16 /\ py_initiator_session X clear a (x_base X b) None None None e = Bad).
Proof. exact low_level_undefined. Qed.
Print Assumptions C75_low_level_refuted.

(** ** C76 *)
Theorem C76_responder_knows_its_peer : forall X, xprims_ok X -> forall b auth msg dst name e ps m2 ops ps' tr,
  zlen b = 32 -> arg_ok (arg_of dst default_dst) -> arg_ok (arg_of name default_rname) ->
  Forall (fun kn => zlen (fst kn) = 32 /\ arg_ok (snd kn)) auth -> zlen auth < 2 ^ 32 - 2 ->
  py_responder_session X clear b auth msg dst name e = Ret (ps, m2) ->
  Forall (fun o => pyop_len o < 2 ^ 32) ops -> pyrun X clear ops ps = (ps', tr) ->
  (exists o p, In (o, Ret p) tr) ->
  exists k, py_get_pubkey (snd ps') (fst ps') = Ret k /\ In k (map fst auth)
    /\ exists c kk h, (In (PRecv c) ops \/ In (PComplete c) ops \/ c = msg) /\ x_open X kk (nonce12 1) h (firstn 48 c) = Some k.
Proof. exact responder_peer. Qed.
Print Assumptions C76_responder_knows_its_peer.
Example C76_nonvacuous : exists ps' tr, py_responder_session toyX clear k_b n_auth (snd n_i) None None e_b = Ret n_r
  /\ Forall (fun o => pyop_len o < 2 ^ 32) n_ops
  /\ pyrun toyX clear n_ops (fst n_r) = (ps', tr) /\ map (fun e => match snd e with Ret _ => true | _ => false end) tr = [true; false; true]
  /\ py_get_pubkey (snd ps') (fst ps') = Ret (pub k_a).
Proof. exact n_peer. Qed.
