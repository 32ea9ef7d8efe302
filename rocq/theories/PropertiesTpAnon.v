(** Property C94: the holders of the shares stay anonymous to each other. *)
From Coq Require Import ZArith List Bool.
From Coq.Strings Require Import Byte.
From Verif Require Import Bytes Res Mem Sodium WireModel TpCrypto TpModel PeerModel TpRun TpSpec RunSpec AnonSpec Anon AnonSession AnonExamples.
Import ListNotations.
Open Scope list_scope.
Open Scope Z_scope.

(** The trusted party.  Compare two histories from the start of the protocol, with arbitrary inputs,
    that differ in the long-term public keys the trusted party knows and in the peers' signatures
    under these keys, all of which are valid: every call ends in the same way, with the same return
    code, the same messages for the peers and the same list of cheaters. *)
Theorem C94_trusted_party : forall C l c e0 in0 out0 e1 in1 in1' out1 rest,
  t_step c = 0 -> same_announcements (t_n c) in1 in1' -> all_vouched C (t_lt c) (t_n c) in1 -> all_vouched C l (t_n c) in1' ->
  tp_run C (knowing l c) ((e0, in0, out0) :: (e1, in1', out1) :: rest) =
  in_result (knowing_all l) (tp_run C c ((e0, in0, out0) :: (e1, in1, out1) :: rest)).
Proof. exact tp_anonymous. Qed.
Print Assumptions C94_trusted_party.

Example C94_trusted_party_nonvacuous : exists C c l e0 in0 out0 e1 in1 in1' out1 rest outs,
  crypto_ok C /\ t_step c = 0 /\ t_n c = 3 /\ l <> t_lt c /\ in1 <> in1' /\ same_announcements (t_n c) in1 in1' /\
  all_vouched C (t_lt c) (t_n c) in1 /\ all_vouched C l (t_n c) in1' /\
  tp_run C c ((e0, in0, out0) :: (e1, in1, out1) :: rest) = Ok outs /\ map (fun o => fst (fst o)) outs = [0; 0; 0; 0; 0; 0; 0].
Proof. exact C94_tp_example. Qed.

(** A peer.  Whatever it is sent, the messages of a peer with another long-term key [k] differ in the
    signature at the end of its first message only; if that message was sent, the states are the same
    from then on. *)
Theorem C94_peer : forall C, crypto_ok C -> forall c k e input out calls outs,
  p_step C c = 0 -> peer_run C c ((e, input, out) :: calls) = Ok outs ->
  exists ret c1 w c1' w' rest rest', outs = (ret, c1, w) :: rest /\
    peer_run C (holding C k c) ((e, input, out) :: calls) = Ok ((ret, c1', w') :: rest') /\
    map (fun o => fst (fst o)) rest' = map (fun o => fst (fst o)) rest /\ map snd rest' = map snd rest /\
    (ret = 0 -> exists m, zlen m = 175 /\ w = m ++ sig_sign (cS C) (p_lt_sk C c) m /\ w' = m ++ sig_sign (cS C) k m /\ c1' = c1 /\ rest' = rest) /\
    (ret <> 0 -> w' = w).
Proof. exact peer_anonymous. Qed.
Print Assumptions C94_peer.

Example C94_peer_nonvacuous : exists C (c : peer C) k e input out calls outs, crypto_ok C /\ p_step C c = 0 /\ p_lt_sk C c <> k /\
  peer_run C c ((e, input, out) :: calls) = Ok outs /\ (7 <= length outs)%nat /\ fst (fst (hd (1, c, []) outs)) = 0.
Proof. exact C94_peer_example. Qed.

(** The session.  Give all peers other long-term keys and tell the trusted party their public parts: the
    session starts as well, and from the second round on the states of all peers, the messages under way
    and the state of the trusted party are the same, except for the list of long-term keys. *)
Theorem C94_session : forall C, crypto_ok C -> forall x l w r0, begin C x = Ok (Some r0) ->
  exists r0', begin C (signing_with C l x) = Ok (Some r0') /\
  forall k, (2 <= k)%nat -> rounds C w k r0' =
    in_result (option_map (run_knowing C (map (fun i => sig_pk (cS C) (l i)) (zrange 0 (Z.to_nat (h_n C x)))))) (rounds C w k r0).
Proof. exact session_anonymous. Qed.
Print Assumptions C94_session.

Example C94_session_nonvacuous : exists C x w l r0 r, crypto_ok C /\ begin C x = Ok (Some r0) /\ h_n C x = 3 /\
  (forall i, 0 <= i < 3 -> sig_pk (cS C) (l i) <> sig_pk (cS C) (h_lt C x i)) /\
  rounds C w 10 r0 = Ok (Some r) /\ tp_not_done (r_tp C r) = false.
Proof. exact C94_session_example. Qed.
