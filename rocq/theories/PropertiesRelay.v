(** C101.  Somebody on the network of a session of honest parties.  Statements only; the vocabulary is in
    OutsiderSpec.v, RunSpec.v, ToprfSpec.v, TpSpec.v and SafeSpec.v. *)
From Coq Require Import ZArith List.
From Coq.Strings Require Import Byte.
From Verif Require Import PrimeL Bytes Res Mem Sodium ToprfModel ToprfSpec DkgModel DkgSpec WireModel WireSpec TpCrypto TpModel PeerModel TpRun TpSpec SafeSpec RunSpec OutsiderSpec.
From Verif Require Import TpExamples TpRunExamples RelayProofs RelayExamples.
Import ListNotations.
Open Scope list_scope.
Open Scope Z_scope.

(** C101 as one would like it: whoever is on the network, if a session of honest parties completes with
    no call reporting an error, they have not got the generated key.  This is not so: knowing only the
    public numbers of peers and threshold and keys of their own making, somebody ends up with the key of
    every such session that they are on the network of.  (The order of the quantifiers matters: [o] is
    fixed before the parties draw their keys and secrets.) *)
Theorem C101_network_kept_out_refuted : forall C n t (sk nsk : Z -> Z -> bytes) (rnd : bytes), crypto_ok C -> exists o, forall x w,
  honest C x w -> h_n C x = n -> h_t C x = t -> relay_keys C x w nsk -> ~ kept_out C x w o.
Proof. exact network_not_kept_out. Qed.
Print Assumptions C101_network_kept_out_refuted.

(** How far it fails: the trusted party and all peers finish with every return code 0, no cheater and no
    complaint is recorded, and the shares are those of the same session without anybody on the network. *)
Theorem C101_network_learns_key : forall C n t (sk nsk : Z -> Z -> bytes) (rnd : bytes), crypto_ok C -> exists o, forall x w,
  honest C x w -> h_n C x = n -> h_t C x = t -> relay_keys C x w nsk ->
  exists c msg0 r0 r h r',
    start_tp C (h_tp C x) (h_eps C x) n t (h_name C x) (h_msg0 C x) (h_sid C x) (h_sk C x) (h_now C x) = Ok (0, c, msg0) /\
    begin C x = Ok (Some r0) /\ meddled C w o 10 r0 (mkTraffic msg0 []) = Ok (Some (r, h)) /\
    tp_not_done (r_tp C r) = false /\ t_cheaters (r_tp C r) = [] /\ t_complaints (r_tp C r) = [] /\ r_net C r = [] /\
    zlen (r_peers C r) = n /\ Forall (fun p => peer_not_done C p = false /\ p_complaints C p = []) (r_peers C r) /\
    rounds C w 10 r0 = Ok (Some r') /\ map (p_share C) (r_peers C r) = map (p_share C) (r_peers C r') /\
    quorum t (map (p_share C) (r_peers C r)) (map (p_share C) (r_peers C r)) /\
    forall qs, quorum t (map (p_share C) (r_peers C r)) qs -> dkg_reconstruct qs = o_guess o h.
Proof. exact network_learns_key. Qed.
Print Assumptions C101_network_learns_key.

Example C101_nonvacuous : exists C x w rnsk, crypto_ok C /\ honest C x w /\ relay_keys C x w rnsk /\ h_n C x = 3 /\ h_t C x = 2.
Proof. exact C101_example. Qed.

(** What the transcript digests do achieve: if the message with a peer's digest reaches the trusted party
    as the peer wrote it, and the trusted party goes on, then that peer heard the start message and the
    broadcasts of the trusted party as they were sent, or the two transcripts are a collision of the hash. *)
Theorem C101_digest_arrived_partial : forall C
    c0 eps n t name buf sid sk now c1 msg0 com cmax enc chmax pks lt now2 calls outs e input out c' out'
    (p0 : peer C) peps plt pmsg0 pnow p1 ppks pnpks pouts0 pins pshares pxshares pcom pcmax pmymax pcalls pouts pe pout p' m i,
  crypto_ok C -> start_tp C c0 eps n t name buf sid sk now = Ok (0, c1, msg0) ->
  let c2 := tp_set_bufs c1 com cmax enc chmax pks lt now2 in
  tp_wf c2 -> tp_run C c2 calls = Ok outs -> Forall (fun o => fst (fst o) = 0) outs ->
  t_step (final c2 outs) = 8 -> is_u64 (e_s e 0) -> tp_next C e (final c2 outs) input out = Ok (0, c', out') ->
  start_peer C p0 peps plt pmsg0 pnow = Ok (0, p1) -> zlen msg0 = msg0_SIZE -> zlen pmsg0 = msg0_SIZE ->
  let p2 := peer_set_bufs C p1 ppks pnpks pouts0 pins pshares pxshares pcom pcmax pmymax in
  peer_fresh C p2 -> peer_run C p2 pcalls = Ok pouts -> Forall (fun o => fst (fst o) = 0) pouts ->
  p_step C (final p2 pouts) = 8 -> is_u64 (pe_s pe 0) -> peer_next C pe (final p2 pouts) [] pout = Ok (0, p', m) ->
  0 <= i < t_n (final c2 outs) -> rd input (i * msg19_SIZE) msg19_SIZE = Ok m ->
  (pmsg0 = msg0 /\ peer_heard C p2 pcalls pouts = tp_said c2 outs) \/
  (p_transcript C (final p2 pouts) <> t_transcript (final c2 outs) /\
   blake2b (cH C) 32 (p_transcript C (final p2 pouts)) = blake2b (cH C) 32 (t_transcript (final c2 outs))).
Proof. exact digest_arrived. Qed.
Print Assumptions C101_digest_arrived_partial.

Example C101_digest_nonvacuous : exists outs c' out' pouts p' m, crypto_ok toyC /\
  start_tp toyC d_blank 3600 3 2 [x70] (zeros (Z.to_nat msg0_SIZE)) tx_sid tx_sk tx_now = Ok (0, d_c1, d_msg0) /\ tp_wf (d_bufs d_c1) /\
  tp_run toyC (d_bufs d_c1) d_calls = Ok outs /\ Forall (fun o => fst (fst o) = 0) outs /\
  t_step (final (d_bufs d_c1) outs) = 8 /\ is_u64 (e_s (d_env_ 8) 0) /\
  tp_next toyC (d_env_ 8) (final (d_bufs d_c1) outs) d_net_7 (d_out_ d_tp_7) = Ok (0, c', out') /\
  start_peer toyC d_pblank 3600 (d_lt 1) d_msg0 (tx_now + 1) = Ok (0, d_p1 1) /\ zlen d_msg0 = msg0_SIZE /\
  peer_fresh toyC (d_pbufs (d_p1 1)) /\ peer_run toyC (d_pbufs (d_p1 1)) d_pcalls = Ok pouts /\ Forall (fun o => fst (fst o) = 0) pouts /\
  p_step toyC (final (d_pbufs (d_p1 1)) pouts) = 8 /\ is_u64 (pe_s (d_penv 1 8) 0) /\
  peer_next toyC (d_penv 1 8) (final (d_pbufs (d_p1 1)) pouts) [] (zeros 143) = Ok (0, p', m) /\
  0 <= 1 < t_n (final (d_bufs d_c1) outs) /\ rd d_net_7 (1 * msg19_SIZE) msg19_SIZE = Ok m.
Proof. exact C101_digest_example. Qed.

(** Somebody who only watches does not change the session. *)
Theorem C101_watched_unchanged : forall C w guess fuel r h,
  (do x <- meddled C w (watcher guess) fuel r h ;; Ok (option_map fst x)) = rounds C w fuel r.
Proof. exact watched. Qed.
Print Assumptions C101_watched_unchanged.
