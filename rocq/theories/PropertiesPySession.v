(** Property theorems C58: sessions of the distributed key generation driven from Python
    (python/pyoprf/__init__.py).  Vocabulary: PySpec.v, SafeSpec.v.  [al] says which allocations succeed,
    [Bad] is undefined behaviour, [Raise] an exception. *)
From Coq Require Import ZArith Lia List Bool.
From Coq.Strings Require Import Byte.
From Verif Require Import Bytes Res Mem Sodium WireModel WireSpec TpCrypto TpModel PeerModel TpSpec SafeSpec PyModel PySpec PySession TpExamples PySessionExamples.
Import ListNotations.
Open Scope list_scope.
Open Scope Z_scope.

(** C58.  Full statement: a started session is one for the n and t given, no call on it is ever
    undefined, and what a call raises leaves a usable or a finished session.  False: *)
Theorem C58_started_parameters_refuted : exists C al addr n t eps name lts sid sk now now' c msg, crypto_ok C /\
  py_start_tp C al addr n t eps name lts sid sk now now' = Ret (c, msg) /\ n = 258 /\ t_n c = 2.
Proof. exact C58_start_witness. Qed.
Print Assumptions C58_started_parameters_refuted.

Theorem C58_trusted_party_refuted : exists C al addr n t eps name lts sid sk now now' c0 msg0 calls outs c e msg, crypto_ok C /\
  py_start_tp C al addr n t eps name lts sid sk now now' = Ret (c0, msg0) /\
  2 <= n <= 128 /\ 2 <= t < n /\ zlen sid = 32 /\ 32 * n <= zlen (concat lts) /\
  Forall quiet calls /\ py_tp_run C c0 calls = Ret (outs, c) /\ Forall (fun o => o <> None) outs /\
  e_log e = false /\ py_tp_next C al e c msg = Bad.
Proof. exact C58_log_witness. Qed.
Print Assumptions C58_trusted_party_refuted.

Theorem C58_start_peer_refuted : exists C al addr eps sk msg0 now, crypto_ok C /\ zlen sk = 64 /\ py_start_peer C al addr eps sk msg0 now = Bad.
Proof. exact C58_short_witness. Qed.
Print Assumptions C58_start_peer_refuted.

Theorem C58_peer_message_refuted : exists c base peer m, tp_wf c /\ t_n c <= peer /\ py_tp_peer_msg c base peer = Ret m /\ zlen m = 111.
Proof. exact C58_slice_witness. Qed.
Print Assumptions C58_peer_message_refuted.

(** What holds.  The parameters are taken modulo 256, so between 0 and 255 they are the ones given; the
    session is then well formed, but has room for only t*t-1 reports of misbehaviour. *)
Theorem C58_started_parameters : forall C al addr n t eps name lts sid sk now now' c msg,
  py_start_tp C al addr n t eps name lts sid sk now now' = Ret (c, msg) ->
  t_n c = n mod 256 /\ t_t c = t mod 256 /\ 2 <= t_n c <= 128 /\ t_t c < t_n c /\ t_step c = 0 /\ t_complaints c = [] /\ t_cheaters c = [] /\
  t_sid c = sid /\ t_sk c = sk /\ (addr + addr mod 32) mod 32 = 0.
Proof. exact py_start_tp_params. Qed.
Print Assumptions C58_started_parameters.

Theorem C58_started_session_partial : forall C al addr n t eps name lts sid sk now now' c msg,
  py_start_tp C al addr n t eps name lts sid sk now now' = Ret (c, msg) ->
  0 <= n < 256 -> 1 <= t < 256 -> zlen sid = 32 -> 32 * n <= zlen (concat lts) ->
  tp_wf c /\ t_n c = n /\ t_t c = t /\ t_chmax c = t * t - 1.
Proof. exact py_start_tp_wf. Qed.
Print Assumptions C58_started_session_partial.

Theorem C58_start_returns : forall C al addr n t eps name lts sid sk now now', crypto_ok C ->
  (addr + addr mod 32) mod 32 = 0 -> 0 <= eps < 2 ^ 31 -> 2 <= n <= 128 -> 1 <= t < n -> 1 <= zlen name <= 1024 -> zlen sid = 32 -> is_u64 now ->
  (forall size, al size = true) ->
  exists c msg, py_start_tp C al addr n t eps name lts sid sk now now' = Ret (c, msg) /\ t_eps c = eps.
Proof. exact py_start_tp_returns. Qed.
Print Assumptions C58_start_returns.

(** A call on the trusted party after any history: undefined exactly if, in step 2 or 3, a cheater is
    recorded (the missing log stream is written to).  In step 6 the claim is for messages whose
    announced lengths lie inside them. *)
Theorem C58_trusted_party_undefined_exactly_partial : forall C al0 addr n t eps name lts sid sk now now' c0 msg0 calls outs c al r s msg, crypto_ok C ->
  py_start_tp C al0 addr n t eps name lts sid sk now now' = Ret (c0, msg0) ->
  0 <= n < 256 -> 1 <= t < 256 -> zlen sid = 32 -> 32 * n <= zlen (concat lts) ->
  py_tp_run C c0 calls = Ret (outs, c) ->
  (t_step c = 6 -> announced_inside (t_n c) msg) ->
  (py_tp_next C al (mkEnv false r s) c msg = Bad <->
   tp_input_size c = Ok (zlen msg) /\ al (tp_output_size c) = true /\ (t_step c = 2 \/ t_step c = 3) /\
   exists ret c' out, tp_next C (mkEnv true r s) c msg (zeros (Z.to_nat (tp_output_size c))) = Ok (ret, c', out) /\ t_cheaters c' <> t_cheaters c).
Proof. exact py_tp_session_exact. Qed.
Print Assumptions C58_trusted_party_undefined_exactly_partial.

(** What an exception leaves behind: an unchanged session if the message had the wrong size or there
    was no memory; otherwise the session is over, except in step 6. *)
Theorem C58_trusted_party_call : forall C al e c msg o c', 0 <= t_step c -> py_tp_next C al e c msg = Ret (o, c') ->
  (o = None /\ c' = c /\ (tp_input_size c <> Ok (zlen msg) \/ al (tp_output_size c) = false)) \/
  (tp_input_size c = Ok (zlen msg) /\ al (tp_output_size c) = true /\
   (t_step c < 10 -> t_step c < t_step c') /\ (o = None -> t_step c <> 6 -> tp_not_done c' = false)).
Proof. exact py_tp_call. Qed.
Print Assumptions C58_trusted_party_call.

Theorem C58_peer_call : forall C al e (c : peer C) msg o c', 0 <= p_step C c -> py_peer_next C al e c msg = Ret (o, c') ->
  (o = None /\ c' = c /\ (peer_input_size C c <> zlen msg \/ al (peer_output_size C c) = false)) \/
  (peer_input_size C c = zlen msg /\ al (peer_output_size C c) = true /\
   (p_step C c < 11 -> p_step C c < p_step C c') /\ (o = None -> peer_not_done C c' = false)).
Proof. exact py_peer_call. Qed.
Print Assumptions C58_peer_call.

Example C58_trusted_party_nonvacuous : exists al addr n t eps name lts sid sk now now' c0 msg0 calls outs c, crypto_ok toyC /\
  py_start_tp toyC al addr n t eps name lts sid sk now now' = Ret (c0, msg0) /\
  0 <= n < 256 /\ 1 <= t < 256 /\ zlen sid = 32 /\ 32 * n <= zlen (concat lts) /\
  Forall quiet calls /\ py_tp_run toyC c0 calls = Ret (outs, c) /\
  map (fun o => match o with Some _ => true | None => false end) outs = [true; false; true; true] /\ t_step c = 3.
Proof. exact C58_tp_example. Qed.

(** The messages for the peers: the number of the peer is taken modulo 256; the call is always defined. *)
Theorem C58_peer_message : forall c base peer, - 2 ^ 63 <= peer < 2 ^ 64 -> py_tp_peer_msg c base peer = py_tp_peer_msg c base (peer mod 256).
Proof. exact py_tp_peer_msg_mod. Qed.
Print Assumptions C58_peer_message.
Theorem C58_peer_message_defined : forall c base peer, 0 <= t_n c -> 0 <= t_t c -> py_tp_peer_msg c base peer <> Bad.
Proof. exact py_tp_peer_msg_safe. Qed.
Print Assumptions C58_peer_message_defined.

(** Peers: with a first message of 176 bytes or more and a long-term key of 63 or more (Python adds a
    zero byte to each) starting is defined; with fewer than 142 bytes it never is.  A started peer can
    be freed at once. *)
Theorem C58_start_peer_short : forall C al addr eps sk msg0 now, (addr + addr mod 32) mod 32 = 0 -> 0 <= eps < 2 ^ 31 -> zlen msg0 < 142 ->
  py_start_peer C al addr eps sk msg0 now = Bad.
Proof. exact py_start_peer_short. Qed.
Print Assumptions C58_start_peer_short.
Theorem C58_start_peer_partial : forall C al addr eps sk msg0 now, 176 <= zlen msg0 -> 63 <= zlen sk -> py_start_peer C al addr eps sk msg0 now <> Bad.
Proof. exact py_start_peer_safe. Qed.
Print Assumptions C58_start_peer_partial.
Theorem C58_started_peer_can_be_freed : forall C al addr eps sk msg0 now c, py_start_peer C al addr eps sk msg0 now = Ret c -> exists c', peer_free C c = Ok c'.
Proof. exact py_start_peer_free. Qed.
Print Assumptions C58_started_peer_can_be_freed.

(** A call on a peer after any history of calls, under the conditions of C33. *)
Theorem C58_peer_defined_partial : forall C al0 addr eps sk msg0 now c0 calls outs c al e msg, crypto_ok C -> py_start_peer C al0 addr eps sk msg0 now = Ret c0 ->
  py_peer_run C c0 calls = Ret (outs, c) ->
  (p_step C c = 3 -> drawn (p_t C c) (pe_a e)) ->
  (p_step C c = 3 \/ p_step C c = 4 -> Forall usable (p_outs C c)) ->
  (p_step C c = 5 -> Forall usable (p_ins C c)) ->
  (p_step C c = 6 -> complaints_sane (p_n C c) msg) ->
  py_peer_next C al e c msg <> Bad.
Proof. exact py_peer_session_safe. Qed.
Print Assumptions C58_peer_defined_partial.

Example C58_start_peer_nonvacuous : exists al addr eps sk msg0 now (c : peer toyC), crypto_ok toyC /\ py_start_peer toyC al addr eps sk msg0 now = Ret c /\
  p_n toyC c = 3 /\ zlen msg0 = 177.
Proof. exact C58_peer_example. Qed.
Example C58_peer_nonvacuous : exists al addr eps sk msg0 now (c0 : peer toyC) calls outs c e msg, crypto_ok toyC /\ py_start_peer toyC al addr eps sk msg0 now = Ret c0 /\
  py_peer_run toyC c0 calls = Ret (outs, c) /\ Forall (fun o => o <> None) outs /\ p_step toyC c = 4 /\ Forall usable (p_outs toyC c) /\
  exists out c', py_peer_next toyC al e c msg = Ret (Some out, c').
Proof. exact C58_prun_example. Qed.
