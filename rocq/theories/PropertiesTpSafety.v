(** Property theorems about memory safety and logging of the trusted-party protocol (src/tp-dkg.c):
    C32, C33, C49.
    Vocabulary: TpSpec.v (tp_run, peer_run, final, tp_wf), SafeSpec.v. *)
From Coq Require Import ZArith Lia List Bool.
From Coq.Strings Require Import Byte.
From Verif Require Import Bytes Res Mem Sodium ToprfModel DkgModel WireModel TpCrypto TpModel PeerModel TpSpec SafeSpec.
From Verif Require Import TpLog TpSafe PeerSafe TpExamples TpRunExamples SafeExamples.
Import ListNotations.
Open Scope list_scope.
Open Scope Z_scope.

(** C32.  At every point of every history, whatever the input and output buffers hold and however
    long they are, a call of the trusted party is defined (no access outside a buffer, no null
    pointer), provided that logging is on in steps 2 and 3 and that in step 6 the complaint messages
    announce no more bytes than the input holds. *)
Theorem C32_tp_in_bounds_partial : forall C, crypto_ok C -> forall e c0 calls outs input out, tp_wf c0 -> t_complaints c0 = [] -> tp_run C c0 calls = Ok outs ->
  (t_step (final c0 outs) = 2 \/ t_step (final c0 outs) = 3 -> e_log e = true) ->
  (t_step (final c0 outs) = 6 -> announced_inside (t_n (final c0 outs)) input) ->
  exists r, tp_next C e (final c0 outs) input out = Ok r.
Proof. exact tp_safe_history. Qed.
Print Assumptions C32_tp_in_bounds_partial.

Example C32_nonvacuous : exists e c0 calls outs input out c' out', crypto_ok toyC /\ tp_wf c0 /\ t_complaints c0 = [] /\ tp_run toyC c0 calls = Ok outs /\
  t_step (final c0 outs) = 6 /\ announced_inside (t_n (final c0 outs)) input /\
  tp_next toyC e (final c0 outs) input out = Ok (0, c', out') /\ t_complaints c' <> [].
Proof. exact C32_example. Qed.

(** Steps 2 and 3 without logging: the call does what it does with logging if no message is
    refused; otherwise it is undefined (the null log stream is used). *)
Theorem C32_unlogged : forall C r s c input out ret c' out', t_step c = 2 \/ t_step c = 3 -> tp_next C (mkEnv true r s) c input out = Ok (ret, c', out') ->
  (t_cheaters c' = t_cheaters c -> tp_next C (mkEnv false r s) c input out = Ok (ret, c', out')) /\
  (t_cheaters c' <> t_cheaters c -> tp_next C (mkEnv false r s) c input out = UB).
Proof. exact tp_unlogged. Qed.
Print Assumptions C32_unlogged.

Example C32_unlogged_nonvacuous : exists c r s input input' out c1 o1 c2 o2, t_step c = 2 /\
  tp_next toyC (mkEnv true r s) c input out = Ok (0, c1, o1) /\ t_cheaters c1 = t_cheaters c /\
  tp_next toyC (mkEnv true r s) c input' out = Ok (6, c2, o2) /\ t_cheaters c2 <> t_cheaters c.
Proof. exact C32_unlogged_example. Qed.

(** The property as stated is false: without logging, after two successful steps, one message with
    a wrong message number is enough. *)
Theorem C32_log_refuted : exists C e c0 calls outs input out, crypto_ok C /\ tp_wf c0 /\ t_step c0 = 0 /\ t_complaints c0 = [] /\
  tp_run C c0 calls = Ok outs /\ tp_input_size (final c0 outs) = Ok (zlen input) /\ zlen out = tp_output_size (final c0 outs) /\
  e_log e = false /\ tp_next C e (final c0 outs) input out = UB.
Proof. exact C32_log_refutation. Qed.
Print Assumptions C32_log_refuted.

(** It is false with logging, too: in step 6 a complaint message that announces more complaints than
    it has room for makes the trusted party read past its input. *)
Theorem C32_count_refuted : exists C e c0 calls outs input out, crypto_ok C /\ tp_wf c0 /\ t_step c0 = 0 /\ t_complaints c0 = [] /\
  tp_run C c0 calls = Ok outs /\ tp_input_size (final c0 outs) = Ok (zlen input) /\ zlen out = tp_output_size (final c0 outs) /\
  e_log e = true /\ t_step (final c0 outs) = 6 /\ tp_next C e (final c0 outs) input out = UB.
Proof. exact C32_count_refutation. Qed.
Print Assumptions C32_count_refuted.

(** C49.  The property as stated is false: with logging this call reports an error, without it the
    call is undefined. *)
Theorem C49_log_refuted : exists C r s c input out ret c' out', crypto_ok C /\ tp_wf c /\ tp_input_size c = Ok (zlen input) /\ zlen out = tp_output_size c /\
  tp_next C (mkEnv true r s) c input out = Ok (ret, c', out') /\ tp_next C (mkEnv false r s) c input out = UB.
Proof. exact C49_refutation. Qed.
Print Assumptions C49_log_refuted.

(** In all other steps of the trusted party logging changes nothing (and see C32_unlogged for the
    steps 2 and 3). *)
Theorem C49_tp_partial : forall C r s c input out, t_step c <> 2 -> t_step c <> 3 ->
  tp_next C (mkEnv true r s) c input out = tp_next C (mkEnv false r s) c input out.
Proof. exact tp_log_other. Qed.
Print Assumptions C49_tp_partial.

(** In every step, what a call does without logging it does with logging. *)
Theorem C49_tp_log_harmless : forall C r s c input out x, tp_next C (mkEnv false r s) c input out = Ok x ->
  tp_next C (mkEnv true r s) c input out = Ok x.
Proof. exact tp_log_off. Qed.
Print Assumptions C49_tp_log_harmless.

(** For peers logging changes nothing, except in step 3 if the Noise library does not find the peer
    of a session it created. *)
Theorem C49_peer_partial : forall C b e (c : peer C) input out, p_step C c <> 3 \/ outs_known C c ->
  peer_next C (with_log b e) c input out = peer_next C e c input out.
Proof. exact peer_log_known. Qed.
Print Assumptions C49_peer_partial.

Example C49_peer_nonvacuous : exists (p : peer toyC) e input out p' out', outs_known toyC p /\ p_step toyC p = 3 /\ peer_next toyC e p input out = Ok (0, p', out').
Proof. exact C49_peer_example. Qed.

(** C33.  At every point of every history of a peer, whatever the input and output buffers hold and
    however long they are, a call is defined (no access outside a buffer, no use of a freed or missing
    session), provided that the session variables it uses (outgoing in steps 3 and 4, incoming in step 5)
    hold a session or NULL, that the complaint messages of step 6 name only peers and stay inside the
    input, and that the random polynomial of step 3 has t coefficients below the group order. *)
Theorem C33_peer_in_bounds_partial : forall C, crypto_ok C -> forall e c0 calls outs input out, peer_fresh C c0 -> peer_run C c0 calls = Ok outs ->
  let c := final c0 outs in
  (p_step C c = 3 -> drawn (p_t C c) (pe_a e)) ->
  (p_step C c = 3 \/ p_step C c = 4 -> Forall usable (p_outs C c)) ->
  (p_step C c = 5 -> Forall usable (p_ins C c)) ->
  (p_step C c = 6 -> complaints_sane (p_n C c) input) ->
  exists r, peer_next C e c input out = Ok r.
Proof. exact peer_safe_history. Qed.
Print Assumptions C33_peer_in_bounds_partial.

Example C33_nonvacuous : exists e c0 calls outs input out ret c' out', crypto_ok toyC /\ peer_fresh toyC c0 /\ peer_run toyC c0 calls = Ok outs /\
  p_step toyC (final c0 outs) = 4 /\ Forall usable (p_outs toyC (final c0 outs)) /\
  peer_next toyC e (final c0 outs) input out = Ok (ret, c', out') /\ ret = 0.
Proof. exact C33_example. Qed.

(** tpdkg_peer_free is defined exactly if no session variable is uninitialised or freed ... *)
Theorem C33_free_defined : forall C (c : peer C), peer_wf C c ->
  (exists c', peer_free C c = Ok c') <-> Forall usable (p_ins C c) /\ Forall usable (p_outs C c).
Proof. exact free_defined. Qed.
Print Assumptions C33_free_defined.

(** ... it then frees every live session (once) and changes nothing else ... *)
Theorem C33_free_once : forall C (c c' : peer C), peer_wf C c -> peer_free C c = Ok c' ->
  c' = peer_outs_set C (peer_ins_set C c (map after_free (p_ins C c))) (map after_free (p_outs C c)).
Proof. exact free_effect. Qed.
Print Assumptions C33_free_once.

(** ... and it is defined for every peer that got past step 5 without an error. *)
Theorem C33_free_after_success : forall C, crypto_ok C -> forall c0 calls outs, peer_fresh C c0 -> peer_run C c0 calls = Ok outs ->
  6 <= p_step C (final c0 outs) <= 11 -> exists c', peer_free C (final c0 outs) = Ok c'.
Proof. exact free_after_success. Qed.
Print Assumptions C33_free_after_success.

Example C33_free_nonvacuous : exists c0 calls outs c', crypto_ok toyC /\ peer_fresh toyC c0 /\ peer_run toyC c0 calls = Ok outs /\ p_step toyC (final c0 outs) = 8 /\
  peer_free toyC (final c0 outs) = Ok c' /\ Forall (fun sl => sl = Freed) (p_outs toyC c') /\ peer_free toyC c' = UB.
Proof. exact C33_free_example. Qed.

(** The property as stated is false.  If the other side's handshake message is bad, step 3 frees the
    session, reports success and keeps the pointer: step 4 uses the freed session ... *)
Theorem C33_use_after_free_refuted : exists C e c0 calls outs input out, crypto_ok C /\ peer_fresh C c0 /\ peer_run C c0 calls = Ok outs /\ Forall (fun o => fst (fst o) = 0) outs /\
  p_step C (final c0 outs) = 4 /\ zlen input = peer_input_size C (final c0 outs) /\ zlen out = peer_output_size C (final c0 outs) /\
  peer_next C e (final c0 outs) input out = UB.
Proof. exact C33_use_after_free_refutation. Qed.
Print Assumptions C33_use_after_free_refuted.

(** ... and tpdkg_peer_free frees it again, even if all session variables were NULL at first. *)
Theorem C33_double_free_refuted : exists C c0 calls outs, crypto_ok C /\ peer_fresh C c0 /\ Forall (fun sl => sl = Null) (p_outs C c0) /\ Forall (fun sl => sl = Null) (p_ins C c0) /\
  peer_run C c0 calls = Ok outs /\ Forall (fun o => fst (fst o) = 0) outs /\ peer_free C (final c0 outs) = UB.
Proof. exact C33_double_free_refutation. Qed.
Print Assumptions C33_double_free_refuted.

(** With session variables left uninitialised, as in the documented example, freeing a peer that
    failed in its first step is undefined. *)
Theorem C33_free_early_refuted : exists C c0 e input out ret c' out', crypto_ok C /\ peer_fresh C c0 /\ peer_next C e c0 input out = Ok (ret, c', out') /\ ret <> 0 /\ peer_free C c' = UB.
Proof. exact C33_free_early_refutation. Qed.
Print Assumptions C33_free_early_refuted.

(** In step 6 a complaint message that announces more complaints than it has room for makes the peer
    write past its complaint buffer, although all bytes it reads are inside the input. *)
Theorem C33_complaints_refuted : exists C e c0 calls outs input out, crypto_ok C /\ peer_fresh C c0 /\ peer_run C c0 calls = Ok outs /\ Forall (fun o => fst (fst o) = 0) outs /\
  p_step C (final c0 outs) = 6 /\ zlen input = peer_input_size C (final c0 outs) /\ zlen out = peer_output_size C (final c0 outs) /\
  announced_inside (p_n C (final c0 outs)) (skipn 111 input) /\ peer_next C e (final c0 outs) input out = UB.
Proof. exact C33_complaints_refutation. Qed.
Print Assumptions C33_complaints_refuted.
