(** Property theorems about the control flow and the sizes of the trusted-party protocol
    (src/tp-dkg.c): C29, C30, C31, C34, C42, C48, C50.
    Vocabulary: TpSpec.v (tp_run, peer_run, final, tp_wf, consumes, delivers). *)
From Coq Require Import ZArith Lia List Bool.
From Coq.Strings Require Import Byte.
From Verif Require Import Bytes Res Mem Sodium PrimeL ToprfModel ToprfSpec DkgModel WireModel TpCrypto TpModel PeerModel TpSpec.
From Verif Require Import TpControl TpSizes TpExamples.
Import ListNotations.
Open Scope list_scope.
Open Scope Z_scope.

(** C29.  What the trusted party asks for is n times what each peer says it produces. *)
Theorem C29_collected_sizes : forall C c (p : peer C) s, In (s, p_step C p) consumes -> t_step c = s -> 1 <= t_n c ->
  p_n C p = t_n c -> p_t C p = t_t c ->
  tp_input_sizes c = Ok (1, repeat (peer_output_size C p) (Z.to_nat (t_n c))) /\
  tp_input_size c = Ok (t_n c * peer_output_size C p).
Proof. exact sizes_collected. Qed.
Print Assumptions C29_collected_sizes.

Example C29_nonvacuous : exists s (c : tp) (p : peer toyC), In (s, p_step toyC p) consumes /\ t_step c = s /\ 1 <= t_n c /\
  p_n toyC p = t_n c /\ p_t toyC p = t_t c /\ 0 < peer_output_size toyC p.
Proof. exact C29_peer_example. Qed.

(** Codes 1 and 2 mean a wrong input or output size, and nothing else; the sizes are the ones
    the size queries report. *)
Theorem C29_tp_demands_reported_sizes : forall C e c input out isz, 0 <= t_step c <= 9 -> 1 <= t_n c -> tp_input_size c = Ok isz ->
  (zlen input <> isz -> exists c', tp_next C e c input out = Ok (1, c', out)) /\
  (zlen input = isz -> zlen out <> tp_output_size c -> exists c', tp_next C e c input out = Ok (2, c', out)) /\
  (zlen input = isz -> zlen out = tp_output_size c ->
     forall ret c' out', tp_next C e c input out = Ok (ret, c', out') -> ret <> 1 /\ ret <> 2).
Proof. exact tp_demands. Qed.
Print Assumptions C29_tp_demands_reported_sizes.

Theorem C29_peer_demands_reported_sizes : forall C e c input out, 0 <= p_step C c <= 9 ->
  (zlen input <> peer_input_size C c -> exists c', peer_next C e c input out = Ok (1, c', out)) /\
  (zlen input = peer_input_size C c -> zlen out <> peer_output_size C c -> exists c', peer_next C e c input out = Ok (2, c', out)) /\
  (zlen input = peer_input_size C c -> zlen out = peer_output_size C c ->
     forall ret c' out', peer_next C e c input out = Ok (ret, c', out') -> ret <> 1 /\ ret <> 2).
Proof. exact peer_demands. Qed.
Print Assumptions C29_peer_demands_reported_sizes.

Example C29_demands_nonvacuous : exists c (input out : bytes) isz, 0 <= t_step c <= 9 /\ 1 <= t_n c /\ tp_input_size c = Ok isz /\
  0 < isz /\ zlen input = isz /\ zlen out = tp_output_size c /\ 0 < zlen out.
Proof. exact C29_tp_example. Qed.

(** C48, C29.  The slice dispatched to peer i lies in the output buffer and has the length that
    peer asks for in the step that follows. *)
Theorem C48_slices_in_bounds : forall C c (p : peer C) s base i, In (s, p_step C p) delivers -> t_prev c = s ->
  0 < t_n c -> 0 <= i < t_n c -> p_n C p = t_n c -> p_t C p = t_t c -> base = tp_output_size (tp_step_set c s s) ->
  tp_peer_msg c base i = (0, Some (slice_off c s i, peer_input_size C p)) /\
  0 <= slice_off c s i /\ slice_off c s i + peer_input_size C p <= base.
Proof. exact sizes_delivered. Qed.
Print Assumptions C48_slices_in_bounds.

(** Slices of different peers do not overlap, unless the step is a broadcast, where every peer is
    given the whole buffer. *)
Theorem C48_slices_apart : forall C c (p : peer C) s base i j off len off' len', In (s, p_step C p) delivers -> t_prev c = s ->
  0 < t_n c -> 0 <= i < j -> j < t_n c -> p_n C p = t_n c -> p_t C p = t_t c -> base = tp_output_size (tp_step_set c s s) ->
  tp_peer_msg c base i = (0, Some (off, len)) -> tp_peer_msg c base j = (0, Some (off', len')) ->
  off + len <= off' \/ off = 0 /\ off' = 0 /\ len = base /\ len' = base.
Proof. exact slices_apart. Qed.
Print Assumptions C48_slices_apart.

Example C48_nonvacuous : exists s (c : tp) (p : peer toyC) i j, In (s, p_step toyC p) delivers /\ t_prev c = s /\ 0 < t_n c /\
  0 <= i < j /\ j < t_n c /\ p_n toyC p = t_n c /\ p_t toyC p = t_t c /\ 0 < peer_input_size toyC p.
Proof. exact C48_example. Qed.

(** C30.  A call of an unfinished party increases its step ... *)
Theorem C30_tp_moves_forward : forall C e c input out ret c' out', 0 <= t_step c < 10 ->
  tp_next C e c input out = Ok (ret, c', out') -> t_step c < t_step c'.
Proof. exact tp_forward. Qed.
Print Assumptions C30_tp_moves_forward.

Theorem C30_peer_moves_forward : forall C e c input out ret c' out', 0 <= p_step C c < 11 ->
  peer_next C e c input out = Ok (ret, c', out') -> p_step C c < p_step C c'.
Proof. exact peer_forward. Qed.
Print Assumptions C30_peer_moves_forward.

(** ... so after ten (eleven) calls it is done, whatever it was given ... *)
Theorem C30_tp_finishes : forall C c calls outs, 0 <= t_step c -> (10 <= length calls)%nat -> tp_run C c calls = Ok outs ->
  tp_not_done (final c outs) = false.
Proof. exact tp_finishes. Qed.
Print Assumptions C30_tp_finishes.

Theorem C30_peer_finishes : forall C c calls outs, 0 <= p_step C c -> (11 <= length calls)%nat -> peer_run C c calls = Ok outs ->
  peer_not_done C (final c outs) = false.
Proof. exact peer_finishes. Qed.
Print Assumptions C30_peer_finishes.

(** ... and once done, every further call reports an error, writes nothing and leaves it done. *)
Theorem C30_tp_stays_done : forall C calls c, 10 <= t_step c ->
  exists outs, tp_run C c calls = Ok outs /\ Forall2 (fun call o => o = (99, c, snd call)) calls outs.
Proof. exact tp_done_silent. Qed.
Print Assumptions C30_tp_stays_done.

Theorem C30_peer_stays_done : forall C calls c, 11 <= p_step C c ->
  exists outs, peer_run C c calls = Ok outs /\
    Forall2 (fun call o => fst (fst o) = 99 /\ snd o = snd call /\ peer_not_done C (snd (fst o)) = false) calls outs.
Proof. exact peer_done_silent. Qed.
Print Assumptions C30_peer_stays_done.

Example C30_nonvacuous : exists outs, tp_run toyC (tx_tp 0) (tx_call 0 :: repeat (tx_call 1) 9) = Ok outs /\
  map (fun o => (fst (fst o), t_step (snd (fst o)))) outs = (0, 1) :: (3, 99) :: repeat (99, 99) 8.
Proof. exact C30_example. Qed.
Example C30_peer_nonvacuous : exists outs, peer_run toyC (tx_peer 9)
    [(tx_penv, tx_final str_OK, zeros 113); (tx_penv, [], []); (tx_penv, [], [])] = Ok outs /\
  map (fun o => (fst (fst o), p_step toyC (snd (fst o)))) outs = [(0, 10); (0, 11); (99, 99)].
Proof. exact C30_peer_example. Qed.

(** C31 for the peers: an error ends the protocol for the peer; every later call reports an error
    and leaves its output buffer as it was. *)
Theorem C31_peer_error_ends : forall C e c input out ret c' out', peer_next C e c input out = Ok (ret, c', out') -> ret <> 0 ->
  peer_not_done C c' = false /\
  forall calls, exists outs, peer_run C c' calls = Ok outs /\
    Forall2 (fun call o => fst (fst o) = 99 /\ snd o = snd call /\ peer_not_done C (snd (fst o)) = false) calls outs.
Proof. exact peer_error_silent. Qed.
Print Assumptions C31_peer_error_ends.

Example C31_peer_nonvacuous : exists c', peer_next toyC tx_penv (tx_peer 9) (tx_final str_NO) (zeros 113) = Ok (4, c', zeros 113).
Proof. exact C31_peer_example. Qed.

(** C31 for the trusted party.  Full statement: in every step.  False in step 6 (complaints). *)
Theorem C31_tp_error_ends_refuted : exists C e c input out isz ret c' out', crypto_ok C /\ tp_wf c /\ tp_not_done c = true /\
  tp_input_size c = Ok isz /\ zlen input = isz /\ zlen out = tp_output_size c /\
  tp_next C e c input out = Ok (ret, c', out') /\ ret <> 0 /\ tp_not_done c' = true.
Proof. exact C31_refutation. Qed.
Print Assumptions C31_tp_error_ends_refuted.

(** In step 6 no outcome whatsoever ends the protocol. *)
Theorem C31_tp_step6_always_continues : forall C e c input out ret c' out', t_step c = 6 ->
  tp_next C e c input out = Ok (ret, c', out') -> tp_not_done c' = true.
Proof. exact tp_step6_continues. Qed.
Print Assumptions C31_tp_step6_always_continues.

(** In every other step an error ends it. *)
Theorem C31_tp_error_ends_partial : forall C e c input out ret c' out', t_step c <> 6 -> 0 <= t_step c ->
  tp_next C e c input out = Ok (ret, c', out') -> ret <> 0 ->
  tp_not_done c' = false /\
  forall calls, exists outs, tp_run C c' calls = Ok outs /\ Forall2 (fun call o => o = (99, c', snd call)) calls outs.
Proof. exact tp_error_silent. Qed.
Print Assumptions C31_tp_error_ends_partial.

Example C31_tp_nonvacuous : exists c' out', t_step (tx_tp 4) <> 6 /\
  tp_next toyC tx_env (tx_tp 4) (snd (fst (tx_call 4))) (snd (tx_call 4)) = Ok (6, c', out') /\ zlen (t_cheaters c') = 3.
Proof. exact C31_tp_example. Qed.

(** C34.  After every call of a history the cheater list fits into the caller's buffer and starts
    with the entries recorded before. *)
Theorem C34_cheater_list : forall C calls c outs, tp_run C c calls = Ok outs -> zlen (t_cheaters c) <= t_chmax c ->
  Forall (fun o => zlen (t_cheaters (snd (fst o))) <= t_chmax c /\ exists l, t_cheaters (snd (fst o)) = t_cheaters c ++ l) outs.
Proof. exact tp_cheaters_history. Qed.
Print Assumptions C34_cheater_list.

Example C34_nonvacuous : exists outs, zlen (t_cheaters (tx_tp 4)) <= t_chmax (tx_tp 4) /\
  tp_run toyC (tx_tp 4) [tx_call 4; tx_call 5] = Ok outs /\
  map (fun o => zlen (t_cheaters (snd (fst o)))) outs = [3; 3].
Proof. exact C34_example. Qed.

(** C50.  Once a cheater is recorded no later call of the trusted party reports success. *)
Theorem C50_cheater_excludes_success : forall C calls c outs, 1 <= t_step c -> tp_run C c calls = Ok outs ->
  t_cheaters c <> [] -> Forall (fun o => fst (fst o) <> 0) outs.
Proof. exact cheater_excludes_success. Qed.
Print Assumptions C50_cheater_excludes_success.

(** A call that reports success recorded no cheater. *)
Theorem C50_success_means_no_cheaters : forall C e c input out c' out', 1 <= t_step c <= 9 ->
  tp_next C e c input out = Ok (0, c', out') -> t_cheaters c' = [].
Proof. exact success_no_cheaters. Qed.
Print Assumptions C50_success_means_no_cheaters.

Example C50_nonvacuous : exists c outs, 1 <= t_step c /\ t_cheaters c <> [] /\
  tp_run toyC c [tx_call 6; tx_call 8; tx_call 9] = Ok outs /\ map (fun o => fst (fst o)) outs = [5; 3; 99].
Proof. exact C50_example. Qed.

(** C42.  If the output share changed during a history, then one of the calls found the peer in
    its final step with an accepted message of the trusted party saying OK, and the share is the
    peer's index with the sum of the received shares. *)
Theorem C42_share_only_after_ok : forall C calls c outs, peer_run C c calls = Ok outs ->
  p_share C (final c outs) = p_share C c \/
  exists pre e input out post opre last',
    calls = pre ++ (e, input, out) :: post /\ peer_run C c pre = Ok opre /\
    let c0 := final c opre in
    p_step C c0 = 9 /\
    recv_msg (cS C) input 0 (zlen input) 21 0 255 (p_tp_pk C c0) (p_sid C c0) (p_eps C c0) (p_tp_last C c0) (pe_r e 0) = Ok (0, last') /\
    rd input 111 2 = Ok str_OK /\
    s_index (p_share C (final c outs)) = p_index C c0 /\
    let received := firstn (Z.to_nat (p_n C c0)) (p_xshares C c0) in
    (Forall (fun s => 0 <= s_value s < 2 ^ 255) received ->
     s_value (p_share C (final c outs)) = zsum (map s_value received) mod L).
Proof. exact share_only_after_ok. Qed.
Print Assumptions C42_share_only_after_ok.

Example C42_nonvacuous : exists outs, peer_run toyC (tx_peer 8)
    [(tx_penv, [], zeros 143); (tx_penv, tx_final str_OK, zeros 113)] = Ok outs /\
  p_share toyC (final (tx_peer 8) outs) = mkShare 1 18 /\ p_share toyC (tx_peer 8) = mkShare 0 0 /\
  Forall (fun s => 0 <= s_value s < 2 ^ 255) (p_xshares toyC (tx_peer 8)).
Proof. exact C42_example. Qed.
