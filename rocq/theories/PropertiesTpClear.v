(** Properties C77 and C78: false complaints; the long-term key of a peer. *)
From Coq Require Import ZArith List Bool.
From Coq.Strings Require Import Byte.
From Verif Require Import PrimeL Bytes Res Mem Sodium ToprfModel DkgModel WireModel WireSpec TpCrypto TpModel PeerModel CheaterModel TpSpec SafeSpec BlameSpec ClearSpec.
From Verif Require Import Cleared PeerKey TpExamples ClearExamples.
Import ListNotations.
Open Scope list_scope.
Open Scope Z_scope.

(** A peer makes its first eight calls, all successful, on whatever inputs; others may have complained
    about it.  The trusted party has the commitments and encrypted shares this peer sent, knows the same
    complaints and now gets the message with the keys this peer sent, in time; everything else it gets
    or has from other peers is arbitrary.  When it has judged the complaints, the report for each
    complaint about this peer blames the complainer, and no report blames this peer, unless it has
    itself complained about somebody. *)
Theorem C77_falsely_accused : forall C, crypto_ok C ->
  forall (p0 p1 p2 p3 p4 p5 p6 p7 p8 : peer C) (q0 q1 q2 q5 q6 : peer_call) (e3 e4 e7 : penv) (i3 o3 i4 o4 i7 o7 w0 w1 w2 w3 w4 w5 w6 w7 : bytes),
  peer_fresh C p0 ->
  peer_run C p0 [q0; q1; q2; (e3, i3, o3); (e4, i4, o4); q5; q6; (e7, i7, o7)] =
    Ok [(0, p1, w0); (0, p2, w1); (0, p3, w2); (0, p4, w3); (0, p5, w4); (0, p6, w5); (0, p7, w6); (0, p8, w7)] ->
  is_u64 (pe_s e3 0) -> (forall j, is_u64 (pe_s e4 j)) -> is_u64 (pe_s e7 0) ->
  Z.of_nat (length (pe_a e3)) = p_t C p0 -> Forall random_scalar (pe_a e3) ->
  forall e c input out c' out',
  tp_wf c -> Forall (complaint_ok (t_n c)) (t_complaints c) -> NoDup (t_complaints c) -> t_step c = 7 ->
  same_session C c p8 -> heard C e c input p8 (pe_s e7 0) w3 w4 w7 ->
  0 <= t_eps c -> (forall j, 0 <= j < t_n c -> 0 < pe_s e4 j /\ pe_s e4 j + t_eps c < 2 ^ 64) ->
  tp_next C e c input out = Ok (3, c', out') ->
  let a := p_index C p8 in exists new, recorded c c' new /\
  (forall b, 1 <= b <= t_n c -> In (b * 256 + a) (t_complaints c) -> exists ch, In ch new /\ ch_peer ch = a /\ ch_other ch = b /\ blames ch = b) /\
  (forall ch, In ch new -> blames ch = a -> exists x, In (a * 256 + x) (t_complaints c)).
Proof. exact cleared. Qed.
Print Assumptions C77_falsely_accused.

Example C77_nonvacuous : exists e c input out c' out' (p0 p1 p2 p3 p4 p5 p6 p7 p8 : peer toyC) q0 q1 q2 q5 q6 e3 e4 e7 i3 o3 i4 o4 i7 o7 w0 w1 w2 w3 w4 w5 w6 w7,
  crypto_ok toyC /\ peer_fresh toyC p0 /\
  peer_run toyC p0 [q0; q1; q2; (e3, i3, o3); (e4, i4, o4); q5; q6; (e7, i7, o7)] =
    Ok [(0, p1, w0); (0, p2, w1); (0, p3, w2); (0, p4, w3); (0, p5, w4); (0, p6, w5); (0, p7, w6); (0, p8, w7)] /\
  is_u64 (pe_s e3 0) /\ (forall j, is_u64 (pe_s e4 j)) /\ is_u64 (pe_s e7 0) /\ Z.of_nat (length (pe_a e3)) = p_t toyC p0 /\ Forall random_scalar (pe_a e3) /\
  tp_wf c /\ Forall (complaint_ok (t_n c)) (t_complaints c) /\ NoDup (t_complaints c) /\ t_step c = 7 /\
  same_session toyC c p8 /\ heard toyC e c input p8 (pe_s e7 0) w3 w4 w7 /\ 0 <= t_eps c /\ (forall j, 0 <= j < t_n c -> 0 < pe_s e4 j /\ pe_s e4 j + t_eps c < 2 ^ 64) /\
  tp_next toyC e c input out = Ok (3, c', out') /\ p_index toyC p8 = 2 /\ In (1 * 256 + 2) (t_complaints c).
Proof. exact C77_example. Qed.

(** The first call of a peer, if it succeeds, sends the public keys of the session in a message signed
    with the session key and signed again with the long-term key; after it, and after any further calls
    on any inputs, the long-term key is erased (64 zero bytes). *)
Theorem C78_used_once : forall C, crypto_ok C -> forall c0 e input out c1 w calls outs,
  zlen (p_sid C c0) = 32 -> p_step C c0 = 0 -> is_u64 (pe_s e 0) ->
  peer_next C e c0 input out = Ok (0, c1, w) -> peer_run C c1 calls = Ok outs ->
  p_lt_sk C (final c1 outs) = zeros 64 /\
  exists m, w = m ++ sig_sign (cS C) (p_lt_sk C c0) m /\
    signed (cS C) (sig_pk (cS C) (p_sk C c1)) (p_sid C c0) 2 (p_index C c1) 255 (pe_s e 0) (sig_pk (cS C) (p_sk C c1) ++ nz_pk (cN C) (p_noise_sk C c1)) m.
Proof. exact key_used_once. Qed.
Print Assumptions C78_used_once.

Example C78_nonvacuous : exists (c0 : peer toyC) e input out c1 w calls outs, zlen (p_sid toyC c0) = 32 /\ p_step toyC c0 = 0 /\ is_u64 (pe_s e 0) /\
  peer_next toyC e c0 input out = Ok (0, c1, w) /\ peer_run toyC c1 calls = Ok outs /\ p_lt_sk toyC c0 <> zeros 64 /\ (6 <= length calls)%nat.
Proof. exact C78_example. Qed.

(** If the first call fails the session is over, but the long-term key stays in the state. *)
Theorem C78_kept_on_error : forall C c0 e input out ret c1 w calls outs,
  p_step C c0 = 0 -> peer_next C e c0 input out = Ok (ret, c1, w) -> ret <> 0 -> peer_run C c1 calls = Ok outs ->
  p_lt_sk C (final c1 outs) = p_lt_sk C c0.
Proof. exact key_kept_on_error. Qed.
Print Assumptions C78_kept_on_error.

Example C78_error_nonvacuous : exists (c0 : peer toyC) e input out ret c1 w, p_step toyC c0 = 0 /\ peer_next toyC e c0 input out = Ok (ret, c1, w) /\ ret <> 0 /\
  zlen input = peer_input_size toyC c0 /\ zlen out = peer_output_size toyC c0 /\ p_lt_sk toyC c0 <> zeros 64.
Proof. exact C78_error_example. Qed.
