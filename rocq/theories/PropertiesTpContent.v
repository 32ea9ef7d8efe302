(** Property theorems about what the messages of the trusted-party protocol contain: C29 (reveal
    step), C35, C36, C39, C41, C46, C51, C52, C53.
    Vocabulary: TpSpec.v ([tp_wf], [delivered], [signed], [complaints_in], [accusations],
    [tp_said], [peer_heard]), WireSpec.v, Mem.v ([rd], [getz], [zlen]). *)
From Coq Require Import ZArith Lia List Bool.
From Coq.Strings Require Import Byte.
From Verif Require Import Bytes Res Mem Sodium ToprfModel DkgModel WireModel WireSpec TpCrypto TpModel PeerModel TpRun TpSpec TpAgree TpExamples TpRunExamples.
Import ListNotations.
Open Scope list_scope.
Open Scope Z_scope.

(** The states the caller can set up are well formed, and calls keep them so. *)
Theorem wf_reachable : forall C c0 eps n t name buf sid sk now c msg0 com enc chmax pks lt now2 calls outs,
  start_tp C c0 eps n t name buf sid sk now = Ok (0, c, msg0) -> 1 <= t -> zlen sid = 32 ->
  zlen com = n -> Forall (fun row => zlen row = t) com -> zlen enc = n * n * msg8_SIZE -> 0 <= chmax -> zlen pks = n -> zlen lt = n ->
  let c2 := tp_set_bufs c com (n * n) enc chmax pks lt now2 in
  tp_run C c2 calls = Ok outs -> tp_wf (final c2 outs).
Proof.
  exact (fun C c0 eps n t name buf sid sk now c msg0 com enc chmax pks lt now2 calls outs H1 H2 H3 H4 H5 H6 H7 H8 H9 H10 =>
    tp_run_wf C calls _ outs (tp_wf_start C c0 eps n t name buf sid sk now c msg0 com enc chmax pks lt now2 H1 H2 H3 H4 H5 H6 H7 H8 H9) H10).
Qed.
Print Assumptions wf_reachable.

(** C35.  Complaints recorded in step 6 (with correctly sized buffers). *)
Theorem C35_complaints_well_formed : forall C e c input out ret c' out', tp_wf c -> t_step c = 6 ->
  tp_next C e c input out = Ok (ret, c', out') -> tp_input_size c = Ok (zlen input) -> zlen out = tp_output_size c ->
  Forall (complaint_ok (t_n c)) (t_complaints c') /\ NoDup (t_complaints c') /\ zlen (t_complaints c') <= t_n c * t_n c /\
  (ret = 0 -> zlen (t_complaints c') < t_t c * t_t c /\ t_cheaters c' = t_cheaters c).
Proof. exact complaints_recorded. Qed.
Print Assumptions C35_complaints_well_formed.

Example C35_nonvacuous : exists c input out c' out', tp_wf c /\ t_step c = 6 /\ tp_next toyC (d_env_ 6) c input out = Ok (0, c', out') /\
  tp_input_size c = Ok (zlen input) /\ zlen out = tp_output_size c /\ t_complaints c' = [258].
Proof. exact C35_example. Qed.

(** C36.  A peer that accepts the broadcast complaints has the trusted party's list, which is the
    one in the peers' messages, and knows how often it is accused itself. *)
Theorem C36_complaints_agree : forall C e c input out c' out' pe (p : peer C) pout p' pout',
  crypto_ok C -> tp_wf c -> is_u64 (e_s e 0) -> t_step c = 6 -> tp_next C e c input out = Ok (0, c', out') ->
  p_step C p = 6 -> p_n C p = t_n c -> p_complaints C p = [] -> p_my C p = [] ->
  peer_next C pe p out' pout = Ok (0, p', pout') ->
  p_complaints C p' = t_complaints c' /\ t_complaints c' = complaints_in (t_n c) 0 input /\
  zlen (p_my C p') = accusations (p_index C p) (t_complaints c') /\
  p_step C p' = t_step c' /\ p_index C p' = p_index C p.
Proof. exact complaints_agree. Qed.
Print Assumptions C36_complaints_agree.

(** C36, C29 (step 7).  What the trusted party expects from each peer in the reveal step is what
    the peer will send. *)
Theorem C36_reveal_sizes : forall C e c input out c' out' pe (p : peer C) pout p' pout',
  crypto_ok C -> tp_wf c -> is_u64 (e_s e 0) -> t_step c = 6 -> tp_next C e c input out = Ok (0, c', out') ->
  p_step C p = 6 -> p_n C p = t_n c -> p_complaints C p = [] -> p_my C p = [] -> 1 <= p_index C p <= t_n c ->
  peer_next C pe p out' pout = Ok (0, p', pout') -> t_complaints c' <> [] ->
  t_step c' = 7 /\ exists sizes, tp_input_sizes c' = Ok (0, sizes) /\ zlen sizes = t_n c /\
    getz sizes (p_index C p - 1) = Ok (peer_output_size C p') /\ tp_input_size c' = Ok (fold_left Z.add sizes 0).
Proof. exact reveal_sizes. Qed.
Print Assumptions C36_reveal_sizes.

(** The two hypotheses about the peer's lists hold in every history of a started peer. *)
Theorem C36_no_complaints_before : forall C calls (c : peer C) outs, peer_run C c calls = Ok outs -> 0 <= p_step C c ->
  p_step C (final c outs) <= 6 -> p_complaints C c = [] -> p_my C c = [] ->
  p_complaints C (final c outs) = [] /\ p_my C (final c outs) = [].
Proof. exact no_complaints_before. Qed.
Print Assumptions C36_no_complaints_before.

Example C36_nonvacuous : exists c input out c' out' (p : peer toyC) pout p' pout', crypto_ok toyC /\ tp_wf c /\ is_u64 (e_s (d_env_ 6) 0) /\ t_step c = 6 /\
  tp_next toyC (d_env_ 6) c input out = Ok (0, c', out') /\ p_step toyC p = 6 /\ p_n toyC p = t_n c /\ p_complaints toyC p = [] /\ p_my toyC p = [] /\
  1 <= p_index toyC p <= t_n c /\ peer_next toyC (d_penv 1 6) p out' pout = Ok (0, p', pout') /\ t_complaints c' = [258] /\ p_my toyC p' = [1].
Proof. exact C36_example. Qed.

(** C39.  If the transcript step of the trusted party succeeds, the digest a peer sent is the
    trusted party's ... *)
Theorem C39_digests_agree : forall C e c input out c' out' pe (p : peer C) pout p' m i,
  crypto_ok C -> tp_wf c -> is_u64 (e_s e 0) -> t_step c = 8 -> tp_next C e c input out = Ok (0, c', out') ->
  zlen (p_sid C p) = 32 -> is_u64 (pe_s pe 0) -> 0 <= p_index C p < 256 -> p_step C p = 8 -> peer_next C pe p [] pout = Ok (0, p', m) ->
  0 <= i < t_n c -> rd input (i * msg19_SIZE) msg19_SIZE = Ok m ->
  blake2b (cH C) 32 (p_transcript C p) = blake2b (cH C) 32 (t_transcript c).
Proof. exact digests_agree. Qed.
Print Assumptions C39_digests_agree.

Example C39_digests_nonvacuous : exists c input out c' out' (p : peer toyC) pout p' m i, crypto_ok toyC /\ tp_wf c /\ is_u64 (e_s (d_env_ 8) 0) /\ t_step c = 8 /\
  tp_next toyC (d_env_ 8) c input out = Ok (0, c', out') /\ zlen (p_sid toyC p) = 32 /\ is_u64 (pe_s (d_penv 1 8) 0) /\ 0 <= p_index toyC p < 256 /\
  p_step toyC p = 8 /\ peer_next toyC (d_penv 1 8) p [] pout = Ok (0, p', m) /\ 0 <= i < t_n c /\ rd input (i * msg19_SIZE) msg19_SIZE = Ok m.
Proof. exact C39_digest_example. Qed.

(** ... and equal digests mean that both parties absorbed the same start message and the same
    sequence of broadcasts, or the two transcripts they hashed are a collision: they differ, and
    their digests (by the last hypothesis) are the same. *)
Theorem C39_same_broadcasts_or_collision : forall C
    c0 eps n t name buf sid sk now c1 msg0 com cmax enc chmax pks lt now2 calls outs
    (p0 : peer C) peps plt pmsg0 pnow p1 ppks pnpks pouts0 pins pshares pxshares pcom pcmax pmymax pcalls pouts,
  start_tp C c0 eps n t name buf sid sk now = Ok (0, c1, msg0) ->
  let c2 := tp_set_bufs c1 com cmax enc chmax pks lt now2 in
  tp_wf c2 -> tp_run C c2 calls = Ok outs -> Forall (fun o => fst (fst o) = 0) outs ->
  start_peer C p0 peps plt pmsg0 pnow = Ok (0, p1) -> zlen msg0 = msg0_SIZE -> zlen pmsg0 = msg0_SIZE ->
  let p2 := peer_set_bufs C p1 ppks pnpks pouts0 pins pshares pxshares pcom pcmax pmymax in
  peer_run C p2 pcalls = Ok pouts -> Forall (fun o => fst (fst o) = 0) pouts ->
  blake2b (cH C) 32 (p_transcript C (final p2 pouts)) = blake2b (cH C) 32 (t_transcript (final c2 outs)) ->
  (pmsg0 = msg0 /\ peer_heard C p2 pcalls pouts = tp_said c2 outs) \/
  p_transcript C (final p2 pouts) <> t_transcript (final c2 outs).
Proof. exact same_broadcasts_or_collision. Qed.
Print Assumptions C39_same_broadcasts_or_collision.

Example C39_nonvacuous : exists outs pouts,
  start_tp toyC d_blank 3600 3 2 [x70] (zeros (Z.to_nat msg0_SIZE)) tx_sid tx_sk tx_now = Ok (0, d_c1, d_msg0) /\ tp_wf (d_bufs d_c1) /\
  tp_run toyC (d_bufs d_c1) d_calls = Ok outs /\ Forall (fun o => fst (fst o) = 0) outs /\
  start_peer toyC d_pblank 3600 (d_lt 1) d_msg0 (tx_now + 1) = Ok (0, d_p1 1) /\ zlen d_msg0 = msg0_SIZE /\
  peer_run toyC (d_pbufs (d_p1 1)) d_pcalls = Ok pouts /\ Forall (fun o => fst (fst o) = 0) pouts /\
  p_transcript toyC (final (d_pbufs (d_p1 1)) pouts) = t_transcript (final (d_bufs d_c1) outs) /\ length (tp_said (d_bufs d_c1) outs) = 3%nat.
Proof. exact C39_example. Qed.

(** C41.  In the relay steps peer i is given n messages, the j-th of which is the i-th of the n
    messages peer j submitted ... *)
Theorem C41_relayed_unchanged : forall C e c input out c' out' i j, 1 <= t_n c -> In (t_step c) [2; 3; 5] ->
  tp_next C e c input out = Ok (0, c', out') -> 0 <= i < t_n c -> 0 <= j < t_n c ->
  let sz := relay_size (t_step c) in
  exists off, tp_peer_msg c' (zlen out') i = (0, Some (off, t_n c * sz)) /\
    rd out' (off + j * sz) sz = rd input (j * (t_n c * sz) + i * sz) sz /\ is_ok (rd out' (off + j * sz) sz).
Proof. exact relay_unchanged. Qed.
Print Assumptions C41_relayed_unchanged.

(** ... and whose header peer j signed for peer i. *)
Theorem C41_relayed_authentic : forall C e c input out c' out' i j, 1 <= t_n c -> In (t_step c) [2; 3; 5] ->
  tp_next C e c input out = Ok (0, c', out') -> 0 <= i < t_n c -> 0 <= j < t_n c ->
  let sz := relay_size (t_step c) in
  exists pk, getz (t_pks c) j = Ok pk /\
    delivered C input (j * (t_n c * sz) + i * sz) sz pk (t_sid c) (relay_msgno (t_step c)) (j + 1) (i + 1).
Proof. exact relay_authentic. Qed.
Print Assumptions C41_relayed_authentic.

Example C41_nonvacuous : exists c input out c' out', 1 <= t_n c /\ In (t_step c) [2; 3; 5] /\ tp_next toyC (d_env_ 5) c input out = Ok (0, c', out') /\
  rd input 0 256 <> rd input 256 256.
Proof. exact C41_example. Qed.

(** C46.  Full statement: if the final step succeeds, every acknowledgement said OK.  False: *)
Theorem C46_acks_ok_refuted : exists C e c input out c' out' i, crypto_ok C /\ tp_wf c /\ t_step c = 9 /\ 0 <= i < t_n c /\
  tp_next C e c input out = Ok (0, c', out') /\ t_cheaters c' = [] /\ rd input (i * msg21_SIZE + 111) 2 = Ok str_NO.
Proof. exact C46_refutation. Qed.
Print Assumptions C46_acks_ok_refuted.

(** What holds: every peer signed an acknowledgement ... *)
Theorem C46_acks_signed_partial : forall C e c input out c' out', tp_wf c -> t_step c = 9 ->
  tp_next C e c input out = Ok (0, c', out') -> forall i, 0 <= i < t_n c ->
  exists pk, getz (t_pks c) i = Ok pk /\ delivered C input (i * msg21_SIZE) msg21_SIZE pk (t_sid c) 22 (i + 1) 0.
Proof. exact acks_signed. Qed.
Print Assumptions C46_acks_signed_partial.

(** ... and a peer that follows the code only sends acknowledgements that say OK. *)
Theorem C46_honest_ack_partial : forall C e (p : peer C) input out p' out', crypto_ok C -> zlen (p_sid C p) = 32 -> is_u64 (pe_s e 0) ->
  0 <= p_index C p < 256 -> p_step C p = 9 -> peer_next C e p input out = Ok (0, p', out') ->
  rd out' 111 2 = Ok str_OK /\ signed (cS C) (sig_pk (cS C) (p_sk C p)) (p_sid C p) 22 (p_index C p) 0 (pe_s e 0) str_OK out'.
Proof. exact ack_says_ok. Qed.
Print Assumptions C46_honest_ack_partial.

Example C46_nonvacuous : exists c input out c' out', tp_wf c /\ t_step c = 9 /\ tp_next toyC (d_env_ 9) c input out = Ok (0, c', out').
Proof. exact C46_example. Qed.

(** C51.  If the trusted party accepts the session keys, then peer i's message - with its session
    public key and its noise public key - carries a valid signature under the long-term key
    registered for peer i, and a header signature under the session key itself. *)
Theorem C51_keys_signed : forall C e c input out c' out', crypto_ok C -> tp_wf c -> is_u64 (e_s e 0) -> t_step c = 1 ->
  tp_next C e c input out = Ok (0, c', out') ->
  forall i, 0 <= i < t_n c -> exists m ltsig lt pk,
    rd input (i * (msg2_SIZE + sign_BYTES)) msg2_SIZE = Ok m /\ rd input (i * (msg2_SIZE + sign_BYTES) + msg2_SIZE) sign_BYTES = Ok ltsig /\
    getz (t_lt c) i = Ok lt /\ sig_verify (cS C) lt m ltsig = true /\
    rd m 111 32 = Ok pk /\ getz (t_pks c') i = Ok pk /\
    delivered C input (i * (msg2_SIZE + sign_BYTES)) msg2_SIZE pk (t_sid c) 2 (i + 1) 255.
Proof. exact keys_signed. Qed.
Print Assumptions C51_keys_signed.

Example C51_nonvacuous : exists c input out c' out', crypto_ok toyC /\ tp_wf c /\ is_u64 (e_s (d_env_ 1) 0) /\ t_step c = 1 /\
  tp_next toyC (d_env_ 1) c input out = Ok (0, c', out').
Proof. exact C51_example. Qed.

(** C52.  A peer that accepts the broadcast session keys holds the trusted party's list of keys. *)
Theorem C52_keys_agree : forall C e c input out c' out' pe (p : peer C) pout p' pout',
  crypto_ok C -> tp_wf c -> is_u64 (e_s e 0) -> t_step c = 1 -> tp_next C e c input out = Ok (0, c', out') ->
  p_step C p = 1 -> p_n C p = t_n c -> zlen (p_pks C p) = t_n c ->
  peer_next C pe p out' pout = Ok (0, p', pout') -> p_pks C p' = t_pks c'.
Proof. exact keys_agree. Qed.
Print Assumptions C52_keys_agree.

Example C52_nonvacuous : exists c input out c' out' (p : peer toyC) pout p' pout', crypto_ok toyC /\ tp_wf c /\ is_u64 (e_s (d_env_ 1) 0) /\ t_step c = 1 /\
  tp_next toyC (d_env_ 1) c input out = Ok (0, c', out') /\ p_step toyC p = 1 /\ p_n toyC p = t_n c /\ zlen (p_pks toyC p) = t_n c /\
  peer_next toyC (d_penv 1 1) p out' pout = Ok (0, p', pout').
Proof. exact C52_example. Qed.

(** C53.  A peer that accepts the broadcast commitments holds the trusted party's commitments. *)
Theorem C53_commitments_agree : forall C e c input out c' out' pe (p : peer C) pout p' pout',
  crypto_ok C -> tp_wf c -> is_u64 (e_s e 0) -> t_step c = 4 -> tp_next C e c input out = Ok (0, c', out') ->
  p_step C p = 4 -> p_n C p = t_n c -> p_t C p = t_t c -> zlen (p_com C p) = t_n c ->
  peer_next C pe p out' pout = Ok (0, p', pout') -> p_com C p' = t_com c'.
Proof. exact commitments_agree. Qed.
Print Assumptions C53_commitments_agree.

Example C53_nonvacuous : exists c input out c' out' (p : peer toyC) pout p' pout', crypto_ok toyC /\ tp_wf c /\ is_u64 (e_s (d_env_ 4) 0) /\ t_step c = 4 /\
  tp_next toyC (d_env_ 4) c input out = Ok (0, c', out') /\ p_step toyC p = 4 /\ p_n toyC p = t_n c /\ p_t toyC p = t_t c /\ zlen (p_com toyC p) = t_n c /\
  peer_next toyC (d_penv 1 4) p out' pout = Ok (0, p', pout').
Proof. exact C53_example. Qed.
