(** Property theorems about complaints, blame and starting parameters: C37, C38, C43, C45, C47.
    Vocabulary: BlameSpec.v, TpSpec.v, DkgSpec.v ([matches], [cheated], [unusable_dealer]). *)
From Coq Require Import ZArith Lia List Bool.
From Coq.Strings Require Import Byte.
From Verif Require Import Bytes Res Mem Sodium ToprfModel DkgModel DkgSpec WireModel WireSpec TpCrypto TpModel PeerModel CheaterModel TpRun TpSpec TpExamples TpRunExamples.
From Verif Require Import BlameSpec TpBlame TpReports TpStart TpMisc BlameExamples.
Import ListNotations.
Open Scope list_scope.
Open Scope Z_scope.

(** C37.  Peer b complained about peer a, and a revealed the key of the channel between them.
    If the share opens under that key, exactly one of the two is blamed, according to whether the
    share matches the commitments of a (a complaint about oneself counts as unfounded). *)
Theorem C37_answered_partial : forall C e c input out c' out' a b key sh row,
  crypto_ok C -> tp_wf c -> Forall (complaint_ok (t_n c)) (t_complaints c) -> NoDup (t_complaints c) -> t_step c = 7 ->
  tp_next C e c input out = Ok (3, c', out') -> 1 <= a <= t_n c -> 1 <= b <= t_n c -> In (b * 256 + a) (t_complaints c) ->
  reveal_accepted C e c input a -> answers c input a b key -> share_kept C c a b -> opens C c a b key sh -> s_index sh = b ->
  getz (t_com c) (a - 1) = Ok row ->
  exists new, recorded c c' new /\
    (exists ch, In ch new /\ ch_step ch = 18 /\ ch_peer ch = a /\ ch_other ch = b /\
      ((a = b \/ matches (cR C) b row (s_value sh)) -> blames ch = b) /\
      (~ (a = b \/ matches (cR C) b row (s_value sh)) -> blames ch = a)) /\
    ~ In (mkCheater 18 7 b a 0) new.
Proof. exact complaint_answered. Qed.
Print Assumptions C37_answered_partial.

(** both verdicts occur *)
Example C37_answered_nonvacuous : forall good : bool, exists c input c' out' key sh row,
  crypto_ok toyC /\ tp_wf c /\ Forall (complaint_ok (t_n c)) (t_complaints c) /\ NoDup (t_complaints c) /\ t_step c = 7 /\
  tp_next toyC (d_env_ 7) c input [] = Ok (3, c', out') /\ 1 <= 2 <= t_n c /\ 1 <= 1 <= t_n c /\ In (1 * 256 + 2) (t_complaints c) /\
  reveal_accepted toyC (d_env_ 7) c input 2 /\ answers c input 2 1 key /\ share_kept toyC c 2 1 /\ opens toyC c 2 1 key sh /\ s_index sh = 1 /\
  getz (t_com c) (2 - 1) = Ok row /\ (if good then matches toyR 1 row (s_value sh) else ~ matches toyR 1 row (s_value sh)).
Proof. exact C37_answered_example. Qed.

(** If the revealed key does not open the message to a share for b, the accused is blamed. *)
Theorem C37_bad_key_partial : forall C e c input out c' out' a b key,
  tp_wf c -> Forall (complaint_ok (t_n c)) (t_complaints c) -> NoDup (t_complaints c) -> t_step c = 7 ->
  tp_next C e c input out = Ok (3, c', out') -> 1 <= a <= t_n c -> 1 <= b <= t_n c -> In (b * 256 + a) (t_complaints c) ->
  reveal_accepted C e c input a -> answers c input a b key -> share_kept C c a b -> (forall sh, opens C c a b key sh -> s_index sh <> b) ->
  exists new, recorded c c' new /\
    (exists ch, In ch new /\ ch_step ch = 18 /\ ch_peer ch = a /\ ch_other ch = b /\ blames ch = a) /\ ~ In (mkCheater 18 7 b a 0) new.
Proof. exact complaint_bad_key. Qed.
Print Assumptions C37_bad_key_partial.

Example C37_bad_key_nonvacuous : exists c input c' out' key,
  tp_wf c /\ Forall (complaint_ok (t_n c)) (t_complaints c) /\ NoDup (t_complaints c) /\ t_step c = 7 /\
  tp_next toyC (d_env_ 7) c input [] = Ok (3, c', out') /\ 1 <= 2 <= t_n c /\ 1 <= 1 <= t_n c /\ In (1 * 256 + 2) (t_complaints c) /\
  reveal_accepted toyC (d_env_ 7) c input 2 /\ answers c input 2 1 key /\ share_kept toyC c 2 1 /\ (forall sh, opens toyC c 2 1 key sh -> s_index sh <> 1).
Proof. exact C37_bad_key_example. Qed.

(** The last part of C37 is false of the code: a complaint the accused a leaves unanswered is
    always recorded as cheating by the complainer b. *)
Theorem C37_unanswered_blames_complainer_refuted : forall C e c input out c' out' a b,
  tp_wf c -> Forall (complaint_ok (t_n c)) (t_complaints c) -> NoDup (t_complaints c) -> t_step c = 7 ->
  tp_next C e c input out = Ok (3, c', out') -> 1 <= a <= t_n c -> 1 <= b <= t_n c -> In (b * 256 + a) (t_complaints c) ->
  ~ reveal_accepted C e c input a \/ no_answer c input a b ->
  exists new, recorded c c' new /\ exists ch, In ch new /\ ch_step ch = 18 /\ ch_error ch = 7 /\ ch_peer ch = b /\ ch_other ch = a /\ blames ch = b.
Proof. exact unanswered_blames_complainer. Qed.
Print Assumptions C37_unanswered_blames_complainer_refuted.

Example C37_unanswered_nonvacuous : exists c input c' out',
  tp_wf c /\ Forall (complaint_ok (t_n c)) (t_complaints c) /\ NoDup (t_complaints c) /\ t_step c = 7 /\
  tp_next toyC (d_env_ 7) c input [] = Ok (3, c', out') /\ 1 <= 2 <= t_n c /\ 1 <= 1 <= t_n c /\ In (1 * 256 + 2) (t_complaints c) /\
  no_answer c input 2 1.
Proof. exact C37_unanswered_example. Qed.

(** C38.  False as stated: an entry recorded for peer 1 is reported as cheating by nobody. *)
Theorem C38_report_names_peer_refuted : exists C e c input out c' out' ch, crypto_ok C /\ tp_wf c /\ t_step c = 1 /\ t_cheaters c = [] /\
  tp_next C e c input out = Ok (6, c', out') /\ In ch (t_cheaters c') /\ ch_peer ch = 1 /\ blames ch = 0.
Proof. exact C38_refutation. Qed.
Print Assumptions C38_report_names_peer_refuted.

(** What the entries of every history are, and whom the report names for each of them: nobody for
    those in [unnamed], the complainer for an unfounded complaint, the recorded peer otherwise. *)
Theorem C38_reports_partial : forall C calls c outs, tp_wf c -> t_complaints c = [] -> t_cheaters c = [] -> tp_run C c calls = Ok outs ->
  forall ch, In ch (t_cheaters (final c outs)) -> recordable (t_n c) ch /\
    (unnamed ch -> blames ch = 0) /\
    (ch_step ch = 18 /\ ch_error ch = 128 -> blames ch = ch_other ch) /\
    (~ unnamed ch -> ~ (ch_step ch = 18 /\ ch_error ch = 128) -> blames ch = ch_peer ch).
Proof. exact reports_history. Qed.
Print Assumptions C38_reports_partial.

Example C38_nonvacuous : exists calls outs, tp_wf d_tp_6 /\ t_complaints d_tp_6 = [] /\ t_cheaters d_tp_6 = [] /\ tp_run toyC d_tp_6 calls = Ok outs /\
  t_cheaters (final d_tp_6 outs) = [mkCheater 18 128 2 1 0].
Proof. exact C38_example. Qed.

(** C43.  False as stated: a peer that processed a broadcast with a complaint is not done after its
    reveal step. *)
Theorem C43_all_peers_stop_refuted : exists C e c input out c' out' pe (p : peer C) p1 pout1 pe2 p2 pout2, crypto_ok C /\ tp_wf c /\
  t_step c = 6 /\ tp_next C e c input out = Ok (0, c', out') /\ t_complaints c' <> [] /\
  p_step C p = 6 /\ p_n C p = t_n c /\ 1 <= p_index C p <= t_n c /\ peer_next C pe p out' [] = Ok (0, p1, pout1) /\ p_complaints C p1 = t_complaints c' /\
  peer_next C pe2 p1 [] [] = Ok (0, p2, pout2) /\ peer_not_done C p2 = true.
Proof. exact C43_refutation. Qed.
Print Assumptions C43_all_peers_stop_refuted.

(** This is so for every peer nobody complained about: its reveal step only moves it on to the
    transcript step ... *)
Theorem C43_unaccused_continues : forall C e (c : peer C), p_step C c = 7 -> p_complaints C c <> [] -> p_my C c = [] ->
  exists c', peer_next C e c [] [] = Ok (0, c', []) /\ c' = peer_step_set C c 8 7.
Proof. exact unaccused_continues. Qed.
Print Assumptions C43_unaccused_continues.

(** ... which succeeds too. *)
Theorem C43_unaccused_sends_digest : forall C e (c : peer C) out, crypto_ok C -> p_step C c = 8 -> zlen (p_sid C c) = 32 -> is_byte (p_index C c) ->
  is_u64 (pe_s e 0) -> zlen out = msg19_SIZE ->
  exists m, peer_next C e c [] out = Ok (0, peer_step_set C c 9 8, m) /\ zlen m = msg19_SIZE /\
    signed (cS C) (sig_pk (cS C) (p_sk C c)) (p_sid C c) 20 (p_index C c) 0 (pe_s e 0) (blake2b (cH C) 32 (p_transcript C c)) m.
Proof. exact step19_forward. Qed.
Print Assumptions C43_unaccused_sends_digest.

(** The parts that hold: the trusted party fails in its next call, whatever it is given, and the
    accused peers are done after their reveal step. *)
Theorem C43_tp_fails_partial : forall C e c input out ret c' out' e2 input2 out2 ret2 c2 out2',
  t_step c = 6 -> tp_next C e c input out = Ok (ret, c', out') -> t_complaints c' <> [] ->
  tp_next C e2 c' input2 out2 = Ok (ret2, c2, out2') -> ret2 <> 0 /\ tp_not_done c2 = false.
Proof. exact complaint_tp_fails. Qed.
Print Assumptions C43_tp_fails_partial.

Example C43_tp_nonvacuous : exists c input out c' out' input2 c2 out2, t_step c = 6 /\ tp_next toyC (d_env_ 6) c input out = Ok (0, c', out') /\ t_complaints c' <> [] /\
  tp_next toyC (d_env_ 7) c' input2 [] = Ok (3, c2, out2).
Proof. exact C43_tp_example. Qed.

Theorem C43_accused_done_partial : forall C e (c : peer C) input out c' out', p_step C c = 7 -> p_complaints C c <> [] -> p_my C c <> [] ->
  peer_next C e c input out = Ok (0, c', out') -> peer_not_done C c' = false.
Proof. exact accused_done. Qed.
Print Assumptions C43_accused_done_partial.

Example C43_accused_nonvacuous : exists (p : peer toyC) out p' out', p_step toyC p = 7 /\ p_complaints toyC p <> [] /\ p_my toyC p <> [] /\
  peer_next toyC (d_penv 1 7) p [] out = Ok (0, p', out').
Proof. exact C43_accused_example. Qed.

(** C45.  False as stated: the trusted party starts with threshold 1, which the peers refuse. *)
Theorem C45_same_parameters_refuted : exists C c eps n t name buf sid sk now c' msg0 (p : peer C) lt pnow p', crypto_ok C /\
  start_tp C c eps n t name buf sid sk now = Ok (0, c', msg0) /\ zlen sid = 32 /\ is_u64 now /\ fresh eps 0 now pnow /\
  start_peer C p eps lt msg0 pnow = Ok (1, p') /\ ~ 2 <= t.
Proof. exact C45_refutation. Qed.
Print Assumptions C45_same_parameters_refuted.

(** Exactly: the trusted party starts only if 2 <= n <= 128 and t < n; a peer whose clock is
    close enough accepts iff also 2 <= t, and then has the same parameters, session and key. *)
Theorem C45_same_parameters_partial : forall C c eps n t name buf sid sk now c' msg0 p peps lt pnow,
  crypto_ok C -> start_tp C c eps n t name buf sid sk now = Ok (0, c', msg0) -> 0 <= t -> zlen sid = 32 -> is_u64 now -> fresh peps 0 now pnow ->
  exists p', start_peer C p peps lt msg0 pnow = Ok ((if t <? 2 then 1 else 0), p') /\
    p_n C p' = t_n c' /\ p_t C p' = t_t c' /\ p_sid C p' = t_sid c' /\ p_tp_pk C p' = t_pk c' /\ t_n c' = n /\ t_t c' = t /\ 2 <= n <= 128 /\ t < n.
Proof. exact parameters_agree. Qed.
Print Assumptions C45_same_parameters_partial.

Example C45_nonvacuous : exists c' msg0, start_tp toyC d_blank 3600 3 2 [x70] (zeros (Z.to_nat msg0_SIZE)) tx_sid tx_sk tx_now = Ok (0, c', msg0) /\
  zlen tx_sid = 32 /\ is_u64 tx_now /\ fresh 3600 0 tx_now (tx_now + 1).
Proof. exact C45_example. Qed.

(** C47.  False as stated: a peer that received a bad share complains about nobody (because another
    dealer published unusable commitments). *)
Theorem C47_no_suppression_refuted : exists C e (p : peer C) input out p' out' j, crypto_ok C /\ p_step C p = 5 /\ 1 <= p_n C p <= 128 /\ 1 <= p_t C p /\ 1 <= p_index C p <= 128 /\
  zlen (p_com C p) = p_n C p /\ Forall (fun row => zlen row = p_t C p) (p_com C p) /\ zlen (p_xshares C p) = p_n C p /\
  peer_next C e p input out = Ok (0, p', out') /\ cheated (cR C) (p_index C p) (p_com C p') (p_xshares C p') j /\ named out' = [].
Proof. exact C47_refutation. Qed.
Print Assumptions C47_no_suppression_refuted.

(** Exactly: the message names the cheating dealers before the first one with unusable commitments,
    and all of them if there is none of that kind. *)
Theorem C47_complaints_partial : forall C e (c : peer C) input out c' out',
  crypto_ok C -> p_step C c = 5 -> 1 <= p_n C c <= 128 -> 1 <= p_t C c -> 1 <= p_index C c <= 128 ->
  zlen (p_com C c) = p_n C c -> Forall (fun row => zlen row = p_t C c) (p_com C c) -> zlen (p_xshares C c) = p_n C c ->
  zlen (p_sid C c) = 32 -> is_u64 (pe_s e 0) ->
  peer_next C e c input out = Ok (0, c', out') ->
  p_com C c' = p_com C c /\ zlen (p_xshares C c') = p_n C c /\ zlen out' = msg9_SIZE (p_n C c) /\
  (exists body, signed (cS C) (sig_pk (cS C) (p_sk C c)) (p_sid C c) 9 (p_index C c) 255 (pe_s e 0) body out') /\
  ((exists u, 1 <= u <= p_n C c /\ unusable_dealer (cR C) (p_index C c) (p_com C c') (p_xshares C c') u /\
      (forall j, 1 <= j < u -> ~ unusable_dealer (cR C) (p_index C c) (p_com C c') (p_xshares C c') j) /\
      (forall j, In j (named out') <-> 1 <= j < u /\ cheated (cR C) (p_index C c) (p_com C c') (p_xshares C c') j)) \/
   ((forall j, ~ unusable_dealer (cR C) (p_index C c) (p_com C c') (p_xshares C c') j) /\
    (forall j, In j (named out') <-> cheated (cR C) (p_index C c) (p_com C c') (p_xshares C c') j))).
Proof. exact complains_exactly. Qed.
Print Assumptions C47_complaints_partial.

Example C47_nonvacuous : exists (p : peer toyC) input out p' out', crypto_ok toyC /\ p_step toyC p = 5 /\ 1 <= p_n toyC p <= 128 /\ 1 <= p_t toyC p /\ 1 <= p_index toyC p <= 128 /\
  zlen (p_com toyC p) = p_n toyC p /\ Forall (fun row => zlen row = p_t toyC p) (p_com toyC p) /\ zlen (p_xshares toyC p) = p_n toyC p /\
  zlen (p_sid toyC p) = 32 /\ is_u64 (pe_s (d_penv 1 5) 0) /\
  peer_next toyC (d_penv 1 5) p input out = Ok (0, p', out') /\ cheated toyR (p_index toyC p) (p_com toyC p') (p_xshares toyC p') 3 /\ named out' = [3].
Proof. exact C47_example. Qed.
