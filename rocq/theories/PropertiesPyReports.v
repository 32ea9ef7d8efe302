(** Property theorems C89: the list of cheaters in Python (pyoprf.tpdkg_get_cheaters).
    Vocabulary: PySpec.v ([py_tp_run]), BlameSpec.v ([blames], [unnamed]), PyReportModel.v ([report_text]: the
    text of a report in full). *)
From Coq Require Import String.
From Coq Require Import ZArith Lia List Bool.
From Coq.Strings Require Import Byte.
From Verif Require Import Bytes Res Mem Sodium WireModel WireSpec TpCrypto TpModel CheaterModel TpSpec BlameSpec PyModel PySpec PyReportModel.
From Verif Require Import PyReports PyReportExamples.
Import ListNotations.
Open Scope list_scope.
Open Scope Z_scope.

(** C89.  Full statement: ... and every element of the set is one of the peers 1..n.  False: *)
Theorem C89_peers_named_refuted : exists C al addr n t eps name lts sid sk now now' c0 msg0 calls outs c, crypto_ok C /\
  py_start_tp C al addr n t eps name lts sid sk now now' = Ret (c0, msg0) /\
  2 <= n <= 128 /\ 2 <= t < n /\ zlen sid = 32 /\ 32 * n <= zlen (concat lts) /\
  py_tp_run C c0 calls = Ret (outs, c) /\ t_cheaters c = [mkCheater 4 65 1 255 0] /\
  py_get_cheaters c = Ret ([0], [(0, list_byte_of_string "invalid step 4")]).
Proof. exact C89_zero_witness. Qed.
Print Assumptions C89_peers_named_refuted.

(** What holds: after any history no exception is raised, there is one report for each recorded entry,
    in order and with the whole text, and the set is that of the peers the reports name.  Its elements are
    peers, apart from 0, which is in it exactly if one of the reports names nobody. *)
Theorem C89_get_cheaters_partial : forall C al addr n t eps name lts sid sk now now' c0 msg0 calls outs c, crypto_ok C ->
  py_start_tp C al addr n t eps name lts sid sk now now' = Ret (c0, msg0) ->
  0 <= n < 256 -> 1 <= t < 256 -> zlen sid = 32 -> 32 * n <= zlen (concat lts) ->
  py_tp_run C c0 calls = Ret (outs, c) ->
  exists named cheats, py_get_cheaters c = Ret (named, cheats) /\
    cheats = map (fun ch => (blames ch, report_text (fst (cheater_msg ch)))) (t_cheaters c) /\
    NoDup named /\ (forall p, In p named <-> exists ch, In ch (t_cheaters c) /\ blames ch = p) /\
    (forall p, In p named -> p <> 0 -> 1 <= p <= n) /\
    (In 0 named <-> exists ch, In ch (t_cheaters c) /\ unnamed ch).
Proof. exact python_cheaters. Qed.
Print Assumptions C89_get_cheaters_partial.

Example C89_nonvacuous : exists al addr n t eps name lts sid sk now now' c0 msg0 calls outs c, crypto_ok toyC /\
  py_start_tp toyC al addr n t eps name lts sid sk now now' = Ret (c0, msg0) /\
  2 <= n <= 128 /\ 2 <= t < n /\ zlen sid = 32 /\ 32 * n <= zlen (concat lts) /\
  py_tp_run toyC c0 calls = Ret (outs, c) /\ t_cheaters c = [mkCheater 4 66 1 255 0] /\
  py_get_cheaters c = Ret ([1], [(1, list_byte_of_string "step 4 message from peer 1 for peer 255 could not be validated: invalid message number")]).
Proof. exact C89_example. Qed.
