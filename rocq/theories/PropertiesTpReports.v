(** Property C79: a cheater report says what happened. *)
From Coq Require Import ZArith List Bool.
From Coq.Strings Require Import Byte.
From Verif Require Import Bytes Res Mem Sodium ToprfModel DkgModel WireModel WireSpec TpCrypto TpModel CheaterModel TpRun TpSpec BlameSpec ReportSpec.
From Verif Require Import TpTruth ReportExamples.
Import ListNotations.
Open Scope list_scope.
Open Scope Z_scope.

(** The text of a report need not be true: a peer that answered a complaint with a wrong key is reported
    as having revealed a key that nobody asked for ... *)
Theorem C79_wrong_text_refuted : exists C c calls e input out outs1 outs ch, crypto_ok C /\ tp_wf c /\ t_complaints c = [] /\ t_cheaters c = [] /\
  tp_run C c calls = Ok outs1 /\ tp_run C c (calls ++ [(e, input, out)]) = Ok outs /\ t_cheaters (final c outs) = [ch] /\
  fst (cheater_msg ch) = NotComplainedAbout 2 1 /\ complaint (final c outs1) 1 2.
Proof. exact wrong_key_witness. Qed.
Print Assumptions C79_wrong_text_refuted.

(** ... and if a complaint of peer 1 about peer 2 is not answered, the report says that peer 1 did not
    answer a complaint of peer 2. *)
Theorem C79_swapped_peers_refuted : exists C c calls e input out outs1 outs ch, crypto_ok C /\ tp_wf c /\ t_complaints c = [] /\ t_cheaters c = [] /\
  tp_run C c calls = Ok outs1 /\ tp_run C c (calls ++ [(e, input, out)]) = Ok outs /\ In ch (t_cheaters (final c outs)) /\
  fst (cheater_msg ch) = Unverified 1 2 /\ complaint (final c outs1) 1 2 /\ ~ complaint (final c outs1) 2 1.
Proof. exact swapped_witness. Qed.
Print Assumptions C79_swapped_peers_refuted.

(** Any history of calls on any inputs.  Each entry of the list of cheaters was made by one of the calls,
    and what it stands for is a fact about the state, the clocks and the messages of that call.  The text
    printed for it is true, unless the entry is one of the listed kinds; for these it is never true (in two
    of them, where only numbers are swapped, it might be by chance). *)
Theorem C79_reports_true_partial : forall C calls c outs, crypto_ok C -> tp_wf c -> t_complaints c = [] -> t_cheaters c = [] ->
  tp_run C c calls = Ok outs -> forall ch, In ch (t_cheaters (final c outs)) ->
  exists before e input out after outs1, calls = before ++ (e, input, out) :: after /\ tp_run C c before = Ok outs1 /\
    let now := final c outs1 in
    happened C e now input ch /\
    (~ misreported ch -> true_report C e now input (fst (cheater_msg ch))) /\
    (misreported ch -> ~ (ch_step ch = 18 /\ (ch_error ch = 5 \/ ch_error ch = 7)) -> ~ true_report C e now input (fst (cheater_msg ch))).
Proof. exact C79_history. Qed.
Print Assumptions C79_reports_true_partial.

Example C79_nonvacuous : exists C c calls outs ch1 ch2 ch3, crypto_ok C /\ tp_wf c /\ t_complaints c = [] /\ t_cheaters c = [] /\ tp_run C c calls = Ok outs /\
  t_cheaters (final c outs) = [ch1; ch2] /\ ~ misreported ch1 /\ fst (cheater_msg ch1) = KeyForHappyPeer 2 3 /\ misreported ch2 /\
  exists calls' outs', tp_run C c calls' = Ok outs' /\ t_cheaters (final c outs') = [ch3] /\ misreported ch3 /\ fst (cheater_msg ch3) = NotComplainedAbout 2 1.
Proof. exact C79_example. Qed.
