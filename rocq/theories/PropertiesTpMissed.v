(** Property C93: the trusted party reports every violation it can see. *)
From Coq Require Import ZArith List Bool.
From Coq.Strings Require Import Byte.
From Verif Require Import Bytes Res Mem Sodium WireModel WireSpec TpCrypto TpModel CheaterModel TpRun TpSpec BlameSpec ReportSpec MissedSpec.
From Verif Require Import TpMissed MissedExamples.
Import ListNotations.
Open Scope list_scope.
Open Scope Z_scope.

(** Not every violation is reported: if the signature with the long-term key of one peer is wrong, the
    session ends, but nobody is named, neither that peer nor another one whose message is damaged. *)
Theorem C93_longterm_signature_refuted : exists C c0 calls outs e input out c' out', crypto_ok C /\ tp_wf c0 /\ t_complaints c0 = [] /\ t_step c0 = 0 /\ tp_run C c0 calls = Ok outs /\
  let c := final c0 outs in tp_next C e c input out = Ok (3, c', out') /\ sized c input out /\ t_step c = 1 /\ 0 < t_chmax c /\
  (exists p, 1 <= p <= t_n c /\ ~ vouched C c input p) /\ (exists p, judged c 4 p 255 /\ vouched C c input p /\ bad_message C e c input 4 p 255 InvalidLen) /\ t_cheaters c' = [].
Proof. exact longterm_witness. Qed.
Print Assumptions C93_longterm_signature_refuted.

(** Any call after any history of calls on any inputs.  As long as the list of cheaters has room (and in
    the step in which the peers announce their session keys, all long-term signatures are right), a message
    whose sender and addressee are not named by a new entry has no fault. *)
Theorem C93_unreported_is_good_partial : forall C c0 calls outs e input out ret c' out', tp_wf c0 -> t_complaints c0 = [] -> t_step c0 = 0 -> tp_run C c0 calls = Ok outs ->
  tp_next C e (final c0 outs) input out = Ok (ret, c', out') -> sized (final c0 outs) input out -> zlen (t_cheaters c') < t_chmax (final c0 outs) ->
  (t_step (final c0 outs) = 1 -> forall p, 1 <= p <= t_n (final c0 outs) -> vouched C (final c0 outs) input p) ->
  exists new, recorded (final c0 outs) c' new /\
    forall step p o, judged (final c0 outs) step p o -> named new step p o \/ good_message C e (final c0 outs) input step p o.
Proof. exact unreported_is_good. Qed.
Print Assumptions C93_unreported_is_good_partial.

Example C93_nonvacuous : exists C c0 calls outs e input out ret c' out', crypto_ok C /\ tp_wf c0 /\ t_complaints c0 = [] /\ t_step c0 = 0 /\ tp_run C c0 calls = Ok outs /\
  let c := final c0 outs in tp_next C e c input out = Ok (ret, c', out') /\ sized c input out /\ zlen (t_cheaters c') < t_chmax c /\
  t_step c = 1 /\ t_n c = 3 /\ (forall p, 1 <= p <= t_n c -> vouched C c input p) /\ judged c 4 1 255 /\ judged c 4 2 255 /\ judged c 4 3 255 /\
  ret = 6 /\ t_cheaters c' = [mkCheater 4 65 1 255 0; mkCheater 4 65 3 255 0].
Proof. exact C93_example. Qed.

(** A call that fails has named somebody, now or earlier, with the one exception above. *)
Theorem C93_failure_names_somebody_partial : forall C c0 calls outs e input out ret c' out', tp_wf c0 -> t_complaints c0 = [] -> t_step c0 = 0 -> tp_run C c0 calls = Ok outs ->
  tp_next C e (final c0 outs) input out = Ok (ret, c', out') -> sized (final c0 outs) input out ->
  0 <= t_step (final c0 outs) <= 9 -> ret <> 0 -> 0 < t_chmax (final c0 outs) ->
  t_cheaters c' <> [] \/ t_step (final c0 outs) = 1 /\ exists p, 1 <= p <= t_n (final c0 outs) /\ ~ vouched C (final c0 outs) input p.
Proof. exact failure_names_somebody. Qed.
Print Assumptions C93_failure_names_somebody_partial.

(** Complaints: each one about a peer is registered; one about nobody, and one that repeats another, is
    reported; too many of them are reported. *)
Theorem C93_complaints : forall C c0 calls outs e input out ret c' out', tp_wf c0 -> t_complaints c0 = [] -> t_step c0 = 0 -> tp_run C c0 calls = Ok outs ->
  tp_next C e (final c0 outs) input out = Ok (ret, c', out') -> sized (final c0 outs) input out ->
  t_step (final c0 outs) = 6 -> zlen (t_cheaters c') < t_chmax (final c0 outs) -> exists new, recorded (final c0 outs) c' new /\
  (forall p k o, complains_at C e (final c0 outs) input p k o ->
    (1 <= o <= t_n (final c0 outs) -> complaint c' p o) /\ (~ 1 <= o <= t_n (final c0 outs) -> named new 16 p o) /\
    (forall k0, k0 < k -> complains_at C e (final c0 outs) input p k0 o -> named new 16 p o)) /\
  (t_t (final c0 outs) * t_t (final c0 outs) <= zlen (t_complaints c') -> In (mkCheater 16 6 254 254 0) new).
Proof. exact complaints_registered. Qed.
Print Assumptions C93_complaints.

Example C93_complaints_nonvacuous : exists c0 calls outs e input out ret c' out', tp_wf c0 /\ t_complaints c0 = [] /\ t_step c0 = 0 /\ tp_run toyC c0 calls = Ok outs /\
  let c := final c0 outs in tp_next toyC e c input out = Ok (ret, c', out') /\ sized c input out /\ zlen (t_cheaters c') < t_chmax c /\
  t_step c = 6 /\ complaint c' 1 2 /\ ret = 5 /\ t_cheaters c' = [mkCheater 16 7 1 200 0; mkCheater 16 8 1 2 0].
Proof. exact C93_complaints_example. Qed.

(** Every complaint ends with an entry naming the complainer and the accused. *)
Theorem C93_complaints_settled : forall C c0 calls outs e input out ret c' out', tp_wf c0 -> t_complaints c0 = [] -> t_step c0 = 0 -> tp_run C c0 calls = Ok outs ->
  tp_next C e (final c0 outs) input out = Ok (ret, c', out') -> sized (final c0 outs) input out ->
  t_step (final c0 outs) = 7 -> zlen (t_cheaters c') < t_chmax (final c0 outs) -> exists new, recorded (final c0 outs) c' new /\
  forall a b, 1 <= a <= t_n (final c0 outs) -> complaint (final c0 outs) b a -> named new 18 a b \/ named new 18 b a.
Proof. exact complaints_settled. Qed.
Print Assumptions C93_complaints_settled.

Example C93_settled_nonvacuous : exists c0 calls outs e input out ret c' out', tp_wf c0 /\ t_complaints c0 = [] /\ t_step c0 = 0 /\ tp_run toyC c0 calls = Ok outs /\
  let c := final c0 outs in tp_next toyC e c input out = Ok (ret, c', out') /\ sized c input out /\ zlen (t_cheaters c') < t_chmax c /\
  t_step c = 7 /\ complaint c 1 2 /\ ret = 3 /\ t_cheaters c' = [mkCheater 18 128 2 1 0].
Proof. exact C93_settled_example. Qed.

(** Every peer whose digest of the transcript differs is named. *)
Theorem C93_digests : forall C c0 calls outs e input out ret c' out', tp_wf c0 -> t_complaints c0 = [] -> t_step c0 = 0 -> tp_run C c0 calls = Ok outs ->
  tp_next C e (final c0 outs) input out = Ok (ret, c', out') -> sized (final c0 outs) input out ->
  t_step (final c0 outs) = 8 -> zlen (t_cheaters c') < t_chmax (final c0 outs) -> exists new, recorded (final c0 outs) c' new /\
  forall p, digest_differs C e (final c0 outs) input p -> named new 20 p 0.
Proof. exact digests_reported. Qed.
Print Assumptions C93_digests.

Example C93_digests_nonvacuous : exists c0 calls outs e input out ret c' out', tp_wf c0 /\ t_complaints c0 = [] /\ t_step c0 = 0 /\ tp_run toyC c0 calls = Ok outs /\
  let c := final c0 outs in tp_next toyC e c input out = Ok (ret, c', out') /\ sized c input out /\ zlen (t_cheaters c') < t_chmax c /\
  t_step c = 8 /\ digest_differs toyC e c input 2 /\ t_cheaters c' = [mkCheater 20 1 2 0 0].
Proof. exact C93_digests_example. Qed.
