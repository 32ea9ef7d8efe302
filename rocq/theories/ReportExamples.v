(** Concrete cheater reports, over the toy primitives. *)
From Coq Require Import ZArith Lia List Bool.
From Coq.Strings Require Import Byte.
From Verif Require Import Bytes Res Mem Sodium ToprfModel DkgModel DkgSpec DkgProofs WireModel WireSpec TpCrypto TpModel PeerModel CheaterModel TpRun TpSpec TpMsg TpControl TpExamples TpRunExamples.
From Verif Require Import BlameSpec TpBlame TpReports TpStart TpMisc BlameExamples ReportSpec.
Import ListNotations.
Open Scope list_scope.
Open Scope Z_scope.

(** the trusted party from step 4 on: commitments, shares and complaints (peer 1 complains about peer 2) *)
Definition r_calls : list tp_call :=
  map (fun x => (d_env_ (fst (fst x)), snd (fst x), zeros (Z.to_nat (snd x)))) [(4, d_net_4, 636); (5, d_net_5, 2304); (6, d_complain, 456)].
(** ... and then the keys revealed by peer 2 *)
Definition r_last (input : bytes) : tp_call := (d_env_ 7, input, []).

Lemma r_run input entries : (exists v, match tp_run toyC d_tp_4 (r_calls ++ [r_last input]) with Ok l => Some (t_cheaters (final d_tp_4 l)) | UB => None end = Some v /\ v = entries) ->
  exists outs1 outs, tp_run toyC d_tp_4 r_calls = Ok outs1 /\ complaint (final d_tp_4 outs1) 1 2 /\ ~ complaint (final d_tp_4 outs1) 2 1 /\
    tp_run toyC d_tp_4 (r_calls ++ [r_last input]) = Ok outs /\ t_cheaters (final d_tp_4 outs) = entries.
Proof.
  intros (v & H & ->).
  destruct (run_ok (tp_run toyC d_tp_4 r_calls) (fun o => t_complaints (final d_tp_4 o)) [258]) as (outs1 & E1 & H1); [vm_compute; reflexivity|].
  apply run_ok in H. destruct H as (outs & E & H). exists outs1, outs. split; [exact E1|]. unfold complaint. rewrite H1.
  split; [left; reflexivity|]. split; [intros [K|[]]; discriminate|]. split; [exact E|exact H].
Qed.

Lemma r_start : tp_wf d_tp_4 /\ t_complaints d_tp_4 = [] /\ t_cheaters d_tp_4 = [].
Proof. split; [apply wf_of_b; vm_compute; reflexivity|]. split; reflexivity. Qed.

(** peer 2 reveals a wrong key: the report says that it revealed a key nobody asked for *)
Lemma wrong_key_witness : exists C c calls e input out outs1 outs ch, crypto_ok C /\ tp_wf c /\ t_complaints c = [] /\ t_cheaters c = [] /\
  tp_run C c calls = Ok outs1 /\ tp_run C c (calls ++ [(e, input, out)]) = Ok outs /\ t_cheaters (final c outs) = [ch] /\
  fst (cheater_msg ch) = NotComplainedAbout 2 1 /\ complaint (final c outs1) 1 2.
Proof.
  destruct (r_run b_badkey [mkCheater 18 3 2 1 0]) as (outs1 & outs & A1 & A2 & _ & A3 & A4); [eexists; split; vm_compute; reflexivity|].
  destruct r_start as (W1 & W2 & W3).
  exists toyC, d_tp_4, r_calls, (d_env_ 7), b_badkey, [], outs1, outs, (mkCheater 18 3 2 1 0).
  split; [exact toyC_ok|]. split; [exact W1|]. split; [exact W2|]. split; [exact W3|]. split; [exact A1|]. split; [exact A3|]. split; [exact A4|]. split; [reflexivity|exact A2].
Qed.

(** peer 2 does not reveal the key: the report names the two peers in the wrong order *)
Lemma swapped_witness : exists C c calls e input out outs1 outs ch, crypto_ok C /\ tp_wf c /\ t_complaints c = [] /\ t_cheaters c = [] /\
  tp_run C c calls = Ok outs1 /\ tp_run C c (calls ++ [(e, input, out)]) = Ok outs /\ In ch (t_cheaters (final c outs)) /\
  fst (cheater_msg ch) = Unverified 1 2 /\ complaint (final c outs1) 1 2 /\ ~ complaint (final c outs1) 2 1.
Proof.
  destruct (r_run b_unanswered [mkCheater 18 6 2 3 0; mkCheater 18 7 1 2 0]) as (outs1 & outs & A1 & A2 & A2' & A3 & A4); [eexists; split; vm_compute; reflexivity|].
  destruct r_start as (W1 & W2 & W3).
  exists toyC, d_tp_4, r_calls, (d_env_ 7), b_unanswered, [], outs1, outs, (mkCheater 18 7 1 2 0).
  split; [exact toyC_ok|]. split; [exact W1|]. split; [exact W2|]. split; [exact W3|]. split; [exact A1|]. split; [exact A3|].
  split; [rewrite A4; right; left; reflexivity|]. split; [reflexivity|]. split; [exact A2|exact A2'].
Qed.

(** a run with a report that is true and one that is not *)
Lemma C79_example : exists C c calls outs ch1 ch2 ch3, crypto_ok C /\ tp_wf c /\ t_complaints c = [] /\ t_cheaters c = [] /\ tp_run C c calls = Ok outs /\
  t_cheaters (final c outs) = [ch1; ch2] /\ ~ misreported ch1 /\ fst (cheater_msg ch1) = KeyForHappyPeer 2 3 /\ misreported ch2 /\
  exists calls' outs', tp_run C c calls' = Ok outs' /\ t_cheaters (final c outs') = [ch3] /\ misreported ch3 /\ fst (cheater_msg ch3) = NotComplainedAbout 2 1.
Proof.
  destruct (r_run b_unanswered [mkCheater 18 6 2 3 0; mkCheater 18 7 1 2 0]) as (outs1 & outs & _ & _ & _ & A3 & A4); [eexists; split; vm_compute; reflexivity|].
  destruct (r_run b_badkey [mkCheater 18 3 2 1 0]) as (outs1' & outs' & _ & _ & _ & B3 & B4); [eexists; split; vm_compute; reflexivity|].
  destruct r_start as (W1 & W2 & W3).
  exists toyC, d_tp_4, (r_calls ++ [r_last b_unanswered]), outs, (mkCheater 18 6 2 3 0), (mkCheater 18 7 1 2 0), (mkCheater 18 3 2 1 0).
  split; [exact toyC_ok|]. split; [exact W1|]. split; [exact W2|]. split; [exact W3|]. split; [exact A3|]. split; [exact A4|].
  split; [unfold misreported; cbn; lia|]. split; [reflexivity|]. split; [unfold misreported; cbn; lia|].
  exists (r_calls ++ [r_last b_badkey]), outs'. split; [exact B3|]. split; [exact B4|]. split; [unfold misreported; cbn; lia|reflexivity].
Qed.
