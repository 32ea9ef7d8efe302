(** Concrete cases of C89. *)
From Coq Require Import String.
From Coq Require Import ZArith Lia List Bool.
From Coq.Strings Require Import Byte.
From Verif Require Import Bytes Res Mem Sodium ToprfModel DkgModel WireModel WireSpec TpCrypto TpModel PeerModel CheaterModel TpRun TpSpec BlameSpec SafeSpec PyModel PySpec PyReportModel
  TpExamples TpRunExamples SafeExamples PyExamples PySessionExamples.
Import ListNotations.
Open Scope list_scope.
Open Scope Z_scope.

(** the second call gets the session keys with one byte of the message of peer 1 changed *)
Definition pr_calls (off : nat) : list ((Z -> bool) * env * bytes) := [(yes, ps_env 0, []); (yes, ps_env 1, patch off [xff] d_net_1)].

Lemma pr_run off l : match ps_run (pr_calls off) with Ret x => Some (t_cheaters (snd (snd x)), py_get_cheaters (snd (snd x))) | _ => None end = Some l ->
  exists al addr n t eps name lts sid sk now now' c0 msg0 calls outs c, crypto_ok toyC /\
  py_start_tp toyC al addr n t eps name lts sid sk now now' = Ret (c0, msg0) /\
  2 <= n <= 128 /\ 2 <= t < n /\ zlen sid = 32 /\ 32 * n <= zlen (concat lts) /\
  py_tp_run toyC c0 calls = Ret (outs, c) /\ t_cheaters c = fst l /\ py_get_cheaters c = snd l.
Proof.
  intros H. apply py_ok in H. destruct H as ([[c0 msg0] [outs c]] & E & H). cbn [fst snd] in H. apply ps_run_inv in E. destruct E as (E1 & E2). cbn [fst snd] in E2. subst l. cbn [fst snd].
  exists yes, 64, 3, 2, 3600, [x70], ps_lts, tx_sid, tx_sk, tx_now, (tx_now - 100), c0, msg0, (pr_calls off), outs, c.
  split; [exact toyC_ok|]. split; [exact E1|]. split; [lia|]. split; [lia|]. split; [reflexivity|]. split; [vm_compute; discriminate|]. split; [exact E2|]. split; reflexivity.
Qed.

(** a wrong length in the header: the report is "invalid step 4" and names peer 0 *)
Lemma C89_zero_witness : exists C al addr n t eps name lts sid sk now now' c0 msg0 calls outs c, crypto_ok C /\
  py_start_tp C al addr n t eps name lts sid sk now now' = Ret (c0, msg0) /\
  2 <= n <= 128 /\ 2 <= t < n /\ zlen sid = 32 /\ 32 * n <= zlen (concat lts) /\
  py_tp_run C c0 calls = Ret (outs, c) /\ t_cheaters c = [mkCheater 4 65 1 255 0] /\
  py_get_cheaters c = Ret ([0], [(0, list_byte_of_string "invalid step 4")]).
Proof.
  exists toyC. apply (pr_run 68%nat ([mkCheater 4 65 1 255 0], Ret ([0], [(0, list_byte_of_string "invalid step 4")]))).
  vm_compute. reflexivity.
Qed.

(** a wrong message number *)
Lemma C89_example : exists al addr n t eps name lts sid sk now now' c0 msg0 calls outs c, crypto_ok toyC /\
  py_start_tp toyC al addr n t eps name lts sid sk now now' = Ret (c0, msg0) /\
  2 <= n <= 128 /\ 2 <= t < n /\ zlen sid = 32 /\ 32 * n <= zlen (concat lts) /\
  py_tp_run toyC c0 calls = Ret (outs, c) /\ t_cheaters c = [mkCheater 4 66 1 255 0] /\
  py_get_cheaters c = Ret ([1], [(1, list_byte_of_string "step 4 message from peer 1 for peer 255 could not be validated: invalid message number")]).
Proof.
  apply (pr_run 64%nat ([mkCheater 4 66 1 255 0], Ret ([1], [(1, list_byte_of_string "step 4 message from peer 1 for peer 255 could not be validated: invalid message number")]))).
  vm_compute. reflexivity.
Qed.
