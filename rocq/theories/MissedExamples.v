(** Concrete cases of C93, over the toy primitives. *)
From Coq Require Import ZArith Lia List Bool.
From Coq.Strings Require Import Byte.
From Verif Require Import Bytes Res Mem Sodium ToprfModel DkgModel DkgSpec DkgProofs WireModel WireSpec WireProofs TpCrypto TpModel PeerModel CheaterModel TpRun TpSpec TpMsg TpControl TpExamples TpRunExamples.
From Verif Require Import TpComplaints BlameSpec TpBlame TpReports BlameExamples ReportSpec ReportExamples TpTruth MissedSpec.
Import ListNotations.
Open Scope list_scope.
Open Scope Z_scope.

Definition ms_start : tp := Eval vm_compute in d_bufs d_c1.
Definition ms_call (k : Z) (input : bytes) (size : Z) : tp_call := (d_env_ k, input, zeros (Z.to_nat size)).
Definition ms_1 : list tp_call := [ms_call 0 [] 333].
Definition ms_6 : list tp_call := ms_1 ++ [ms_call 1 d_net_1 636; ms_call 2 d_net_2 1431; ms_call 3 d_net_3 1431; ms_call 4 d_net_4 636; ms_call 5 d_net_5 2304].
Definition ms_7 : list tp_call := ms_6 ++ [ms_call 6 d_complain 456].
Definition ms_8 : list tp_call := ms_6 ++ [ms_call 6 d_net_6 456].

Lemma ms_ok : tp_wf ms_start /\ t_complaints ms_start = [] /\ t_step ms_start = 0.
Proof. split; [apply wf_of_b; vm_compute; reflexivity|]. split; reflexivity. Qed.
Lemma ms_run calls c : match tp_run toyC ms_start calls with Ok l => Some (final ms_start l) | UB => None end = Some c -> exists outs, tp_run toyC ms_start calls = Ok outs /\ final ms_start outs = c.
Proof. intros H. apply run_ok in H. exact H. Qed.
Lemma ms_next e c input out ret ch : match tp_next toyC e c input out with Ok o => Some (fst (fst o), t_cheaters (snd (fst o))) | UB => None end = Some (ret, ch) ->
  exists c' out', tp_next toyC e c input out = Ok (ret, c', out') /\ t_cheaters c' = ch.
Proof. intros H. apply run_ok in H. destruct H as ([[r c'] o] & E & H). cbn [fst snd] in H. injection H as -> H. exists c', o. auto. Qed.

(** peers 1 and 3 send damaged messages in step 4: both are named *)
Definition ms_two : bytes := patch 68 [xff] (patch (68 + 478) [xff] d_net_1).
Lemma ms_vouched p : 1 <= p <= 3 -> vouched toyC d_tp_1 ms_two p.
Proof.
  intros Hp. assert (D : p = 1 \/ p = 2 \/ p = 3) by lia.
  destruct D as [->|[->| ->]]; (do 3 eexists; split; [vm_compute; reflexivity|]; split; [vm_compute; reflexivity|]; split; [vm_compute; reflexivity|vm_compute; reflexivity]).
Qed.
Lemma C93_example : exists C c0 calls outs e input out ret c' out', crypto_ok C /\ tp_wf c0 /\ t_complaints c0 = [] /\ t_step c0 = 0 /\ tp_run C c0 calls = Ok outs /\
  let c := final c0 outs in tp_next C e c input out = Ok (ret, c', out') /\ sized c input out /\ zlen (t_cheaters c') < t_chmax c /\
  t_step c = 1 /\ t_n c = 3 /\ (forall p, 1 <= p <= t_n c -> vouched C c input p) /\ judged c 4 1 255 /\ judged c 4 2 255 /\ judged c 4 3 255 /\
  ret = 6 /\ t_cheaters c' = [mkCheater 4 65 1 255 0; mkCheater 4 65 3 255 0].
Proof.
  destruct (ms_run ms_1 d_tp_1) as (outs & E & F); [vm_compute; reflexivity|].
  destruct (ms_next (d_env_ 1) d_tp_1 ms_two (d_out_ d_tp_1) 6 [mkCheater 4 65 1 255 0; mkCheater 4 65 3 255 0]) as (c' & o & N & K); [vm_compute; reflexivity|].
  destruct ms_ok as (A1 & A2 & A3). exists toyC, ms_start, ms_1, outs, (d_env_ 1), ms_two, (d_out_ d_tp_1), 6, c', o. split; [exact toyC_ok|]. split; [exact A1|]. split; [exact A2|]. split; [exact A3|]. split; [exact E|].
  rewrite F. cbn zeta. split; [exact N|]. split; [split; vm_compute; reflexivity|]. rewrite K. split; [vm_compute; reflexivity|]. split; [reflexivity|]. split; [reflexivity|].
  split; [exact ms_vouched|]. assert (J : forall p, 1 <= p <= 3 -> judged d_tp_1 4 p 255).
  { intros p Hp. split; [left; reflexivity|]. split; [exact Hp|]. left. split; [left; reflexivity|reflexivity]. }
  split; [apply J; lia|]. split; [apply J; lia|]. split; [apply J; lia|]. auto.
Qed.

(** the signature with the long-term key of peer 1 is wrong, and so is the message of peer 3: nobody is named *)
Definition ms_bad : bytes := patch 175 [xff; xff; xff; xff] (patch (68 + 478) [xff] d_net_1).
Lemma longterm_witness : exists C c0 calls outs e input out c' out', crypto_ok C /\ tp_wf c0 /\ t_complaints c0 = [] /\ t_step c0 = 0 /\ tp_run C c0 calls = Ok outs /\
  let c := final c0 outs in tp_next C e c input out = Ok (3, c', out') /\ sized c input out /\ t_step c = 1 /\ 0 < t_chmax c /\
  (exists p, 1 <= p <= t_n c /\ ~ vouched C c input p) /\ (exists p, judged c 4 p 255 /\ vouched C c input p /\ bad_message C e c input 4 p 255 InvalidLen) /\ t_cheaters c' = [].
Proof.
  destruct (ms_run ms_1 d_tp_1) as (outs & E & F); [vm_compute; reflexivity|].
  destruct (ms_next (d_env_ 1) d_tp_1 ms_bad (d_out_ d_tp_1) 3 []) as (c' & o & N & K); [vm_compute; reflexivity|].
  destruct ms_ok as (A1 & A2 & A3). exists toyC, ms_start, ms_1, outs, (d_env_ 1), ms_bad, (d_out_ d_tp_1), c', o. split; [exact toyC_ok|]. split; [exact A1|]. split; [exact A2|]. split; [exact A3|]. split; [exact E|].
  rewrite F. cbn zeta. split; [exact N|]. split; [split; vm_compute; reflexivity|]. split; [reflexivity|]. split; [vm_compute; reflexivity|]. split; [|split; [|exact K]].
  - exists 1. split; [vm_compute; split; discriminate|]. intros (lt & m & s & V1 & V2 & V3 & V4).
    assert (Q : match getz (t_lt d_tp_1) (1 - 1), rd ms_bad (239 * (1 - 1)) 175, rd ms_bad (239 * (1 - 1) + 175) 64 with Ok lt, Ok m, Ok s => sig_verify (cS toyC) lt m s | _, _, _ => false end = false) by (vm_compute; reflexivity).
    rewrite V1, V2, V3, V4 in Q. discriminate Q.
  - exists 3. split; [split; [left; reflexivity|]; split; [vm_compute; split; discriminate|]; left; split; [left; reflexivity|reflexivity]|]. split.
    + do 3 eexists; split; [vm_compute; reflexivity|]; split; [vm_compute; reflexivity|]; split; [vm_compute; reflexivity|vm_compute; reflexivity].
    + split; [vm_compute; split; discriminate|].
      destruct (run_ok (rd ms_bad 478 175) (fun m => (zlen m, negb (f_len (parse m) =? 175))) (175, true)) as (m & Em & Hm); [vm_compute; reflexivity|].
      assert (L : zlen m = 175) by congruence. assert (L2 : negb (f_len (parse m) =? 175) = true) by congruence.
      destruct (run_ok (getz (t_last d_tp_1) 2) (fun _ => tt) tt) as (last & El & Hl); [vm_compute; reflexivity|].
      destruct (run_ok (rd ms_bad (478 + 111) 32) (fun x => zlen x) 32) as (pk & Ek & _); [vm_compute; reflexivity|].
      exists 478, 175, 2, 2, pk, last. split; [reflexivity|]. split; [exact Ek|]. split; [left; exact El|].
      destruct (parse_encode m ltac:(lia)) as (P1 & P2). exists (parse m). split; [exact P2|]. split; [rewrite P1; exact Em|]. cbn [fault]. apply negb_true_iff, Z.eqb_neq in L2. exact L2.
Qed.

(** peer 1 complains about peer 2: the complaint is registered; about peer 200, and twice about peer 2: peer 1 is named *)
Definition ms_odd : bytes := patch 111 [x03; x02; xc8; x02] d_net_6.
Lemma C93_complaints_example : exists c0 calls outs e input out ret c' out', tp_wf c0 /\ t_complaints c0 = [] /\ t_step c0 = 0 /\ tp_run toyC c0 calls = Ok outs /\
  let c := final c0 outs in tp_next toyC e c input out = Ok (ret, c', out') /\ sized c input out /\ zlen (t_cheaters c') < t_chmax c /\
  t_step c = 6 /\ complaint c' 1 2 /\ ret = 5 /\ t_cheaters c' = [mkCheater 16 7 1 200 0; mkCheater 16 8 1 2 0].
Proof.
  destruct (ms_run ms_6 d_tp_6) as (outs & E & F); [vm_compute; reflexivity|].
  destruct (run_ok (tp_next toyC (d_env_ 6) d_tp_6 ms_odd (d_out_ d_tp_6)) (fun o => (fst (fst o), t_cheaters (snd (fst o)), t_complaints (snd (fst o)))) (5, [mkCheater 16 7 1 200 0; mkCheater 16 8 1 2 0], [258])) as ([[r c'] o] & N & K); [vm_compute; reflexivity|].
  cbn [fst snd] in K. injection K as -> K1 K2.
  destruct ms_ok as (A1 & A2 & A3). exists ms_start, ms_6, outs, (d_env_ 6), ms_odd, (d_out_ d_tp_6), 5, c', o. split; [exact A1|]. split; [exact A2|]. split; [exact A3|]. split; [exact E|].
  rewrite F. cbn zeta. split; [exact N|]. split; [split; vm_compute; reflexivity|]. rewrite K1. split; [vm_compute; reflexivity|]. split; [reflexivity|]. unfold complaint. rewrite K2. split; [left; reflexivity|auto].
Qed.

(** ... and that complaint ends with an entry naming both *)
Lemma C93_settled_example : exists c0 calls outs e input out ret c' out', tp_wf c0 /\ t_complaints c0 = [] /\ t_step c0 = 0 /\ tp_run toyC c0 calls = Ok outs /\
  let c := final c0 outs in tp_next toyC e c input out = Ok (ret, c', out') /\ sized c input out /\ zlen (t_cheaters c') < t_chmax c /\
  t_step c = 7 /\ complaint c 1 2 /\ ret = 3 /\ t_cheaters c' = [mkCheater 18 128 2 1 0].
Proof.
  destruct (ms_run ms_7 b_tp) as (outs & E & F); [vm_compute; reflexivity|].
  destruct (ms_next (d_env_ 7) b_tp b_reveal [] 3 [mkCheater 18 128 2 1 0]) as (c' & o & N & K); [vm_compute; reflexivity|].
  destruct ms_ok as (A1 & A2 & A3). exists ms_start, ms_7, outs, (d_env_ 7), b_reveal, [], 3, c', o. split; [exact A1|]. split; [exact A2|]. split; [exact A3|]. split; [exact E|].
  rewrite F. cbn zeta. split; [exact N|]. split; [split; vm_compute; reflexivity|]. rewrite K. split; [vm_compute; reflexivity|]. split; [reflexivity|]. split; [left; reflexivity|auto].
Qed.

(** peer 2 sends another digest of the transcript *)
Definition ms_digest : bytes := patch (143 + 111) [x00; x01] d_net_7.
Lemma C93_digests_example : exists c0 calls outs e input out ret c' out', tp_wf c0 /\ t_complaints c0 = [] /\ t_step c0 = 0 /\ tp_run toyC c0 calls = Ok outs /\
  let c := final c0 outs in tp_next toyC e c input out = Ok (ret, c', out') /\ sized c input out /\ zlen (t_cheaters c') < t_chmax c /\
  t_step c = 8 /\ digest_differs toyC e c input 2 /\ t_cheaters c' = [mkCheater 20 1 2 0 0].
Proof.
  destruct (ms_run ms_8 d_tp_7) as (outs & E & F); [vm_compute; reflexivity|].
  destruct (ms_next (d_env_ 8) d_tp_7 ms_digest (d_out_ d_tp_7) 3 [mkCheater 20 1 2 0 0]) as (c' & o & N & K); [vm_compute; reflexivity|].
  destruct ms_ok as (A1 & A2 & A3). exists ms_start, ms_8, outs, (d_env_ 8), ms_digest, (d_out_ d_tp_7), 3, c', o. split; [exact A1|]. split; [exact A2|]. split; [exact A3|]. split; [exact E|].
  rewrite F. cbn zeta. split; [exact N|]. split; [split; vm_compute; reflexivity|]. rewrite K. split; [vm_compute; reflexivity|]. split; [vm_compute; reflexivity|]. split; [|reflexivity].
  assert (W : tp_wf d_tp_7) by (apply wf_of_b; vm_compute; reflexivity). assert (G : good_complaints (t_n d_tp_7) (t_complaints d_tp_7)) by (split; constructor).
  destruct (entries_happened toyC _ _ _ _ _ _ _ toyC_ok W G N) as (new & R & Fn). unfold recorded in R. rewrite K in R. change (t_cheaters d_tp_7) with (@nil cheater) in R. cbn [app] in R. subst new.
  apply Forall_inv in Fn. remember (mkCheater 20 1 2 0 0) as ch eqn:Ech. destruct Fn; try discriminate Ech; injection Ech; intros; subst; try (cbn [In] in *; lia).
  - assumption.
  - exfalso. unfold refused in *. lia.
Qed.
