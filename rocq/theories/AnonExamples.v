(** Concrete cases of C94, over the toy primitives. *)
From Coq Require Import ZArith Lia List Bool.
From Coq.Strings Require Import Byte.
From Verif Require Import Bytes Res Mem Sodium WireModel TpCrypto TpModel PeerModel TpRun TpSpec RunSpec TpExamples TpRunExamples Honest HonestExamples BlameExamples MissedExamples ClearExamples AnonSpec.
Import ListNotations.
Open Scope list_scope.
Open Scope Z_scope.

Definition an_lt (i : Z) : bytes := le_bytes 64 (555 + i).
Definition an_keys : list bytes := map (fun i => sig_pk toyS (an_lt i)) [0; 1; 2].
(** the announcements of the three peers, signed with the other keys *)
Definition an_net : bytes := Eval vm_compute in
  concat (map (fun i => let m := firstn 175 (skipn (239 * i) d_net_1) in m ++ sig_sign toyS (an_lt (Z.of_nat i)) m) (seq 0 3)).
Definition an_rest : list tp_call := [ms_call 2 d_net_2 1431; ms_call 3 d_net_3 1431; ms_call 4 d_net_4 636; ms_call 5 d_net_5 2304; ms_call 6 d_net_6 456].

Lemma C94_tp_example : exists C c l e0 in0 out0 e1 in1 in1' out1 rest outs, crypto_ok C /\ t_step c = 0 /\ t_n c = 3 /\ l <> t_lt c /\ in1 <> in1' /\ same_announcements (t_n c) in1 in1' /\
  all_vouched C (t_lt c) (t_n c) in1 /\ all_vouched C l (t_n c) in1' /\ tp_run C c ((e0, in0, out0) :: (e1, in1, out1) :: rest) = Ok outs /\ map (fun o => fst (fst o)) outs = [0; 0; 0; 0; 0; 0; 0].
Proof.
  destruct (run_ok (tp_run toyC ms_start (ms_call 0 [] 333 :: ms_call 1 d_net_1 636 :: an_rest)) (map (fun o => fst (fst o))) [0; 0; 0; 0; 0; 0; 0]) as (outs & E & F); [vm_compute; reflexivity|].
  exists toyC, ms_start, an_keys, (d_env_ 0), [], (zeros 333), (d_env_ 1), d_net_1, an_net, (zeros 636), an_rest, outs.
  split; [exact toyC_ok|]. split; [reflexivity|]. split; [reflexivity|]. split; [vm_compute; discriminate|]. split; [vm_compute; discriminate|].
  assert (D : forall p, 1 <= p <= 3 -> p = 1 \/ p = 2 \/ p = 3) by lia.
  split; [split; [vm_compute; reflexivity|]; intros p Hp; destruct (D p Hp) as [->|[->| ->]]; vm_compute; reflexivity|].
  split; [intros p Hp; destruct (D p Hp) as [->|[->| ->]]; (do 3 eexists; split; [vm_compute; reflexivity|]; split; [vm_compute; reflexivity|]; split; [vm_compute; reflexivity|vm_compute; reflexivity])|].
  split; [intros p Hp; destruct (D p Hp) as [->|[->| ->]]; (do 3 eexists; split; [vm_compute; reflexivity|]; split; [vm_compute; reflexivity|]; split; [vm_compute; reflexivity|vm_compute; reflexivity])|].
  split; [exact E|exact F].
Qed.

Lemma C94_session_example : exists C x w l r0 r, crypto_ok C /\ begin C x = Ok (Some r0) /\ h_n C x = 3 /\ (forall i, 0 <= i < 3 -> sig_pk (cS C) (l i) <> sig_pk (cS C) (h_lt C x i)) /\
  rounds C w 10 r0 = Ok (Some r) /\ tp_not_done (r_tp C r) = false.
Proof.
  destruct (honest_run toyC toyC_ok _ _ x_honest) as (r0 & r & B & R & D & _). exists toyC, (x_ceremony (tx_now + 6)), x_sched, an_lt, r0, r.
  split; [exact toyC_ok|]. split; [exact B|]. split; [reflexivity|]. split; [|split; [exact R|exact D]].
  intros i Hi. destruct (three i Hi) as [-> | [-> | ->]]; vm_compute; discriminate.
Qed.

Lemma C94_peer_example : exists C (c : peer C) k e input out calls outs, crypto_ok C /\ p_step C c = 0 /\ p_lt_sk C c <> k /\ peer_run C c ((e, input, out) :: calls) = Ok outs /\
  (7 <= length outs)%nat /\ fst (fst (hd (1, c, []) outs)) = 0.
Proof.
  destruct C78_example as (c0 & e & input & out & c1 & w & calls & outs & _ & H0 & _ & E1 & E2 & K & L). exists toyC, c0, (zeros 64), e, input, out, calls, ((0, c1, w) :: outs).
  split; [exact toyC_ok|]. split; [exact H0|]. split; [exact K|]. split; [cbn [peer_run]; rewrite E1; cbn [bind]; rewrite E2; reflexivity|]. split; [|reflexivity].
  assert (G : forall calls c outs, peer_run toyC c calls = Ok outs -> length outs = length calls).
  { clear. intros calls. induction calls as [|[[e i] o] calls IH]; intros c outs E; cbn [peer_run] in E; [assert (outs = []) by congruence; subst; reflexivity|].
    apply bind_ok in E. destruct E as (((r & c') & o') & _ & E). apply bind_ok in E. destruct E as (rest & E1 & E). assert (outs = (r, c', o') :: rest) by congruence. subst outs. cbn [length]. f_equal. apply (IH _ _ E1). }
  cbn [length]. rewrite (G _ _ _ E2). lia.
Qed.
