(** Concrete case of C88: peer 2, accused by peer 1, answers with the key of its session with peer 1. *)
From Coq Require Import ZArith Lia List Bool.
From Coq.Strings Require Import Byte.
From Verif Require Import Bytes Res Mem Sodium WireModel WireSpec TpCrypto TpModel PeerModel TpSpec SafeSpec ClearSpec RevealSpec.
From Verif Require Import TpRun TpExamples TpRunExamples BlameExamples SafeExamples ClearExamples.
Import ListNotations.
Open Scope list_scope.
Open Scope Z_scope.

(** The run of C77, call by call: the complaint of peer 1 arrives in the seventh call and the eighth
    call writes a message of 144 bytes: a header, the number of peer 1 and a key. *)
Lemma C88_example : exists (p p4 p6 p7 : peer toyC) calls outs e6 i6 o6 w6 e7 i7 o7 w7 w4,
  crypto_ok toyC /\ peer_fresh toyC p /\ peer_run toyC p calls = Ok outs /\ Forall (fun o => fst (fst o) = 0) outs /\
  nth_error outs 4 = Some (0, p4, w4) /\ nth_error calls 6 = Some (e6, i6, o6) /\ nth_error outs 6 = Some (0, p6, w6) /\
  nth_error calls 7 = Some (e7, i7, o7) /\ nth_error outs 7 = Some (0, p7, w7) /\ is_u64 (pe_s e7 0) /\
  p_index toyC p6 = 2 /\ p_complaints toyC p6 = [258] /\ accuses 3 i6 1 2 /\ zlen w7 = 144 /\ rd w7 111 1 = Ok [zb 1].
Proof.
  destruct (run_ok (peer_run toyC (d_pbufs (d_p1 1)) cl_calls) (fun outs => (zlen outs, forallb (fun o => fst (fst o) =? 0) outs,
    let p := nth 6 (map (fun o => snd (fst o)) outs) (d_pbufs (d_p1 1)) in (p_index toyC p, p_complaints toyC p), (zlen (nth 7 (map snd outs) []), rd (nth 7 (map snd outs) []) 111 1)))
    (8, true, (2, [258]), (144, Ok [zb 1]))) as (outs & E & H); [vm_compute; reflexivity|].
  apply pair_equal_spec in H. destruct H as (H & H3). apply pair_equal_spec in H. destruct H as (H & H2). apply pair_equal_spec in H. destruct H as (K2 & K1).
  cbv zeta in H2. apply pair_equal_spec in H2. destruct H2 as (P1 & P2). apply pair_equal_spec in H3. destruct H3 as (W1 & W2).
  set (p0 := d_pbufs (d_p1 1)) in *.
  destruct outs as [|[[r1 p1] w0] [|[[r2 p2] w1] [|[[r3 p3] w2] [|[[r4 p4] w3] [|[[r5 p5] w4] [|[[r6 p6] w5] [|[[r7 p7] w6] [|[[r8 p8] w7] [|]]]]]]]]]; unfold zlen in K2; cbn [length] in K2; try lia.
  cbn [forallb fst] in K1. repeat (apply andb_true_iff in K1; let Q := fresh "Q" in destruct K1 as (Q & K1); apply Z.eqb_eq in Q; subst).
  cbn [map fst snd nth] in P1, P2, W1, W2.
  exists p0, p5, p7, p8, cl_calls. eexists. exists (d_penv 1 6), b_cast, (zeros 0), w6, (d_penv 1 7), [], (zeros 144), w7, w4.
  split; [exact toyC_ok|]. split; [apply fresh_b_ok; vm_compute; reflexivity|]. split; [exact E|].
  split; [repeat constructor|]. split; [reflexivity|]. split; [reflexivity|]. split; [reflexivity|]. split; [reflexivity|]. split; [reflexivity|].
  split; [cbn; unfold is_u64, tx_now; lia|]. split; [exact P1|]. split; [exact P2|].
  split; [|split; assumption].
  exists (zb 1), 0, (zb 2). split; [vm_compute; reflexivity|]. split; [vm_compute; split; [discriminate|reflexivity]|]. split; vm_compute; reflexivity.
Qed.
