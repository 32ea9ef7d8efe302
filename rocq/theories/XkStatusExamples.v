(** Concrete cases for C91. *)
From Coq Require Import ZArith Lia List Bool.
From Coq.Strings Require Import Byte.
From Verif Require Import Bytes Res Mem XkModel XkSpec XkProofs XkSession XkExamples XkStatusSpec XkStatus.
Import ListNotations.
Open Scope list_scope.
Open Scope Z_scope.

Definition xs_m : bytes := Eval vm_compute in out1 (w b3 [x06]).
Definition xs_ops : list gop := ops_a ++ [GRead d_a xs_m].
Lemma xs_ok : Forall gop_ok xs_ops.
Proof. repeat constructor. Qed.
(** before and after the first message of the responder that follows the handshake *)
Lemma C91_example : exists d pid e d' s0, creates toyX true d pid e = Some (d', s0) /\
  (exists ops s trc, Forall gop_ok ops /\ grun toyX ops s0 = (s, trc) /\ ~ dead toyX s /\ exchanged trc = 5%nat /\ zlen (received trc) = 1
     /\ session_get_status s = Transport_status /\ session_reached_max_security s = false /\ session_compute_next_message_len s 100 = Some 116)
  /\ (exists ops s trc, Forall gop_ok ops /\ grun toyX ops s0 = (s, trc) /\ exchanged trc = 6%nat /\ zlen (received trc) = 2 /\ session_reached_max_security s = true).
Proof.
  exists d_a, 2, e_a, (count_session d_a), s_a. split; [exact a_created|]. split.
  - exists ops_a, (fst run_a), (snd run_a). split; [exact ops_a_ok|]. split; [unfold run_a; destruct (grun toyX ops_a s_a); reflexivity|].
    split; [|vm_compute; repeat split].
    intros D. specialize (D (GRead d_a [x00])). assert (Ok : gop_ok (GRead d_a [x00])) by reflexivity. specialize (D Ok). vm_compute in D. discriminate.
  - exists xs_ops, (fst (grun toyX xs_ops s_a)), (snd (grun toyX xs_ops s_a)). split; [exact xs_ok|].
    split; [destruct (grun toyX xs_ops s_a); reflexivity|]. vm_compute. repeat split.
Qed.
(** a responder that waits for the first message, and one that is dead: the same status *)
Lemma C91_waiting_example : exists d e d' s0 ops s trc, creates toyX false d 0 e = Some (d', s0) /\ Forall gop_ok ops /\ grun toyX ops s0 = (s, trc)
  /\ ~ dead toyX s0 /\ dead toyX s /\ exchanged trc = 0%nat /\ session_get_status s0 = Handshake_read /\ session_get_status s = Handshake_read
  /\ session_compute_next_message_len s0 7 = Some 55.
Proof.
  exists d_b, e_b, (count_session d_b), s_b, [GRead d_b (bad m1)], (fst (grun toyX [GRead d_b (bad m1)] s_b)), (snd (grun toyX [GRead d_b (bad m1)] s_b)).
  split; [exact b_created|]. split; [repeat constructor|]. split; [destruct (grun toyX [GRead d_b (bad m1)] s_b); reflexivity|].
  split; [exact s_b_alive|]. split; [apply is_dead_dead; vm_compute; discriminate|]. vm_compute. repeat split.
Qed.
Lemma C91_length_example : exists d pid e d' s0 ops s trc m s' c, zlen (d_spub d) = 32 /\ creates toyX true d pid e = Some (d', s0) /\ Forall gop_ok ops
  /\ grun toyX ops s0 = (s, trc) /\ zlen (em_msg m) < 2 ^ 32 /\ gstep toyX (GWrite m) s = (s', RSuccess, GMessage c) /\ zlen (em_msg m) = 1 /\ zlen c = 65.
Proof.
  exists d_a, 2, e_a, (count_session d_a), s_a, (firstn 3 ops_a), (fst (grun toyX (firstn 3 ops_a) s_a)), (snd (grun toyX (firstn 3 ops_a) s_a)), (pack_message [x09]).
  eexists. eexists. split; [vm_compute; reflexivity|]. split; [exact a_created|]. split; [repeat constructor|].
  split; [destruct (grun toyX (firstn 3 ops_a) s_a); reflexivity|]. split; [reflexivity|]. split; [vm_compute; reflexivity|]. split; vm_compute; reflexivity.
Qed.
(** the third request names a peer that is not registered *)
Lemma C91_ids_example : exists prologue info sk spriv d0 ops, device_create toyX prologue info sk spriv = Some d0
  /\ map session_get_id (sessions toyX ops d0) = [1; 2; 3] /\ length ops = 6%nat.
Proof.
  exists [x70; x72], [x44], (le_bytes 32 5), k_b, r_dev, [RSession 0 e_a; RAdd [x43] (pub k_c); RSession 7 e_b; RSession 1 e_b; RRemove 1; RSession 0 e_b].
  split; [vm_compute; reflexivity|]. split; vm_compute; reflexivity.
Qed.
