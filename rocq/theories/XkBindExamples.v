(** Concrete cases for C104. *)
From Coq Require Import ZArith Lia List Bool.
From Coq.Strings Require Import Byte.
From Verif Require Import Bytes Res Mem XkModel XkSpec XkProofs XkSession XkExamples XkStatusSpec XkBindSpec.
Import ListNotations.
Open Scope list_scope.
Open Scope Z_scope.

Lemma xb_a : finished toyX true d_a 2 e_a (fst run_a) (snd run_a).
Proof.
  split; [reflexivity|]. exists (count_session d_a), s_a, ops_a. split; [exact a_created|]. split; [exact ops_a_ok|]. split; [unfold run_a; destruct (grun toyX ops_a s_a); reflexivity|vm_compute; reflexivity].
Qed.
Lemma xb_b : finished toyX false d_b 0 e_b (fst run_b) (snd run_b).
Proof.
  split; [reflexivity|]. exists (count_session d_b), s_b, ops_b. split; [exact b_created|]. split; [exact ops_b_ok|]. split; [unfold run_b; destruct (grun toyX ops_b s_b); reflexivity|vm_compute; reflexivity].
Qed.

Lemma C104_example : exists di pid ei si tri dr er sr trr rs m1 m2 m3 more, finished toyX true di pid ei si tri /\ finished toyX false dr 0 er sr trr /\
  d_spub di = x_base toyX (d_spriv di) /\ d_spub dr = x_base toyX (d_spriv dr) /\ responder_key true di pid = Some rs /\
  wire tri = m1 :: m2 :: m3 :: more /\ wire trr = m1 :: m2 :: m3 :: more /\ session_get_hash si = session_get_hash sr /\
  length tri = 7%nat /\ length more = 2%nat /\ zlen (sent tri) = zlen (received trr) /\ zlen (sent trr) = zlen (received tri).
Proof.
  exists d_a, 2, e_a, (fst run_a), (snd run_a), d_b, e_b, (fst run_b), (snd run_b), (pub k_b), m1, m2, m3, [m4; m5].
  split; [exact xb_a|]. split; [exact xb_b|]. repeat (split; [vm_compute; reflexivity|]). vm_compute. reflexivity.
Qed.
