(** A case for C82. *)
From Coq Require Import ZArith Lia List Bool.
From Coq.Strings Require Import Byte.
From Verif Require Import PrimeL Bytes Res Mem Sodium ToprfModel ToprfSpec DkgModel WireModel WireSpec TpCrypto TpModel PeerModel TpRun TpExamples TpRunExamples RunSpec HonestExamples PyModel PyRunModel PyRunSpec.
Import ListNotations.
Open Scope list_scope.
Open Scope Z_scope.

(** the states are allocated 16 bytes past a multiple of 32 *)
Definition y_addr (i : Z) : Z := 4096 * i + 16.
Definition y_ceremony : ceremony toyC := py_ceremony toyC 3 2 3600 [x70] d_lt tx_sid tx_sk tx_now (tx_now + 6) (fun _ => tx_now + 1).

Lemma y_honest : honest toyC y_ceremony (py_sched x_sched).
Proof.
  constructor; unfold y_ceremony; cbn [py_ceremony h_n h_t h_name h_sid h_sk h_eps h_msg0 h_now h_tp h_com h_enc h_chmax h_pks h_bufs h_lt h_peps h_pnow h_peer h_pb].
  - lia.
  - vm_compute. split; discriminate.
  - vm_compute. reflexivity.
  - vm_compute. reflexivity.
  - vm_compute. reflexivity.
  - vm_compute. reflexivity.
  - vm_compute. reflexivity.
  - intros i Hi. cbv zeta. vm_compute. repeat split.
  - intros party step k Hk. cbn [py_sched s_buf]. unfold zlen, zeros. rewrite repeat_length. lia.
  - exact (hp_clock _ _ _ x_honest).
  - exact (hp_from_tp _ _ _ x_honest).
  - exact (hp_to_tp _ _ _ x_honest).
  - exact (hp_between _ _ _ x_honest).
  - exact (hp_keys _ _ _ x_honest).
  - exact (hp_a _ _ _ x_honest).
  - reflexivity.
Qed.

Lemma C82_example : exists C (al : Z -> bool) w addr n t eps name lt sid sk now now' pnow, crypto_ok C /\ (forall k, al k = true) /\
  honest C (py_ceremony C n t eps name lt sid sk now now' pnow) (py_sched w) /\ (forall i, 0 <= i <= n -> (addr i + addr i mod 32) mod 32 = 0) /\ 0 <= eps < 2 ^ 31 /\
  (forall i, 0 <= i < n -> zlen (lt i) = 64) /\ n = 3 /\ t = 2 /\ generated_key w n = 24 /\ addr 0 mod 32 = 16.
Proof.
  exists toyC, (fun _ => true), x_sched, y_addr, 3, 2, 3600, [x70], d_lt, tx_sid, tx_sk, tx_now, (tx_now + 6), (fun _ => tx_now + 1).
  split; [exact toyC_ok|]. split; [reflexivity|]. split; [exact y_honest|]. split.
  { intros i Hi. unfold y_addr. replace (4096 * i + 16) with (16 + (128 * i) * 32) by lia. rewrite Z.mod_add by lia. change (16 mod 32) with 16. replace (16 + 128 * i * 32 + 16) with (0 + (128 * i + 1) * 32) by lia. rewrite Z.mod_add by lia. reflexivity. }
  split; [lia|]. split; [intros i Hi; destruct (three i Hi) as [-> | [-> | ->]]; vm_compute; reflexivity|]. split; [reflexivity|]. split; [reflexivity|]. split; vm_compute; reflexivity.
Qed.
