(** A session that meets the conditions of C44, and clocks that are only a second apart and do not. *)
From Coq Require Import ZArith Lia List Bool Sorted.
From Coq.Strings Require Import Byte.
From Verif Require Import PrimeL Bytes Res Mem Sodium ToprfModel ToprfSpec DkgModel WireModel WireSpec TpCrypto TpModel PeerModel TpRun TpSpec TpControl TpExamples TpRunExamples RunSpec.
Import ListNotations.
Open Scope list_scope.
Open Scope Z_scope.

Definition x_clock (s d : Z) : Z := tx_now + 10 * (s mod 16) + d.
Definition x_sched : sched :=
  mkSched (fun s => mkEnv false (fun _ => x_clock s 1) (fun _ => x_clock s 2))
    (fun i s => mkPenv false (fun _ => x_clock s 5) (fun _ => x_clock s 6) (le_bytes 64 (2000 + i)) (le_bytes 32 (3000 + i))
      (fun j => le_bytes 32 (100 * i + j)) (fun j => le_bytes 32 (100 * j + i)) true [7 + i; 11 + i])
    (fun _ _ k => zeros (Z.to_nat k)).
Definition x_pb : pbufs toyC :=
  mkPbufs toyC (repeat (zeros 32) 3) (repeat (zeros 32) 3) (repeat Null 3) (repeat Null 3) (repeat (mkShare 0 0) 3) (repeat (mkShare 0 0) 3) (repeat (repeat (zeros 32) 2) 3).
(** [b]: the clock of the trusted party when it gets its buffers *)
Definition x_ceremony (b : Z) : ceremony toyC :=
  mkCeremony toyC 3 2 [x70] tx_sid tx_sk 3600 (zeros (Z.to_nat msg0_SIZE)) tx_now d_blank
    (repeat (repeat (zeros 32) 2) 3) (zeros (Z.to_nat (9 * msg8_SIZE))) 3 (repeat (zeros 32) 3) b
    d_lt (fun _ => 3600) (fun _ => tx_now + 1) (fun _ => d_pblank) (fun _ => x_pb).

Lemma three i : 0 <= i < 3 -> i = 0 \/ i = 1 \/ i = 2.
Proof. lia. Qed.
Lemma x_honest : honest toyC (x_ceremony (tx_now + 6)) x_sched.
Proof.
  constructor; cbn [x_ceremony h_n h_t h_name h_sid h_sk h_eps h_msg0 h_now h_tp h_com h_enc h_chmax h_pks h_bufs h_lt h_peps h_pnow h_peer h_pb].
  - lia.
  - vm_compute. split; discriminate.
  - vm_compute. reflexivity.
  - vm_compute. reflexivity.
  - vm_compute. reflexivity.
  - vm_compute. reflexivity.
  - vm_compute. reflexivity.
  - intros i Hi. cbv zeta. vm_compute. repeat split.
  - intros party step k Hk. cbn [x_sched s_buf]. unfold zlen, zeros. rewrite repeat_length. lia.
  - assert (Hu : forall s d, 0 <= d < 10 -> is_u64 (x_clock s d)).
    { intros s d Hd. unfold x_clock, is_u64, tx_now. pose proof (Z.mod_pos_bound s 16 ltac:(lia)). lia. }
    split; [vm_compute; intuition discriminate|]. split.
    + intros s k. cbn [x_sched s_tp e_s]. apply Hu. lia.
    + intros i s k. cbn [x_sched s_peer pe_s]. apply Hu. lia.
  - intros i Hi. destruct (three i Hi) as [-> | [-> | ->]]; vm_compute; intuition discriminate.
  - intros i Hi. destruct (three i Hi) as [-> | [-> | ->]]; vm_compute; intuition discriminate.
  - intros i j Hi Hj. destruct (three i Hi) as [-> | [-> | ->]], (three j Hj) as [-> | [-> | ->]]; vm_compute; intuition discriminate.
  - intros i j Hi Hj. destruct (three i Hi) as [-> | [-> | ->]], (three j Hj) as [-> | [-> | ->]]; intros Hne; try (exfalso; apply Hne; reflexivity); vm_compute; discriminate.
  - intros i Hi. split; [vm_compute; reflexivity|]. cbn [x_sched s_peer pe_a]. pose proof Fq.L_gt_65536. constructor; [unfold random_scalar; lia|]. constructor; [unfold random_scalar; lia|]. constructor.
  - reflexivity.
Qed.

Lemma C44_example : exists C x w, crypto_ok C /\ honest C x w /\ h_n C x = 3 /\ h_t C x = 2.
Proof. exists toyC, (x_ceremony (tx_now + 6)), x_sched. split; [exact toyC_ok|]. split; [exact x_honest|]. split; reflexivity. Qed.

Lemma C44_clocks_example : Forall (fun p => 5000 <= fst p <= 5000 + 60 /\ 5000 <= snd p <= 5000 + 60) [(5010, 5012); (5020, 5019)] /\ Sorted Z.le [5001; 5010; 5020].
Proof. split; [repeat constructor; cbn; lia|]. repeat (constructor; try lia). Qed.

(** ** One second later *)
Definition until (x : ceremony toyC) (w : sched) : res (option (run toyC) * option (run toyC) * (Z * tp * bytes)) :=
  do r0 <- begin toyC x ;;
  match r0 with
  | None => UB
  | Some r => do r1 <- rounds toyC w 1 r ;;
      match r1 with
      | None => UB
      | Some r1 => do o <- tp_next toyC (s_tp w (t_step (r_tp toyC r1))) (r_tp toyC r1) (r_net toyC r1) (s_buf w 0 (t_step (r_tp toyC r1)) (tp_output_size (r_tp toyC r1))) ;;
                   Ok (Some r, Some r1, o)
      end
  end.
Lemma until_inv x w v : until x w = Ok v -> exists r r1, fst v = (Some r, Some r1) /\ begin toyC x = Ok (Some r) /\ rounds toyC w 1 r = Ok (Some r1) /\
  tp_next toyC (s_tp w (t_step (r_tp toyC r1))) (r_tp toyC r1) (r_net toyC r1) (s_buf w 0 (t_step (r_tp toyC r1)) (tp_output_size (r_tp toyC r1))) = Ok (snd v).
Proof.
  unfold until. intros H. apply bind_ok in H. destruct H as ([r|] & E & H); [|discriminate]. apply bind_ok in H. destruct H as ([r1|] & E1 & H); [|discriminate].
  apply bind_ok in H. destruct H as (o & E2 & H). injection H as <-. exists r, r1. auto.
Qed.

Lemma C44_slow_clock_refutation : exists C x w r0 r1 ret c out, crypto_ok C /\ honest C x w /\
  begin C (later C x 1) = Ok (Some r0) /\ rounds C w 1 r0 = Ok (Some r1) /\
  tp_next C (s_tp w (t_step (r_tp C r1))) (r_tp C r1) (r_net C r1) (s_buf w 0 (t_step (r_tp C r1)) (tp_output_size (r_tp C r1))) = Ok (ret, c, out) /\
  ret <> 0 /\ map ch_peer (t_cheaters c) = [1; 2; 3].
Proof.
  destruct (run_ok (until (later toyC (x_ceremony (tx_now + 6)) 1) x_sched) (fun v => (fst (fst (snd v)), map ch_peer (t_cheaters (snd (fst (snd v)))))) (6, [1; 2; 3]))
    as (v & E & H); [vm_compute; reflexivity|].
  apply until_inv in E. destruct E as (r & r1 & _ & E1 & E2 & E3). destruct v as [v [[ret c] out]]. cbn [fst snd] in H, E3. injection H as H1 H2.
  exists toyC, (x_ceremony (tx_now + 6)), x_sched, r, r1, ret, c, out.
  split; [exact toyC_ok|]. split; [exact x_honest|]. split; [exact E1|]. split; [exact E2|]. split; [exact E3|]. split; [rewrite H1; discriminate|exact H2].
Qed.
