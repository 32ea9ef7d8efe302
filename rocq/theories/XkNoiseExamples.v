(** A session of the DKG over the modelled Noise XK library that meets the conditions of C73. *)
From Coq Require Import ZArith Lia List Bool.
From Coq.Strings Require Import Byte.
From Verif Require Import PrimeL Bytes Res Mem Sodium ToprfModel ToprfSpec DkgModel WireModel WireSpec TpCrypto TpModel PeerModel TpRun TpSpec TpControl TpExamples TpRunExamples RunSpec Honest HonestExamples
  XkModel XkSpec XkNoise XkExamples.
Import ListNotations.
Open Scope list_scope.
Open Scope Z_scope.

Definition over (R : ristretto) (H : hashes) (S : sigs) (X : xprims) (auth : bytes -> bytes -> bytes) : crypto := mkCrypto R H S (xkN X) auth.
Lemma over_ok R H S X auth : ristretto_ok R -> hashes_ok H -> sigs_ok S -> xprims_ok X -> (forall k m, zlen (auth k m) = 32) -> crypto_ok (over R H S X auth).
Proof. intros A1 A2 A3 A4 A5. constructor; [exact A1|exact A2|exact A3|exact (xk_noise_ok X A4)|exact A5]. Qed.

Definition CX : crypto := over toyR toyH toyS toyX (fun k m => fit 32 (k ++ m)).
Definition xx_pb : pbufs CX :=
  mkPbufs CX (repeat (zeros 32) 3) (repeat (zeros 32) 3) (repeat Null 3) (repeat Null 3) (repeat (mkShare 0 0) 3) (repeat (mkShare 0 0) 3) (repeat (repeat (zeros 32) 2) 3).
Definition xx_pblank : peer CX :=
  mkPeer CX 0 0 [] 0 0 0 [] [] [] [] 0 [] 0 [] [] None [] [] [] [] [] [] 0 [] 0 [] (mkShare 0 0).
Definition xx_ceremony : ceremony CX :=
  mkCeremony CX 3 2 [x70] tx_sid tx_sk 3600 (zeros (Z.to_nat msg0_SIZE)) tx_now d_blank
    (repeat (repeat (zeros 32) 2) 3) (zeros (Z.to_nat (9 * msg8_SIZE))) 3 (repeat (zeros 32) 3) (tx_now + 6)
    d_lt (fun _ => 3600) (fun _ => tx_now + 1) (fun _ => xx_pblank) (fun _ => xx_pb).

Lemma xx_honest : honest CX xx_ceremony x_sched.
Proof.
  constructor; cbn [xx_ceremony h_n h_t h_name h_sid h_sk h_eps h_msg0 h_now h_tp h_com h_enc h_chmax h_pks h_bufs h_lt h_peps h_pnow h_peer h_pb].
  - lia.
  - vm_compute. split; discriminate.
  - vm_compute. reflexivity.
  - vm_compute. reflexivity.
  - vm_compute. reflexivity.
  - vm_compute. reflexivity.
  - vm_compute. reflexivity.
  - intros i Hi. cbv zeta. vm_compute. repeat split.
  - intros party step k Hk. cbn [x_sched s_buf]. unfold zlen, zeros. rewrite repeat_length. lia.
  - assert (Hu : forall s d, 0 <= d < 10 -> is_u64 (x_clock s d)).
    { intros s d Hd. unfold x_clock, is_u64, tx_now. pose proof (Z.mod_pos_bound s 16 ltac:(lia)). lia. }
    split; [vm_compute; intuition discriminate|]. split.
    + intros s k. cbn [x_sched s_tp e_s]. apply Hu. lia.
    + intros i s k. cbn [x_sched s_peer pe_s]. apply Hu. lia.
  - intros i Hi. destruct (three i Hi) as [-> | [-> | ->]]; vm_compute; intuition discriminate.
  - intros i Hi. destruct (three i Hi) as [-> | [-> | ->]]; vm_compute; intuition discriminate.
  - intros i j Hi Hj. destruct (three i Hi) as [-> | [-> | ->]], (three j Hj) as [-> | [-> | ->]]; vm_compute; intuition discriminate.
  - intros i j Hi Hj. destruct (three i Hi) as [-> | [-> | ->]], (three j Hj) as [-> | [-> | ->]]; intros Hne; try (exfalso; apply Hne; reflexivity); vm_compute; discriminate.
  - intros i Hi. split; [vm_compute; reflexivity|]. cbn [x_sched s_peer pe_a]. pose proof Fq.L_gt_65536. constructor; [unfold random_scalar; lia|]. constructor; [unfold random_scalar; lia|]. constructor.
  - reflexivity.
Qed.

Lemma C73_example : exists R H S X auth x w, ristretto_ok R /\ hashes_ok H /\ sigs_ok S /\ xprims_ok X /\ (forall k m, zlen (auth k m) = 32) /\
  honest (mkCrypto R H S (xkN X) auth) x w /\ h_n _ x = 3 /\ h_t _ x = 2.
Proof.
  exists toyR, toyH, toyS, toyX, (fun k m => fit 32 (k ++ m)), xx_ceremony, x_sched.
  split; [exact toyR_ok|]. split; [exact toyH_ok|]. split; [exact toyS_ok|]. split; [exact toyX_ok|].
  split; [intros; apply fit_len|]. split; [exact xx_honest|]. split; reflexivity.
Qed.

Theorem run_over_library R H S X auth : ristretto_ok R -> hashes_ok H -> sigs_ok S -> xprims_ok X -> (forall k m, zlen (auth k m) = 32) ->
  let C := mkCrypto R H S (xkN X) auth in forall x w, honest C x w -> exists r0 r,
  begin C x = Ok (Some r0) /\ rounds C w 10 r0 = Ok (Some r) /\
  tp_not_done (r_tp C r) = false /\ t_cheaters (r_tp C r) = [] /\ t_complaints (r_tp C r) = [] /\ r_net C r = [] /\
  zlen (r_peers C r) = h_n C x /\
  (forall i, 0 <= i < h_n C x -> exists p, nth_error (r_peers C r) (Z.to_nat i) = Some p /\ peer_not_done C p = false /\ s_index (p_share C p) = i + 1 /\
     p_complaints C p = [] /\ p_n C p = h_n C x /\ p_t C p = h_t C x) /\
  forall qs, quorum (h_t C x) (map (p_share C) (r_peers C r)) qs ->
    dkg_reconstruct qs = zsum (map (fun i => hd 0 (pe_a (s_peer w i 3))) (zrange 0 (Z.to_nat (h_n C x)))) mod L.
Proof. intros A1 A2 A3 A4 A5 C x w Hh. exact (honest_run C (over_ok R H S X auth A1 A2 A3 A4 A5) x w Hh). Qed.
