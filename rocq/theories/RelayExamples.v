(** Concrete cases for C101. *)
From Coq Require Import ZArith Lia List Bool.
From Coq.Strings Require Import Byte.
From Verif Require Import PrimeL Bytes Res Mem Sodium ToprfModel ToprfSpec DkgModel DkgSpec WireModel WireSpec TpCrypto TpModel PeerModel TpRun TpSpec SafeSpec TpExamples TpRunExamples RunSpec HonestExamples OutsiderSpec Relay.
From Verif Require SafeExamples.
Import ListNotations.
Open Scope list_scope.
Open Scope Z_scope.

(** the relay's own keys *)
Definition o_sk (i j : Z) : bytes := le_bytes 64 (9000 + 10 * i + j).
Definition o_nsk (i j : Z) : bytes := le_bytes 32 (9100 + 10 * i + j).
Lemma o_keys : relay_keys toyC (x_ceremony (tx_now + 6)) x_sched o_nsk.
Proof.
  unfold relay_keys. cbn [x_ceremony h_n]. cbv zeta. intros i j k Hi Hj Hk.
  destruct (three i Hi) as [-> | [-> | ->]], (three j Hj) as [-> | [-> | ->]], (three k Hk) as [-> | [-> | ->]]; intros Hne; try (exfalso; apply Hne; reflexivity); vm_compute; discriminate.
Qed.
Lemma C101_example : exists C x w rnsk, crypto_ok C /\ honest C x w /\ relay_keys C x w rnsk /\ h_n C x = 3 /\ h_t C x = 2.
Proof.
  exists toyC, (x_ceremony (tx_now + 6)), x_sched, o_nsk. split; [exact toyC_ok|]. split; [exact x_honest|]. split; [exact o_keys|]. split; reflexivity.
Qed.

(** the session of C39, up to the digests *)
Lemma C101_digest_example : exists outs c' out' pouts p' m, crypto_ok toyC /\
  start_tp toyC d_blank 3600 3 2 [x70] (zeros (Z.to_nat msg0_SIZE)) tx_sid tx_sk tx_now = Ok (0, d_c1, d_msg0) /\ tp_wf (d_bufs d_c1) /\
  tp_run toyC (d_bufs d_c1) d_calls = Ok outs /\ Forall (fun o => fst (fst o) = 0) outs /\
  t_step (final (d_bufs d_c1) outs) = 8 /\ is_u64 (e_s (d_env_ 8) 0) /\
  tp_next toyC (d_env_ 8) (final (d_bufs d_c1) outs) d_net_7 (d_out_ d_tp_7) = Ok (0, c', out') /\
  start_peer toyC d_pblank 3600 (d_lt 1) d_msg0 (tx_now + 1) = Ok (0, d_p1 1) /\ zlen d_msg0 = msg0_SIZE /\
  peer_fresh toyC (d_pbufs (d_p1 1)) /\ peer_run toyC (d_pbufs (d_p1 1)) d_pcalls = Ok pouts /\ Forall (fun o => fst (fst o) = 0) pouts /\
  p_step toyC (final (d_pbufs (d_p1 1)) pouts) = 8 /\ is_u64 (pe_s (d_penv 1 8) 0) /\
  peer_next toyC (d_penv 1 8) (final (d_pbufs (d_p1 1)) pouts) [] (zeros 143) = Ok (0, p', m) /\
  0 <= 1 < t_n (final (d_bufs d_c1) outs) /\ rd d_net_7 (1 * msg19_SIZE) msg19_SIZE = Ok m.
Proof.
  destruct C39_example as (outs & pouts & A1 & A2 & A3 & A4 & A5 & A6 & A7 & A8 & _ & _).
  destruct (run_ok (do outs <- tp_run toyC (d_bufs d_c1) d_calls ;; do x <- tp_next toyC (d_env_ 8) (final (d_bufs d_c1) outs) d_net_7 (d_out_ d_tp_7) ;;
      Ok (t_step (final (d_bufs d_c1) outs), t_n (final (d_bufs d_c1) outs), fst (fst x))) (fun x => x) (8, 3, 0)) as (x & E & H); [vm_compute; reflexivity|].
  rewrite A3 in E. cbn [bind] in E. apply bind_ok in E. destruct E as ([[ret c'] out'] & E1 & E2). injection E2 as <-. injection H as H1 H2 H3. cbn [fst] in H3. subst ret.
  destruct (run_ok (do pouts <- peer_run toyC (d_pbufs (d_p1 1)) d_pcalls ;; do x <- peer_next toyC (d_penv 1 8) (final (d_pbufs (d_p1 1)) pouts) [] (zeros 143) ;;
      do m <- rd d_net_7 143 143 ;; Ok (p_step toyC (final (d_pbufs (d_p1 1)) pouts), fst (fst x), bytes_eqb (snd x) m)) (fun x => x) (8, 0, true)) as (y & F & G); [vm_compute; reflexivity|].
  rewrite A7 in F. cbn [bind] in F. apply bind_ok in F. destruct F as ([[ret p'] m] & F1 & F2). apply bind_ok in F2. destruct F2 as (m' & F2 & F3). injection F3 as <-.
  injection G as G1 G2 G3. cbn [fst snd] in G2, G3. subst ret. apply bytes_eqb_eq in G3. subst m'.
  exists outs, c', out', pouts, p', m. split; [exact toyC_ok|]. split; [exact A1|]. split; [exact A2|]. split; [exact A3|]. split; [exact A4|]. split; [exact H1|].
  split; [vm_compute; intuition discriminate|]. split; [exact E1|]. split; [exact A5|]. split; [exact A6|].
  split; [apply SafeExamples.fresh_b_ok; vm_compute; reflexivity|]. split; [exact A7|]. split; [exact A8|]. split; [exact G1|]. split; [vm_compute; intuition discriminate|].
  split; [exact F1|]. split; [rewrite H2; lia|exact F2].
Qed.
