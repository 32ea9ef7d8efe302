(** C99: the key generation over a network that may drop, delay, repeat and replace messages, but does not
    alter the signed ones. *)
From Coq Require Import ZArith Lia List Bool.
From Coq.Strings Require Import Byte.
From Verif Require Import PrimeL Fq Bytes Res Mem Sodium ToprfModel ToprfSpec DkgModel DkgSpec DkgProofs WireModel WireSpec WireProofs TpCrypto TpModel PeerModel.
From Verif Require Import TpFrame PeerFrame TpSpec TpMsg TpContent TpComplaints PeerContent TpControl TpSizes TpAgree TpMisc SafeSpec TpSafe PeerSafe HonestMsg HonestPeer.
From Verif Require Import PeerAnswer Cleared PeerSelf GoodSpec NetSpec Good.
From Verif Require FairPeer.
Import ListNotations.
Open Scope list_scope.
Open Scope Z_scope.

Lemma rd_some (b : bytes) o l : 0 <= o -> 0 <= l -> o + l <= zlen b -> exists m, rd b o l = Ok m.
Proof. intros. eexists. apply rd_ok; assumption. Qed.
Lemma In_cut sz b n j m : 0 < sz -> zlen b = n * sz -> 0 <= j < n -> rd b (j * sz) sz = Ok m -> In m (cut sz b).
Proof.
  intros Hs Hb Hj H. unfold cut. rewrite Hb, Z.div_mul by lia. apply in_map_iff. exists j. split; [|apply zrange_k; exact Hj].
  apply rd_inv in H. unfold slice. symmetry. apply H.
Qed.

Section NET.
Variable C : crypto.
Hypothesis HC : crypto_ok C.
Notation peer := (peer C).
Notation N := (cN C).
Notation S := (cS C).
Let HN : noise_ok N := ok_cN C HC.
Let HS : sigs_ok S := ok_cS C HC.
Notation delivered := (delivered C).

Notation same := (fun a b : peer => p_pks C b = p_pks C a /\ p_sid C b = p_sid C a /\ p_index C b = p_index C a).
Notation same2 := (fun a b : peer * bytes => same (fst a) (fst b)).
Ltac ff := recvs; cbn [ctl_state fst snd]; repeat split; reflexivity.

Lemma b7_same e input i s s' : peer_step7_body C e input i s = Ok (Next s') -> same2 s s'.
Proof. destruct s as [c o]. unfold peer_step7_body. intros H. inv H; ff. Qed.
Lemma b911_same e input i s s' : peer_step911_body C e input i s = Ok (Next s') -> same s s'.
Proof. unfold peer_step911_body. intros H. inv H; ff. Qed.
Lemma b15_same e input i s s' : peer_step15_body C e input i s = Ok (Next s') -> same s s'.
Proof. unfold peer_step15_body. intros H. inv H; ff. Qed.

Lemma recv_got c buf off len msgno from to pk i now c' : peer_recv C c buf off len msgno from to pk i now = Ok (0, c') -> 0 <= off -> 111 <= len ->
  delivered buf off len pk (p_sid C c) msgno from to.
Proof.
  intros H Ho Hl. apply peer_recv_inv in H. destruct H as (? & ? & ? & _ & R & _). destruct (recv_rd _ _ _ _ _ _ _ _ _ _ _ _ _ _ R eq_refl Ho Hl) as (m & Hm).
  eapply recv_delivered; eassumption.
Qed.
Lemma b7_got e input i s s' : 0 <= i -> peer_step7_body C e input i s = Ok (Next s') -> exists pk, getz (p_pks C (fst s)) i = Ok pk /\ delivered input (i * 159) 159 pk (p_sid C (fst s)) 4 (i + 1) (p_index C (fst s)).
Proof.
  destruct s as [c o]. intros Hi H. unfold peer_step7_body in H. apply bind_ok in H. destruct H as (pk & G & H). apply bind_ok in H. destruct H as ((ret & c1) & R & H).
  destruct (Z.eqb_spec ret 0) as [->|]; cbn [negb] in H; [|discriminate]. exists pk. split; [exact G|]. change msg4_SIZE with 159 in R. eapply recv_got; [exact R|lia|lia].
Qed.
Lemma b911_got e input i c s' : 0 <= i -> peer_step911_body C e input i c = Ok (Next s') -> exists pk, getz (p_pks C c) i = Ok pk /\ delivered input (i * 159) 159 pk (p_sid C c) 5 (i + 1) (p_index C c).
Proof.
  intros Hi H. unfold peer_step911_body in H. apply bind_ok in H. destruct H as (pk & G & H). apply bind_ok in H. destruct H as ((ret & c1) & R & H).
  destruct (Z.eqb_spec ret 0) as [->|]; cbn [negb] in H; [|discriminate]. exists pk. split; [exact G|]. change msg5_SIZE with 159 in R. eapply recv_got; [exact R|lia|lia].
Qed.
Lemma b15_got e input i c s' : 0 <= i -> peer_step15_body C e input i c = Ok (Next s') -> exists pk, getz (p_pks C c) i = Ok pk /\ delivered input (i * 256) 256 pk (p_sid C c) 8 (i + 1) (p_index C c).
Proof.
  intros Hi H. unfold peer_step15_body in H. apply bind_ok in H. destruct H as (pk & G & H). apply bind_ok in H. destruct H as ((ret & c1) & R & H).
  destruct (Z.eqb_spec ret 0) as [->|]; cbn [negb] in H; [|discriminate]. exists pk. split; [exact G|]. change msg8_SIZE with 256 in R. eapply recv_got; [exact R|lia|lia].
Qed.

Lemma self7 k e c input out p out' : 0 <= k < p_n C c -> peer_step7 C e c input out = Ok (0, p, out') ->
  zlen input = p_n C c * 159 /\ exists pk, getz (p_pks C c) k = Ok pk /\ delivered input (k * 159) 159 pk (p_sid C c) 4 (k + 1) (p_index C c).
Proof.
  intros Hk H. unfold peer_step7 in H.
  destruct (Z.eqb_spec (zlen input) (msg4_SIZE * p_n C c)) as [Zi|]; cbn [negb] in H; [|discriminate]. destruct (zlen out =? _); cbn [negb] in H; [|discriminate].
  change msg4_SIZE with 159 in Zi. split; [lia|].
  apply bind_ok in H. destruct H as (r & L & H). apply done_inv in H. destruct H as (_ & _ & [(-> & _)| ->]).
  2:{ exfalso. assert (HH : (fun r => r <> 0) 0); [|apply HH; reflexivity]. refine (loopM_code (fun r => r <> 0) _ _ _ _ _ _ L). intros x s r1 s2 E'. eapply code7; exact E'. }
  assert (Rr : forall s, same2 s s) by (intros; repeat split). assert (Rt : forall a b c, same2 a b -> same2 b c -> same2 a c) by (intros a b d (A1 & A2 & A3) (B1 & B2 & B3); repeat split; congruence).
  destruct (loop_at same2 (peer_step7_body C e input) k Rr Rt _ _ _ (zrange_NoDup _ _) (zrange_k _ _ Hk) (fun i s1 s2 _ _ => b7_same e input i s1 s2) L) as (a & b & (A1 & A2 & A3) & E & _).
  apply b7_got in E; [|lia]. destruct E as (pk & G & D). rewrite A1 in G. rewrite A2, A3 in D. exists pk. split; assumption.
Qed.
Lemma self911 k e c input out p out' : 0 <= k < p_n C c -> peer_step911 C e c input out = Ok (0, p, out') ->
  zlen input = p_n C c * 159 /\ zlen out = msg6_SIZE (p_t C c) /\ exists pk, getz (p_pks C c) k = Ok pk /\ delivered input (k * 159) 159 pk (p_sid C c) 5 (k + 1) (p_index C c).
Proof.
  intros Hk H. unfold peer_step911 in H.
  destruct (Z.eqb_spec (zlen input) (msg5_SIZE * p_n C c)) as [Zi|]; cbn [negb] in H; [|discriminate]. destruct (Z.eqb_spec (zlen out) (msg6_SIZE (p_t C c))) as [Zo|]; cbn [negb] in H; [|discriminate].
  change msg5_SIZE with 159 in Zi. split; [lia|]. split; [exact Zo|].
  apply bind_ok in H. destruct H as (r & L & H). destruct r as [c1|code c1].
  2:{ exfalso. injection H as -> _ _. assert (HH : (fun r => r <> 0) 0); [|apply HH; reflexivity]. refine (loopM_code (fun r => r <> 0) _ _ _ _ _ _ L). intros x s r1 s2 E'. eapply code911; exact E'. }
  assert (Rr : forall s : peer, same s s) by (intros; repeat split). assert (Rt : forall a b c : peer, same a b -> same b c -> same a c) by (intros a b d (A1 & A2 & A3) (B1 & B2 & B3); repeat split; congruence).
  destruct (loop_at same (peer_step911_body C e input) k Rr Rt _ _ _ (zrange_NoDup _ _) (zrange_k _ _ Hk) (fun i s1 s2 _ _ => b911_same e input i s1 s2) L) as (a & b & (A1 & A2 & A3) & E & _).
  apply b911_got in E; [|lia]. destruct E as (pk & G & D). rewrite A1 in G. rewrite A2, A3 in D. exists pk. split; assumption.
Qed.
Lemma self15 k e c input out p out' : 0 <= k < p_n C c -> peer_step15 C e c input out = Ok (0, p, out') ->
  zlen input = p_n C c * 256 /\ exists pk, getz (p_pks C c) k = Ok pk /\ delivered input (k * 256) 256 pk (p_sid C c) 8 (k + 1) (p_index C c).
Proof.
  intros Hk H. unfold peer_step15 in H.
  destruct (Z.eqb_spec (zlen input) (p_n C c * msg8_SIZE)) as [Zi|]; cbn [negb] in H; [|discriminate]. destruct (zlen out =? _); cbn [negb] in H; [|discriminate].
  change msg8_SIZE with 256 in Zi. split; [lia|].
  apply bind_ok in H. destruct H as (r & L & H). destruct r as [c1|code c1].
  2:{ exfalso. injection H as -> _ _. assert (HH : (fun r => r <> 0) 0); [|apply HH; reflexivity]. refine (loopM_code (fun r => r <> 0) _ _ _ _ _ _ L). intros x s r1 s2 E'. eapply code15; exact E'. }
  assert (Rr : forall s : peer, same s s) by (intros; repeat split). assert (Rt : forall a b c : peer, same a b -> same b c -> same a c) by (intros a b d (A1 & A2 & A3) (B1 & B2 & B3); repeat split; congruence).
  destruct (loop_at same (peer_step15_body C e input) k Rr Rt _ _ _ (zrange_NoDup _ _) (zrange_k _ _ Hk) (fun i s1 s2 _ _ => b15_same e input i s1 s2) L) as (a & b & (A1 & A2 & A3) & E & _).
  apply b15_got in E; [|lia]. destruct E as (pk & G & D). rewrite A1 in G. rewrite A2, A3 in D. exists pk. split; assumption.
Qed.
Lemma cast17 e c input out p out' : 0 <= p_n C c -> peer_step17 C e c input out = Ok (0, p, out') -> delivered input 0 (zlen input) (p_tp_pk C c) (p_sid C c) 10 0 255.
Proof.
  intros Hn H. unfold peer_step17 in H.
  destruct (Z.eqb_spec (zlen input) (msg10_SIZE (p_n C c))) as [Zi|]; cbn [negb] in H; [|discriminate]. destruct (zlen out =? _); cbn [negb] in H; [|discriminate].
  apply bind_ok in H. destruct H as ((ret & c1) & R & H). apply peer_recv_tp_inv in R. destruct R as (last & R & _). pose proof (recv_codes _ _ _ _ _ _ _ _ _ _ _ _ _ _ R) as Hr.
  destruct (Z.eqb_spec ret 0) as [->|]; cbn [negb] in H; [|exfalso; assert (16 + ret = 0) by congruence; lia].
  assert (111 <= zlen input) by (rewrite Zi; unfold msg10_SIZE, msg9_SIZE, hdr_SIZE; nia).
  eapply recv_delivered; [apply rd_all; reflexivity|assumption|exact R].
Qed.
Lemma pks12 e c input out ret c' out' : tp_step12 C e c input out = Ok (ret, c', out') -> t_pks c' = t_pks c.
Proof.
  unfold tp_step12. intros H. inv H; try reflexivity.
  all: match goal with E : loopM (tp_step12_body _ _ _) _ _ = Ok _ |- _ =>
    apply (loop_rel (fun a b : tp * bytes * Z => t_pks (fst (fst b)) = t_pks (fst (fst a)))) in E; [|intros; reflexivity|intros; congruence|] end.
  all: try assumption.
  all: intros i [[a b] w] r H; unfold tp_step12_body in H; inv H.
  all: repeat match goal with
  | H : tp_recv C _ _ _ _ _ _ _ _ _ _ = Ok _ |- _ => apply tp_recv_inv in H; destruct H as (? & ? & ? & _ & _ & _ & ?)
  | H : add_cheater _ _ _ _ _ = Some _ |- _ => apply add_cheater_inv in H; destruct H as (_ & ?)
  end; subst; cbn [ctl_state fst snd]; reflexivity.
Qed.
Lemma tp_frame e c input out c' out' : tp_next C e c input out = Ok (0, c', out') -> 0 <= t_step c <= 6 -> t_sid c' = t_sid c /\ t_lt c' = t_lt c.
Proof.
  intros H Hs. apply tp_next_moves in H. destruct H as [(_ & Q & _)|(_ & c1 & X & H)]; [discriminate|].
  destruct H as [(_ & ->)|[(_ & _ & ->)|(_ & _ & [ -> |(_ & _ & ->)])]]; cbn [t_sid t_lt tp_step_set]; split; apply X.
Qed.
Lemma peer_frame e c input out c' out' : peer_next C e c input out = Ok (0, c', out') -> p_step C c <= 7 -> p_tp_pk C c' = p_tp_pk C c /\ p_sid C c' = p_sid C c.
Proof.
  intros H H7. apply peer_next_moves in H. destruct H as [(_ & Q & _)|(_ & c1 & X & H)]; [discriminate|].
  destruct H as [(Q & _)|[(_ & _ & ->)|[(_ & _ & _ & ->)|[(_ & _ & ->)|(_ & Q & _)]]]]; try lia; cbn [p_tp_pk p_sid peer_step_set]; split; apply X.
Qed.

Section RUN.
Variables (c : tp) (calls : list tp_call) (outs : list (Z * tp * bytes)) (k : Z) (p : peer) (pcalls : list peer_call) (pouts : list (Z * peer * bytes)).
Hypothesis D : done_well C c calls outs.
Hypothesis RN : ran C c k p pcalls pouts.
Lemma unforged_head : unforged C whole c calls outs k p pcalls pouts -> unforged C head c calls outs k p pcalls pouts.
Proof.
  intros [U1 U2 U3 U4]. constructor; [exact U1| | |exact U4].
  - intros m msgno from to ts body A B1 B2 B3 Sg. pose proof (U2 m msgno from to ts body A B1 B2 B3 Sg) as Q. destruct (tp_wrote outs msgno to); cbn [option_map] in *; unfold whole in Q; congruence.
  - intros m msgno from to ts body A B1 B2 B3 Sg. pose proof (U3 m msgno from to ts body A B1 B2 B3 Sg) as Q. destruct (peer_wrote pouts msgno to); cbn [option_map] in *; unfold whole in Q; congruence.
Qed.

(** the header of a signed message has its length *)
Lemma head_length pk pk' sid sid' msgno msgno' from from' to to' ts ts' body body' m m' : zlen sid = 32 -> zlen sid' = 32 -> zlen m < 2 ^ 32 -> zlen m' < 2 ^ 32 ->
  signed S pk sid msgno from to ts body m -> signed S pk' sid' msgno' from' to' ts' body' m' -> head m = head m' -> zlen m = zlen m'.
Proof.
  intros Hs Hs' L L' G G' E. pose proof (signed_zlen _ _ _ _ _ _ _ _ _ Hs G) as Z1. pose proof (signed_zlen _ _ _ _ _ _ _ _ _ Hs' G') as Z2.
  destruct G as (sig & A1 & _ & A3 & _), G' as (sig' & B1 & _ & B3 & _). unfold head in E. rewrite A3, B3 in E. unfold message in E.
  assert (F : forall s h b : bytes, zlen s = 64 -> zlen h = 47 -> firstn 111 (s ++ h ++ b) = s ++ h).
  { intros s h b Q1 Q2. rewrite app_assoc, firstn_app, firstn_all2 by (unfold zlen in *; rewrite app_length; lia). replace (111 - length (s ++ h))%nat with 0%nat by (unfold zlen in *; rewrite app_length; lia). apply app_nil_r. }
  rewrite !F in E by (assumption || apply zlen_header; assumption).
  apply app_inj_len in E; [|unfold zlen in *; lia]. destruct E as (_ & E). unfold header in E.
  apply app_inj_len in E; [|reflexivity]. destruct E as (_ & E). apply app_inj_len in E; [|rewrite !be_bytes_length; reflexivity]. destruct E as (E & _).
  apply (f_equal of_be) in E. rewrite !of_be_be in E; [lia| |]; pose proof (zlen_nonneg body); pose proof (zlen_nonneg body'); change (256 ^ Z.of_nat 4) with (2 ^ 32); lia.
Qed.

(** The peer's numbers are those of the trusted party: the length of the key broadcast tells one, the
    length of the commitments the other, and the lengths are signed. *)
Lemma numbers_agree : unforged C head c calls outs k p pcalls pouts -> p_n C p = t_n c /\ p_t C p = t_t c.
Proof.
  intros U. assert (RN' := RN). destruct D as [W0 S0 Cm0 R Lc Ok0 Tc]. destruct RN' as [Hk F PR Lp POk Tp _]. destruct U as [Usid Utp Upeer Ult].
  destruct (nine _ Lc) as ([[f0 j0] u0] & [[f1 j1] u1] & [[f2 j2] u2] & [[f3 j3] u3] & [[f4 j4] u4] & [[f5 j5] u5] & [[f6 j6] u6] & [[f7 j7] u7] & [[f8 j8] u8] & ->).
  destruct (nine _ Lp) as ([[e0 i0] o0] & [[e1 i1] o1] & [[e2 i2] o2] & [[e3 i3] o3] & [[e4 i4] o4] & [[e5 i5] o5] & [[e6 i6] o6] & [[e7 i7] o7] & [[e8 i8] o8] & ->).
  apply tp_cons in R. destruct R as (r0 & c1 & v0 & ? & -> & N0 & R). apply tp_cons in R. destruct R as (r1 & c2 & v1 & ? & -> & N1 & R).
  apply tp_cons in R. destruct R as (r2 & c3 & v2 & ? & -> & N2 & R). apply tp_cons in R. destruct R as (r3 & c4 & v3 & ? & -> & N3 & R).
  apply tp_cons in R. destruct R as (r4 & c5 & v4 & ? & -> & N4 & R). apply tp_cons in R. destruct R as (r5 & c6 & v5 & ? & -> & N5 & R).
  apply tp_cons in R. destruct R as (r6 & c7 & v6 & ? & -> & N6 & R). apply tp_cons in R. destruct R as (r7 & c8 & v7 & ? & -> & N7 & R).
  apply tp_cons in R. destruct R as (r8 & c9 & v8 & ? & -> & N8 & R). injection R as <-.
  repeat match goal with Q : Forall _ (_ :: _) |- _ => inversion Q; clear Q; subst end. cbn [fst] in *. subst.
  apply run_cons in PR. destruct PR as (? & p1 & w0 & ? & -> & P0 & PR). apply run_cons in PR. destruct PR as (? & p2 & w1 & ? & -> & P1 & PR).
  apply run_cons in PR. destruct PR as (? & p3 & w2 & ? & -> & P2 & PR). apply run_cons in PR. destruct PR as (? & p4 & w3 & ? & -> & P3 & PR).
  apply run_cons in PR. destruct PR as (? & p5 & w4 & ? & -> & P4 & PR). apply run_cons in PR. destruct PR as (? & p6 & w5 & ? & -> & P5 & PR).
  apply run_cons in PR. destruct PR as (? & p7 & w6 & ? & -> & P6 & PR). apply run_cons in PR. destruct PR as (? & p8 & w7 & ? & -> & P7 & PR).
  apply run_cons in PR. destruct PR as (? & p9 & w8 & ? & -> & P8 & PR). injection PR as <-.
  repeat match goal with Q : Forall _ (_ :: _) |- _ => inversion Q; clear Q; subst end. cbn [fst] in *. subst.
  assert (U0 : forall j, is_u64 (pe_s e0 j)) by (intros; eapply Tp; cbn; eauto 12). assert (U1 : forall j, is_u64 (pe_s e1 j)) by (intros; eapply Tp; cbn; eauto 12).
  assert (U2 : forall j, is_u64 (pe_s e2 j)) by (intros; eapply Tp; cbn; eauto 12). assert (U3 : forall j, is_u64 (pe_s e3 j)) by (intros; eapply Tp; cbn; eauto 12).
  assert (U4 : forall j, is_u64 (pe_s e4 j)) by (intros; eapply Tp; cbn; eauto 12). assert (U5 : forall j, is_u64 (pe_s e5 j)) by (intros; eapply Tp; cbn; eauto 12).
  assert (V1 : is_u64 (e_s f1 0)) by (eapply Tc; cbn; eauto 12). assert (V4 : is_u64 (e_s f4 0)) by (eapply Tc; cbn; eauto 12). assert (V6 : is_u64 (e_s f6 0)) by (eapply Tc; cbn; eauto 12).
  clear Tp Tc Lc Lp.
  pose proof (tp_wf_step C _ _ _ _ _ _ _ W0 N0) as W1. pose proof (tp_wf_step C _ _ _ _ _ _ _ W1 N1) as W2. pose proof (tp_wf_step C _ _ _ _ _ _ _ W2 N2) as W3.
  pose proof (tp_wf_step C _ _ _ _ _ _ _ W3 N3) as W4.
  destruct (next_nt C _ _ _ _ _ _ _ N0) as (Tn1 & Tt1). destruct (next_nt C _ _ _ _ _ _ _ N1) as (Tn2 & Tt2). destruct (next_nt C _ _ _ _ _ _ _ N2) as (Tn3 & Tt3).
  destruct (next_nt C _ _ _ _ _ _ _ N3) as (Tn4 & Tt4).
  assert (X : t_step c1 = 1 /\ t_prev c1 = 0) by (destruct (next_tp C _ _ _ _ _ _ N0 ltac:(lia)); lia). destruct X as (S1 & Q1).
  assert (X : t_step c2 = 2 /\ t_prev c2 = 1) by (destruct (next_tp C _ _ _ _ _ _ N1 ltac:(lia)); lia). destruct X as (S2 & Q2).
  assert (X : t_step c3 = 3 /\ t_prev c3 = 2) by (destruct (next_tp C _ _ _ _ _ _ N2 ltac:(lia)); lia). destruct X as (S3 & Q3).
  assert (X : t_step c4 = 4 /\ t_prev c4 = 3) by (destruct (next_tp C _ _ _ _ _ _ N3 ltac:(lia)); lia). destruct X as (S4 & Q4).
  pose proof (fresh_inv C p F) as J0. pose proof (proj1 (proj2 F)) as s0.
  pose proof (pinv_next C HN _ _ _ _ _ _ _ J0 P0) as J1. pose proof (pinv_next C HN _ _ _ _ _ _ _ J1 P1) as J2.
  pose proof (pinv_next C HN _ _ _ _ _ _ _ J2 P2) as J3.
  assert (s1 : p_step C p1 = 1) by (pose proof (next_step C _ p _ _ _ _ ltac:(lia) P0); lia).
  assert (s2 : p_step C p2 = 2) by (pose proof (next_step C _ p1 _ _ _ _ ltac:(lia) P1); lia).
  assert (s3 : p_step C p3 = 3) by (pose proof (next_step C _ p2 _ _ _ _ ltac:(lia) P2); lia).
  pose proof (next_frame C _ p1 _ _ _ _ ltac:(lia) ltac:(lia) P1) as (G1n & G1t & G1s & G1i & G1k). pose proof (next_frame C _ p2 _ _ _ _ ltac:(lia) ltac:(lia) P2) as (G2n & G2t & G2s & G2i & G2k).
  destruct (peer_nt_step C _ _ _ _ _ _ _ P0) as (G0n & G0t).
  assert (F1 := tp_frame _ _ _ _ _ _ N0 ltac:(lia)). assert (F2 := tp_frame _ _ _ _ _ _ N1 ltac:(lia)). assert (F3 := tp_frame _ _ _ _ _ _ N2 ltac:(lia)).
  assert (F4 := tp_frame _ _ _ _ _ _ N3 ltac:(lia)).
  destruct F1 as (Fs1 & Fl1), F2 as (Fs2 & _), F3 as (Fs3 & _), F4 as (Fs4 & _).
  destruct (peer_frame _ _ _ _ _ _ P0 ltac:(lia)) as (H1k & H1s). destruct (peer_frame _ _ _ _ _ _ P1 ltac:(lia)) as (H2k & H2s). destruct (peer_frame _ _ _ _ _ _ P2 ltac:(lia)) as (H3k & H3s).
  assert (Y1s : p_sid C p1 = t_sid c) by congruence. assert (Y3s : p_sid C p3 = t_sid c) by congruence.
  pose proof (w_n c W0) as Hn0. pose proof (w_t c W0) as Ht0.
  (* the long-term signature *)
  pose proof N1 as X1. rewrite tp_next_1 in X1 by exact S1. apply finish_inv in X1. destruct X1 as (y2 & X1 & Ey2).
  destruct (step4_content C f1 c1 j1 u1 y2 v1 HC (w_sid c1 W1) V1 ltac:(lia) X1) as (Lv1 & _ & Dv1 & _ & K4). destruct (K4 k ltac:(lia)) as (m & ltsig & lt & pk & B1 & B2 & B3 & B4 & B5 & B6 & B7 & B8). clear K4.
  change msg2_SIZE with 175 in *. change sign_BYTES with 64 in *. change (175 + 64) with 239 in *. change hdr_SIZE with 111 in *.
  assert (A9 : rd w0 0 175 = Ok m).
  { rewrite Fl1 in B3. pose proof (Ult _ _ _ lt m ltsig eq_refl B3 B1 B2 B4) as Q. unfold peer_wrote, part_of in Q. cbn [nth_error] in Q. change (0 * 175) with 0 in Q. destruct (rd w0 0 175); congruence. }
  pose proof P0 as Z0. rewrite (peer_next_0 C) in Z0 by exact s0. apply pfinish_inv in Z0. destruct Z0 as (q1 & Z0 & Eq1). cbn [Z.eqb] in Eq1.
  apply s23_out in Z0; [|exact HC|apply (v_sid C p (proj1 F))|apply U0]. destruct Z0 as (A1 & A2 & A3 & A4 & A5 & A6 & A7 & A8).
  assert (Idx : p_index C p1 = k + 1).
  { destruct B7 as (m' & ts & body & D1 & sg & D2 & D3 & D4 & _). rewrite B1 in D1. injection D1 as <-. assert (A9' := A9). rewrite A8 in A9'. injection A9' as A9'. rewrite D4 in A9'. unfold mk_msg in A9'. cbn zeta in A9'.
    rewrite Eq1. cbn [p_index peer_step_set]. eapply header_from in A9'; [exact A9'|apply (sig_zlen S HS)|exact D2|unfold is_byte; lia|unfold is_byte; lia]. }
  assert (Epk : pk = sig_pk S (p_sk C p1)).
  { rewrite Eq1. cbn [p_sk peer_step_set]. pose proof (part_mk S HS _ (v_sid C p (proj1 F)) w0 0 175 _ _ _ _ _ [] _ _ 111 32 A8 eq_refl ltac:(rewrite (pk_zlen S HS); reflexivity)) as Q.
    rewrite (rd_rd _ _ _ _ 111 32 A9) in B5 by lia. change (0 + 111) with 111 in B5. congruence. }
  assert (Kc : t_pks c2 = t_pks y2) by (rewrite Ey2; reflexivity).
  (* the number of peers *)
  assert (EN : p_n C p = t_n c).
  { pose proof P1 as Q. rewrite (peer_next_1 C) in Q by exact s1. apply pfinish_inv in Q. destruct Q as (q2 & Q & _). pose proof (v_n C p1 (i_wf C _ J1)) as Hn1. apply peer5_content in Q; [|lia]. destruct Q as (Zi & Q & _).
    change msg2_SIZE with 175 in Zi. change hdr_SIZE with 111 in Zi. destruct Q as (m' & ts & body & D1 & D2). rewrite rd_all in D1 by reflexivity. injection D1 as <-. rewrite Y1s, H1k in D2.
    assert (A : arrived (C := C) c [(f0, j0, u0); (f1, j1, u1); (f2, j2, u2); (f3, j3, u3); (f4, j4, u4); (f5, j5, u5); (f6, j6, u6); (f7, j7, u7); (f8, j8, u8)]
      [(e0, i0, o0); (e1, i1, o1); (e2, i2, o2); (e3, i3, o3); (e4, i4, o4); (e5, i5, o5); (e6, i6, o6); (e7, i7, o7); (e8, i8, o8)] i1).
    { right. exists 1%nat, e1, i1, o1. split; [reflexivity|left; reflexivity]. }
    pose proof (Utp i1 3 0 255 ts body A ltac:(unfold is_byte; lia) ltac:(unfold is_byte; lia) ltac:(unfold is_byte; lia) D2) as E. unfold tp_wrote, whole_of in E. cbn [nth_error option_map snd] in E.
    assert (E' : head v1 = head i1) by congruence. destruct Dv1 as (m' & ts' & body' & D3 & D4). rewrite rd_all in D3 by reflexivity. injection D3 as <-.
    assert (Hsid : zlen (t_sid c) = 32) by (apply (w_sid c W0)). assert (Hsid1 : zlen (t_sid c1) = 32) by (rewrite Fs1; exact Hsid).
    assert (Lb : zlen v1 < 2 ^ 32) by lia. assert (Lb' : zlen i1 < 2 ^ 32) by lia. pose proof (head_length _ _ _ _ _ _ _ _ _ _ _ _ _ _ _ _ Hsid1 Hsid Lb Lb' D4 D2 E') as Q'. lia. }
  split; [exact EN|].
  (* the threshold *)
  assert (Own : getz (t_pks c2) k = Ok (sig_pk S (p_sk C p1))) by (rewrite Kc, <- Epk; exact B6).
  assert (T3 : t_pks c3 = t_pks c2). { pose proof N2 as Q. rewrite tp_next_2 in Q by exact S2. apply finish_inv in Q. destruct Q as (y & Q & ->). apply tkeep68 in Q. apply Q. }
  assert (T4 : t_pks c4 = t_pks c3). { pose proof N3 as Q. rewrite tp_next_3 in Q by exact S3. apply finish_inv in Q. destruct Q as (y & Q & ->). apply tkeep68 in Q. apply Q. }
  assert (Hsid : zlen (t_sid c) = 32) by (apply (w_sid c W0)).
  pose proof N4 as Q. rewrite tp_next_4 in Q by exact S4. apply finish_inv in Q. destruct Q as (y & Q & _).
  destruct (step12_content C f4 c4 j4 u4 y v4 HC (w_sid c4 W4) V4 ltac:(lia) ltac:(lia) Q) as (_ & Zj & _ & _ & K). destruct (K k ltac:(lia)) as (m' & data & pk' & D1 & _ & _ & D2 & D3 & _). clear K Q.
  assert (Et : t_t c4 = t_t c) by congruence. rewrite Et in *. assert (111 <= msg6_SIZE (t_t c)) by (unfold msg6_SIZE, hdr_SIZE; lia).
  assert (Ek : pk' = sig_pk S (p_sk C p1)) by congruence. subst pk'. destruct D3 as (m'' & ts & body & D3 & D4). rewrite D1 in D3. injection D3 as <-.
  replace (t_sid c4) with (t_sid c) in D4 by congruence.
  assert (A : arrived (C := C) c [(f0, j0, u0); (f1, j1, u1); (f2, j2, u2); (f3, j3, u3); (f4, j4, u4); (f5, j5, u5); (f6, j6, u6); (f7, j7, u7); (f8, j8, u8)]
      [(e0, i0, o0); (e1, i1, o1); (e2, i2, o2); (e3, i3, o3); (e4, i4, o4); (e5, i5, o5); (e6, i6, o6); (e7, i7, o7); (e8, i8, o8)] m').
  { left. exists 4%nat, f4, j4, u4. split; [reflexivity|]. cbn [tp_finds]. eapply In_cut; [|exact Zj| |exact D1]; lia. }
  pose proof (Upeer m' 6 (k + 1) 255 ts body A ltac:(unfold is_byte; lia) ltac:(unfold is_byte; lia) ltac:(unfold is_byte; lia) D4) as E. unfold peer_wrote, whole_of in E. cbn [nth_error option_map snd] in E.
  assert (E' : head w3 = head m') by congruence.
  pose proof P3 as Q. rewrite (peer_next_3 C) in Q by exact s3. apply pfinish_inv in Q. destruct Q as (q4 & Q & _). pose proof (v_t C p3 (i_wf C _ J3)) as Ht3. pose proof (v_n C p3 (i_wf C _ J3)) as Hn3.
  apply FairPeer.s911_sent in Q; [|exact HC|apply (i_wf C _ J3)|lia|apply U3|unfold is_byte; lia]. destruct Q as (Z3 & body' & D5).
  pose proof (rd_inv _ _ _ _ D1) as (_ & _ & _ & Lm & _). rewrite Y3s in D5. unfold msg6_SIZE, hdr_SIZE in Lm.
  assert (Lb : zlen w3 < 2 ^ 32) by lia. assert (Lb' : zlen m' < 2 ^ 32) by lia. pose proof (head_length _ _ _ _ _ _ _ _ _ _ _ _ _ _ _ _ Hsid Hsid Lb Lb' D5 D4 E') as Q'. lia.
Qed.

Hypothesis U : unforged C whole c calls outs k p pcalls pouts.
Lemma unforged_linked : linked C c calls outs k p pcalls pouts.
Proof.
  assert (RN' := RN). destruct D as [W0 S0 Cm0 R Lc Ok0 Tc]. destruct RN' as [Hk F PR Lp POk Tp _]. destruct (numbers_agree (unforged_head U)) as (Pn & Pt). destruct U as [Usid Utp Upeer Ult].
  destruct (nine _ Lc) as ([[f0 j0] u0] & [[f1 j1] u1] & [[f2 j2] u2] & [[f3 j3] u3] & [[f4 j4] u4] & [[f5 j5] u5] & [[f6 j6] u6] & [[f7 j7] u7] & [[f8 j8] u8] & ->).
  destruct (nine _ Lp) as ([[e0 i0] o0] & [[e1 i1] o1] & [[e2 i2] o2] & [[e3 i3] o3] & [[e4 i4] o4] & [[e5 i5] o5] & [[e6 i6] o6] & [[e7 i7] o7] & [[e8 i8] o8] & ->).
  apply tp_cons in R. destruct R as (r0 & c1 & v0 & ? & -> & N0 & R). apply tp_cons in R. destruct R as (r1 & c2 & v1 & ? & -> & N1 & R).
  apply tp_cons in R. destruct R as (r2 & c3 & v2 & ? & -> & N2 & R). apply tp_cons in R. destruct R as (r3 & c4 & v3 & ? & -> & N3 & R).
  apply tp_cons in R. destruct R as (r4 & c5 & v4 & ? & -> & N4 & R). apply tp_cons in R. destruct R as (r5 & c6 & v5 & ? & -> & N5 & R).
  apply tp_cons in R. destruct R as (r6 & c7 & v6 & ? & -> & N6 & R). apply tp_cons in R. destruct R as (r7 & c8 & v7 & ? & -> & N7 & R).
  apply tp_cons in R. destruct R as (r8 & c9 & v8 & ? & -> & N8 & R). injection R as <-.
  repeat match goal with Q : Forall _ (_ :: _) |- _ => inversion Q; clear Q; subst end. cbn [fst] in *. subst.
  apply run_cons in PR. destruct PR as (? & p1 & w0 & ? & -> & P0 & PR). apply run_cons in PR. destruct PR as (? & p2 & w1 & ? & -> & P1 & PR).
  apply run_cons in PR. destruct PR as (? & p3 & w2 & ? & -> & P2 & PR). apply run_cons in PR. destruct PR as (? & p4 & w3 & ? & -> & P3 & PR).
  apply run_cons in PR. destruct PR as (? & p5 & w4 & ? & -> & P4 & PR). apply run_cons in PR. destruct PR as (? & p6 & w5 & ? & -> & P5 & PR).
  apply run_cons in PR. destruct PR as (? & p7 & w6 & ? & -> & P6 & PR). apply run_cons in PR. destruct PR as (? & p8 & w7 & ? & -> & P7 & PR).
  apply run_cons in PR. destruct PR as (? & p9 & w8 & ? & -> & P8 & PR). injection PR as <-.
  repeat match goal with Q : Forall _ (_ :: _) |- _ => inversion Q; clear Q; subst end. cbn [fst] in *. subst.
  assert (U0 : forall j, is_u64 (pe_s e0 j)) by (intros; eapply Tp; cbn; eauto 12). assert (U1 : forall j, is_u64 (pe_s e1 j)) by (intros; eapply Tp; cbn; eauto 12).
  assert (U2 : forall j, is_u64 (pe_s e2 j)) by (intros; eapply Tp; cbn; eauto 12). assert (U3 : forall j, is_u64 (pe_s e3 j)) by (intros; eapply Tp; cbn; eauto 12).
  assert (U4 : forall j, is_u64 (pe_s e4 j)) by (intros; eapply Tp; cbn; eauto 12). assert (U5 : forall j, is_u64 (pe_s e5 j)) by (intros; eapply Tp; cbn; eauto 12).
  assert (V1 : is_u64 (e_s f1 0)) by (eapply Tc; cbn; eauto 12). assert (V4 : is_u64 (e_s f4 0)) by (eapply Tc; cbn; eauto 12). assert (V6 : is_u64 (e_s f6 0)) by (eapply Tc; cbn; eauto 12).
  clear Tp Tc Lc Lp.
  (* the trusted party *)
  pose proof (tp_wf_step C _ _ _ _ _ _ _ W0 N0) as W1. pose proof (tp_wf_step C _ _ _ _ _ _ _ W1 N1) as W2. pose proof (tp_wf_step C _ _ _ _ _ _ _ W2 N2) as W3.
  pose proof (tp_wf_step C _ _ _ _ _ _ _ W3 N3) as W4. pose proof (tp_wf_step C _ _ _ _ _ _ _ W4 N4) as W5. pose proof (tp_wf_step C _ _ _ _ _ _ _ W5 N5) as W6.
  pose proof (tp_wf_step C _ _ _ _ _ _ _ W6 N6) as W7. pose proof (tp_wf_step C _ _ _ _ _ _ _ W7 N7) as W8. pose proof (tp_wf_step C _ _ _ _ _ _ _ W8 N8) as W9.
  destruct (next_nt C _ _ _ _ _ _ _ N0) as (Tn1 & Tt1). destruct (next_nt C _ _ _ _ _ _ _ N1) as (Tn2 & Tt2). destruct (next_nt C _ _ _ _ _ _ _ N2) as (Tn3 & Tt3).
  destruct (next_nt C _ _ _ _ _ _ _ N3) as (Tn4 & Tt4). destruct (next_nt C _ _ _ _ _ _ _ N4) as (Tn5 & Tt5). destruct (next_nt C _ _ _ _ _ _ _ N5) as (Tn6 & Tt6).
  destruct (next_nt C _ _ _ _ _ _ _ N6) as (Tn7 & Tt7). destruct (next_nt C _ _ _ _ _ _ _ N7) as (Tn8 & Tt8). destruct (next_nt C _ _ _ _ _ _ _ N8) as (Tn9 & Tt9).
  assert (X : t_step c1 = 1 /\ t_prev c1 = 0) by (destruct (next_tp C _ _ _ _ _ _ N0 ltac:(lia)); lia). destruct X as (S1 & Q1).
  assert (X : t_step c2 = 2 /\ t_prev c2 = 1) by (destruct (next_tp C _ _ _ _ _ _ N1 ltac:(lia)); lia). destruct X as (S2 & Q2).
  assert (X : t_step c3 = 3 /\ t_prev c3 = 2) by (destruct (next_tp C _ _ _ _ _ _ N2 ltac:(lia)); lia). destruct X as (S3 & Q3).
  assert (X : t_step c4 = 4 /\ t_prev c4 = 3) by (destruct (next_tp C _ _ _ _ _ _ N3 ltac:(lia)); lia). destruct X as (S4 & Q4).
  assert (X : t_step c5 = 5 /\ t_prev c5 = 4) by (destruct (next_tp C _ _ _ _ _ _ N4 ltac:(lia)); lia). destruct X as (S5 & Q5).
  assert (X : t_step c6 = 6 /\ t_prev c6 = 5) by (destruct (next_tp C _ _ _ _ _ _ N5 ltac:(lia)); lia). destruct X as (S6 & Q6).
  assert (Cm7 : t_complaints c7 = []).
  { destruct (t_complaints c7) as [|x l] eqn:E; [reflexivity|]. exfalso. assert (Ne : t_complaints c7 <> []) by congruence.
    destruct (complaint_tp_fails C _ _ _ _ _ _ _ _ _ _ _ _ _ S6 N6 Ne N7) as (Q & _). apply Q. reflexivity. }
  assert (S7 : t_step c7 = 8 /\ t_prev c7 = 6).
  { pose proof N6 as Q. rewrite tp_next_6 in Q by exact S6. apply bind_ok in Q. destruct Q as ([[r q] o] & E & Q). injection Q as -> <- <-. cbn [t_complaints tp_step_set] in Cm7.
    pose proof (ext_step16 C _ _ _ _ _ _ _ E) as X. cbn [t_step t_prev tp_step_set]. rewrite Cm7, (x_step _ _ X), S6. split; reflexivity. }
  destruct S7 as (S7 & Q7).
  (* the peer *)
  pose proof (fresh_inv C p F) as J0. pose proof (proj1 (proj2 F)) as s0.
  pose proof (pinv_next C HN _ _ _ _ _ _ _ J0 P0) as J1. pose proof (pinv_next C HN _ _ _ _ _ _ _ J1 P1) as J2.
  pose proof (pinv_next C HN _ _ _ _ _ _ _ J2 P2) as J3. pose proof (pinv_next C HN _ _ _ _ _ _ _ J3 P3) as J4.
  pose proof (pinv_next C HN _ _ _ _ _ _ _ J4 P4) as J5. pose proof (pinv_next C HN _ _ _ _ _ _ _ J5 P5) as J6.
  assert (s1 : p_step C p1 = 1) by (pose proof (next_step C _ p _ _ _ _ ltac:(lia) P0); lia).
  assert (s2 : p_step C p2 = 2) by (pose proof (next_step C _ p1 _ _ _ _ ltac:(lia) P1); lia).
  assert (s3 : p_step C p3 = 3) by (pose proof (next_step C _ p2 _ _ _ _ ltac:(lia) P2); lia).
  assert (s4 : p_step C p4 = 4) by (pose proof (next_step C _ p3 _ _ _ _ ltac:(lia) P3); lia).
  assert (s5 : p_step C p5 = 5) by (pose proof (next_step C _ p4 _ _ _ _ ltac:(lia) P4); lia).
  assert (s6 : p_step C p6 = 6) by (pose proof (next_step C _ p5 _ _ _ _ ltac:(lia) P5); lia).
  pose proof (next_frame C _ p1 _ _ _ _ ltac:(lia) ltac:(lia) P1) as (G1n & G1t & G1s & G1i & G1k). pose proof (next_frame C _ p2 _ _ _ _ ltac:(lia) ltac:(lia) P2) as (G2n & G2t & G2s & G2i & G2k).
  pose proof (next_frame C _ p3 _ _ _ _ ltac:(lia) ltac:(lia) P3) as (G3n & G3t & G3s & G3i & G3k). pose proof (next_frame C _ p4 _ _ _ _ ltac:(lia) ltac:(lia) P4) as (G4n & G4t & G4s & G4i & G4k).
  pose proof (next_frame C _ p5 _ _ _ _ ltac:(lia) ltac:(lia) P5) as (G5n & G5t & G5s & G5i & G5k). pose proof (next_frame C _ p6 _ _ _ _ ltac:(lia) ltac:(lia) P6) as (G6n & G6t & G6s & G6i & G6k).
  destruct (peer_nt_step C _ _ _ _ _ _ _ P0) as (G0n & G0t).
  assert (PW : forall q, pinv C q -> p_n C q = t_n c -> peer_wf C q) by (intros q Q _; apply (i_wf C q Q)).
  unfold whole in *.
  assert (Utp' : forall s e i o m msgno from to pk sid, nth_error [(e0, i0, o0); (e1, i1, o1); (e2, i2, o2); (e3, i3, o3); (e4, i4, o4); (e5, i5, o5); (e6, i6, o6); (e7, i7, o7); (e8, i8, o8)] s = Some (e, i, o) -> 
    In m (peer_finds s i) -> rd i 0 (zlen i) = Ok m -> pk = p_tp_pk C p -> sid = t_sid c -> is_byte msgno -> is_byte from -> is_byte to -> delivered i 0 (zlen i) pk sid msgno from to ->
    option_map (fun m : bytes => m) (tp_wrote [(0, c1, v0); (0, c2, v1); (0, c3, v2); (0, c4, v3); (0, c5, v4); (0, c6, v5); (0, c7, v6); (0, c8, v7); (0, c9, v8)] msgno to) = Some m).
  { intros s e i o m msgno from to pk sid Y1 Y2 Y3 -> -> B1 B2 B3 (m' & ts & body & D1 & D2). rewrite Y3 in D1. injection D1 as <-. eapply Utp; [right; do 4 eexists; split; [exact Y1|exact Y2]|exact B1|exact B2|exact B3|exact D2]. }
  assert (F1 := tp_frame _ _ _ _ _ _ N0 ltac:(lia)). assert (F2 := tp_frame _ _ _ _ _ _ N1 ltac:(lia)). assert (F3 := tp_frame _ _ _ _ _ _ N2 ltac:(lia)).
  assert (F4 := tp_frame _ _ _ _ _ _ N3 ltac:(lia)). assert (F5 := tp_frame _ _ _ _ _ _ N4 ltac:(lia)). assert (F6 := tp_frame _ _ _ _ _ _ N5 ltac:(lia)).
  destruct F1 as (Fs1 & Fl1), F2 as (Fs2 & _), F3 as (Fs3 & _), F4 as (Fs4 & _), F5 as (Fs5 & _), F6 as (Fs6 & _).
  destruct (peer_frame _ _ _ _ _ _ P0 ltac:(lia)) as (H1k & H1s). destruct (peer_frame _ _ _ _ _ _ P1 ltac:(lia)) as (H2k & H2s). destruct (peer_frame _ _ _ _ _ _ P2 ltac:(lia)) as (H3k & H3s).
  destruct (peer_frame _ _ _ _ _ _ P3 ltac:(lia)) as (H4k & H4s). destruct (peer_frame _ _ _ _ _ _ P4 ltac:(lia)) as (H5k & H5s). destruct (peer_frame _ _ _ _ _ _ P5 ltac:(lia)) as (H6k & H6s).
  assert (Y1s : p_sid C p1 = t_sid c) by congruence. assert (Y4s : p_sid C p4 = t_sid c) by congruence. assert (Y6s : p_sid C p6 = t_sid c) by congruence.
  assert (Y4k : p_tp_pk C p4 = p_tp_pk C p) by congruence. assert (Y6k : p_tp_pk C p6 = p_tp_pk C p) by congruence.
  pose proof (w_n c W0) as Hn0.
  (* the long-term signature *)
  pose proof N1 as X1. rewrite tp_next_1 in X1 by exact S1. apply finish_inv in X1. destruct X1 as (y2 & X1 & Ey2).
  destruct (step4_content C f1 c1 j1 u1 y2 v1 HC (w_sid c1 W1) V1 ltac:(lia) X1) as (Lv1 & _ & _ & _ & K4). destruct (K4 k ltac:(lia)) as (m & ltsig & lt & pk & B1 & B2 & B3 & B4 & B5 & B6 & B7 & B8). clear K4.
  change msg2_SIZE with 175 in *. change sign_BYTES with 64 in *. change (175 + 64) with 239 in *. change hdr_SIZE with 111 in *.
  assert (A9 : rd w0 0 175 = Ok m).
  { rewrite Fl1 in B3. pose proof (Ult _ _ _ lt m ltsig eq_refl B3 B1 B2 B4) as Q. unfold peer_wrote, part_of in Q. cbn [nth_error] in Q. change (0 * 175) with 0 in Q. destruct (rd w0 0 175); congruence. }
  pose proof P0 as Z0. rewrite (peer_next_0 C) in Z0 by exact s0. apply pfinish_inv in Z0. destruct Z0 as (q1 & Z0 & Eq1). cbn [Z.eqb] in Eq1.
  apply s23_out in Z0; [|exact HC|apply (v_sid C p (proj1 F))|apply U0]. destruct Z0 as (A1 & A2 & A3 & A4 & A5 & A6 & A7 & A8).
  assert (Idx : p_index C p1 = k + 1).
  { destruct B7 as (m' & ts & body & D1 & sg & D2 & D3 & D4 & _). rewrite B1 in D1. injection D1 as <-. assert (A9' := A9). rewrite A8 in A9'. injection A9' as A9'. rewrite D4 in A9'. unfold mk_msg in A9'. cbn zeta in A9'.
    rewrite Eq1. cbn [p_index peer_step_set]. eapply header_from in A9'; [exact A9'|apply (sig_zlen S HS)|exact D2|unfold is_byte; lia|unfold is_byte; lia]. }
  assert (Epk : pk = sig_pk S (p_sk C p1)).
  { rewrite Eq1. cbn [p_sk peer_step_set]. pose proof (part_mk S HS _ (v_sid C p (proj1 F)) w0 0 175 _ _ _ _ _ [] _ _ 111 32 A8 eq_refl ltac:(rewrite (pk_zlen S HS); reflexivity)) as Q.
    rewrite (rd_rd _ _ _ _ 111 32 A9) in B5 by lia. change (0 + 111) with 111 in B5. congruence. }
  assert (Kc : t_pks c2 = t_pks y2) by (rewrite Ey2; reflexivity).
  (* the keys of the peer *)
  assert (E1 : i1 = v1).
  { pose proof P1 as Q. rewrite (peer_next_1 C) in Q by exact s1. apply pfinish_inv in Q. destruct Q as (q2 & Q & _). apply peer5_content in Q; [|lia]. destruct Q as (_ & Q & _).
    pose proof (Utp' 1%nat _ _ _ i1 3 0 255 _ _ eq_refl ltac:(cbn; auto) (rd_all _ _ eq_refl) H1k Y1s ltac:(unfold is_byte; lia) ltac:(unfold is_byte; lia) ltac:(unfold is_byte; lia) Q) as E. cbn in E. congruence. }
  assert (E4 : i4 = v4).
  { pose proof P4 as Q. rewrite (peer_next_4 C) in Q by exact s4. apply pfinish_inv in Q. destruct Q as (q5 & Q & _). pose proof (w_t c W0). apply peer13_content in Q; [|lia|lia]. destruct Q as (_ & Q & _).
    pose proof (Utp' 4%nat _ _ _ i4 7 0 255 _ _ eq_refl ltac:(cbn; auto) (rd_all _ _ eq_refl) Y4k Y4s ltac:(unfold is_byte; lia) ltac:(unfold is_byte; lia) ltac:(unfold is_byte; lia) Q) as E. cbn in E. congruence. }
  assert (E6 : i6 = v6).
  { pose proof P6 as Q. rewrite (peer_next_6 C) in Q by exact s6. apply bind_ok in Q. destruct Q as ([[r q] o] & E & Q). injection Q as -> _ _. apply cast17 in E; [|lia].
    pose proof (Utp' 6%nat _ _ _ i6 10 0 255 _ _ eq_refl ltac:(cbn; auto) (rd_all _ _ eq_refl) Y6k Y6s ltac:(unfold is_byte; lia) ltac:(unfold is_byte; lia) ltac:(unfold is_byte; lia) E) as E'. cbn in E'. congruence. }
  clear Utp Utp' Ult. subst i1.
  assert (KA : p_pks C p2 = t_pks c2).
  { eapply (keys_agree C); [exact HC|exact W1|exact V1|exact S1|exact N1|exact s1|lia| |exact P1]. pose proof (v_pks C p1 (i_wf C _ J1)). lia. }
  assert (Own : getz (t_pks c2) k = Ok (sig_pk S (p_sk C p1))) by (rewrite Kc, <- Epk; exact B6).
  assert (T3 : t_pks c3 = t_pks c2). { pose proof N2 as Q. rewrite tp_next_2 in Q by exact S2. apply finish_inv in Q. destruct Q as (y & Q & ->). apply tkeep68 in Q. apply Q. }
  assert (T4 : t_pks c4 = t_pks c3). { pose proof N3 as Q. rewrite tp_next_3 in Q by exact S3. apply finish_inv in Q. destruct Q as (y & Q & ->). apply tkeep68 in Q. apply Q. }
  assert (T5 : t_pks c5 = t_pks c4). { pose proof N4 as Q. rewrite tp_next_4 in Q by exact S4. apply finish_inv in Q. destruct Q as (y & Q & ->). apply pks12 in Q. exact Q. }
  assert (T6 : t_pks c6 = t_pks c5). { pose proof N5 as Q. rewrite tp_next_5 in Q by exact S5. apply finish_inv in Q. destruct Q as (y & Q & ->). apply tkeep14 in Q. apply Q. }
  assert (P3k : p_pks C p3 = p_pks C p2). { pose proof P2 as Q. rewrite (peer_next_2 C) in Q by exact s2. apply pfinish_inv in Q. destruct Q as (y & Q & ->). apply pkeep7 in Q. apply Q. }
  assert (P4k : p_pks C p4 = p_pks C p3). { pose proof P3 as Q. rewrite (peer_next_3 C) in Q by exact s3. apply pfinish_inv in Q. destruct Q as (y & Q & ->). apply pkeep911 in Q. apply Q. }
  assert (P5k : p_pks C p5 = p_pks C p4). { pose proof P4 as Q. rewrite (peer_next_4 C) in Q by exact s4. apply pfinish_inv in Q. destruct Q as (y & Q & ->). pose proof (w_t c W0). apply peer13_content in Q; [|lia|lia]. apply Q. }
  cbn [session_pk] in Upeer.
  assert (Ut : forall s e i o m j n sz msgno from to pk' sid, nth_error [(f0, j0, u0); (f1, j1, u1); (f2, j2, u2); (f3, j3, u3); (f4, j4, u4); (f5, j5, u5); (f6, j6, u6); (f7, j7, u7); (f8, j8, u8)] s = Some (e, i, o) ->
    tp_finds c s i = cut sz i -> 0 < sz -> zlen i = n * sz -> 0 <= j < n -> pk' = sig_pk S (p_sk C p1) -> sid = t_sid c -> is_byte msgno -> is_byte from -> is_byte to ->
    rd i (j * sz) sz = Ok m -> delivered i (j * sz) sz pk' sid msgno from to ->
    option_map (fun m : bytes => m) (peer_wrote [(0, p1, w0); (0, p2, w1); (0, p3, w2); (0, p4, w3); (0, p5, w4); (0, p6, w5); (0, p7, w6); (0, p8, w7); (0, p9, w8)] msgno to) = Some m).
  { intros s e i o m' j n sz msgno from to pk' sid Y1 Y2 Y3 Y4 Y5 -> -> Y6 Y7 Y8 Y9 (m'' & ts & body & D1 & D2). rewrite Y9 in D1. injection D1 as <-.
    eapply Upeer; [left; do 4 eexists; split; [exact Y1|rewrite Y2; eapply In_cut; eassumption]|exact Y6|exact Y7|exact Y8|exact D2]. }
  assert (Up : forall s e i o m j n sz msgno from to pk' sid, nth_error [(e0, i0, o0); (e1, v1, o1); (e2, i2, o2); (e3, i3, o3); (e4, i4, o4); (e5, i5, o5); (e6, i6, o6); (e7, i7, o7); (e8, i8, o8)] s = Some (e, i, o) ->
    peer_finds s i = cut sz i -> 0 < sz -> zlen i = n * sz -> 0 <= j < n -> pk' = sig_pk S (p_sk C p1) -> sid = t_sid c -> is_byte msgno -> is_byte from -> is_byte to ->
    rd i (j * sz) sz = Ok m -> delivered i (j * sz) sz pk' sid msgno from to ->
    option_map (fun m : bytes => m) (peer_wrote [(0, p1, w0); (0, p2, w1); (0, p3, w2); (0, p4, w3); (0, p5, w4); (0, p6, w5); (0, p7, w6); (0, p8, w7); (0, p9, w8)] msgno to) = Some m).
  { intros s e i o m' j n sz msgno from to pk' sid Y1 Y2 Y3 Y4 Y5 -> -> Y6 Y7 Y8 Y9 (m'' & ts & body & D1 & D2). rewrite Y9 in D1. injection D1 as <-.
    eapply Upeer; [right; do 4 eexists; split; [exact Y1|rewrite Y2; eapply In_cut; eassumption]|exact Y6|exact Y7|exact Y8|exact D2]. }
  clear Upeer.
  assert (Part : forall (i w : bytes) sz m', rd i (k * sz) sz = Ok m' -> rd w (k * sz) sz = Ok m' -> forall o' l, 0 <= o' -> 0 <= l -> o' + l <= sz -> rd i (k * sz + o') l = rd w (k * sz + o') l).
  { intros i w sz m' Y1 Y2 o' l Ho Hl Hol. rewrite <- (rd_rd _ _ _ _ o' l Y1), <- (rd_rd _ _ _ _ o' l Y2) by lia. reflexivity. }
  assert (Kb : is_byte (k + 1)) by (unfold is_byte; lia).
  constructor; [exact RN|exact Pn|exact Pt| | | |].
  - intros s e i o r c' v [<-|[<-|[<-|[]]]] Y1 Y2; cbn [nth_error] in Y1, Y2; injection Y1 as <- <- <-; injection Y2 as <- <- <-; [reflexivity|exact E4|exact E6].
  - intros s sz e i o r p' w [X|[X|[X|[]]]] Y1 Y2 Zw; injection X as <- <-; cbn [pred nth_error] in Y1, Y2; injection Y1 as <- <- <-; injection Y2 as <- <- <-.
    + pose proof P2 as Q. rewrite (peer_next_2 C) in Q by exact s2. apply pfinish_inv in Q. destruct Q as (q & Q & _). apply (self7 k) in Q; [|lia]. destruct Q as (Zi & pk' & G & Dl).
      destruct (rd_some i2 (k * 159) 159 ltac:(nia) ltac:(lia) ltac:(nia)) as (m' & Rm). eapply Part; [exact Rm|].
      rewrite G1i, Idx in Dl. pose proof (Up 2%nat _ _ _ m' k _ 159 4 (k + 1) (k + 1) pk' _ eq_refl eq_refl ltac:(lia) Zi ltac:(lia) ltac:(congruence) ltac:(exact (eq_trans H2s Y1s)) ltac:(unfold is_byte; lia) Kb Kb Rm Dl) as E.
      unfold peer_wrote, part_of in E. cbn [nth_error] in E. replace (k + 1 - 1) with k in E by lia. destruct (rd w1 (k * 159) 159); cbn [option_map] in E; congruence.
    + pose proof P3 as Q. rewrite (peer_next_3 C) in Q by exact s3. apply pfinish_inv in Q. destruct Q as (q & Q & _). apply (self911 k) in Q; [|lia]. destruct Q as (Zi & _ & pk' & G & Dl).
      destruct (rd_some i3 (k * 159) 159 ltac:(nia) ltac:(lia) ltac:(nia)) as (m' & Rm). eapply Part; [exact Rm|].
      assert (Y : p_index C p3 = k + 1) by congruence. rewrite Y in Dl. pose proof (Up 3%nat _ _ _ m' k _ 159 5 (k + 1) (k + 1) pk' _ eq_refl eq_refl ltac:(lia) Zi ltac:(lia) ltac:(congruence) ltac:(exact (eq_trans H3s (eq_trans H2s Y1s))) ltac:(unfold is_byte; lia) Kb Kb Rm Dl) as E.
      unfold peer_wrote, part_of in E. cbn [nth_error] in E. replace (k + 1 - 1) with k in E by lia. destruct (rd w2 (k * 159) 159); cbn [option_map] in E; congruence.
    + pose proof P5 as Q. rewrite (peer_next_5 C) in Q by exact s5. apply pfinish_inv in Q. destruct Q as (q & Q & _). apply (self15 k) in Q; [|lia]. destruct Q as (Zi & pk' & G & Dl).
      destruct (rd_some i5 (k * 256) 256 ltac:(nia) ltac:(lia) ltac:(nia)) as (m' & Rm). eapply Part; [exact Rm|].
      assert (Y : p_index C p5 = k + 1) by congruence. rewrite Y in Dl. pose proof (Up 5%nat _ _ _ m' k _ 256 8 (k + 1) (k + 1) pk' _ eq_refl eq_refl ltac:(lia) Zi ltac:(lia) ltac:(congruence) ltac:(exact (eq_trans H5s Y4s)) ltac:(unfold is_byte; lia) Kb Kb Rm Dl) as E.
      unfold peer_wrote, part_of in E. cbn [nth_error] in E. replace (k + 1 - 1) with k in E by lia. destruct (rd w4 (k * 256) 256); cbn [option_map] in E; congruence.
  - intros e j u r p' w Y1 Y2 Zw. cbn [nth_error] in Y1, Y2. injection Y1 as <- <- <-. injection Y2 as <- <- <-. rewrite A9, B1. reflexivity.
  - intros s e j u r p' w [<-|[<-|[]]] Y1 Y2; cbn [nth_error] in Y1, Y2; injection Y1 as <- <- <-; injection Y2 as <- <- <-.
    + pose proof N4 as Q. rewrite tp_next_4 in Q by exact S4. apply finish_inv in Q. destruct Q as (y & Q & _). pose proof (w_t c W0).
      destruct (step12_content C f4 c4 j4 u4 y v4 HC (w_sid c4 W4) V4 ltac:(lia) ltac:(lia) Q) as (_ & Zj & _ & _ & K). destruct (K k ltac:(lia)) as (m' & data & pk' & D1 & _ & _ & D2 & D3 & _).
      assert (Et : t_t c4 = t_t c) by congruence. rewrite Et in *. assert (111 <= msg6_SIZE (t_t c)) by (unfold msg6_SIZE, hdr_SIZE; lia).
      pose proof (Ut 4%nat _ _ _ m' k _ (msg6_SIZE (t_t c)) 6 (k + 1) 255 pk' (t_sid c4) eq_refl eq_refl ltac:(lia) Zj ltac:(lia) ltac:(congruence) ltac:(congruence) ltac:(unfold is_byte; lia) Kb ltac:(unfold is_byte; lia) D1 D3) as E.
      cbn in E. injection E as ->. pose proof (rd_inv _ _ _ _ D1) as (_ & _ & _ & Lm & _). rewrite Lm. exact D1.
    + pose proof N6 as Q. rewrite tp_next_6 in Q by exact S6. apply bind_ok in Q. destruct Q as ([[r q] o] & Q & E). injection E as -> _ _.
      destruct (step16_content C f6 c6 j6 u6 q o HC (w_sid c6 W6) V6 ltac:(lia) Q) as (_ & Zj & _ & _ & _ & _ & _ & K). destruct (K k ltac:(lia)) as (_ & _ & pk' & D2 & D3).
      assert (Et : t_n c6 = t_n c) by congruence. rewrite Et in *. assert (111 <= msg9_SIZE (t_n c)) by (unfold msg9_SIZE, hdr_SIZE; lia).
      destruct (rd_some j6 (k * msg9_SIZE (t_n c)) (msg9_SIZE (t_n c)) ltac:(nia) ltac:(lia) ltac:(nia)) as (m' & Rm).
      pose proof (Ut 6%nat _ _ _ m' k _ (msg9_SIZE (t_n c)) 9 (k + 1) 255 pk' (t_sid c6) eq_refl eq_refl ltac:(lia) Zj ltac:(lia) ltac:(congruence) ltac:(congruence) ltac:(unfold is_byte; lia) Kb ltac:(unfold is_byte; lia) Rm D3) as E.
      cbn in E. injection E as ->. pose proof (rd_inv _ _ _ _ Rm) as (_ & _ & _ & Lm & _). rewrite Lm. exact Rm.
Qed.
End RUN.

Lemma survived_joined c calls outs x : done_well C c calls outs -> survived C whole c calls outs x -> joined C c calls outs x.
Proof. destruct x as [[[k p] pcalls] pouts]. intros D (H1 & H2). apply unforged_linked; assumption. Qed.
Lemma numbers_noticed c calls outs k p pcalls pouts : done_well C c calls outs -> survived C head c calls outs (k, p, pcalls, pouts) -> p_n C p = t_n c /\ p_t C p = t_t c.
Proof. intros D (H1 & H2). exact (numbers_agree c calls outs k p pcalls pouts D H1 H2). Qed.
Lemma survived_joineds c calls outs l : done_well C c calls outs -> Forall (survived C whole c calls outs) l -> Forall (joined C c calls outs) l.
Proof. intros D H. eapply Forall_impl; [|exact H]. intros x. apply survived_joined. exact D. Qed.

Lemma net_one_polynomial c calls outs parties : done_well C c calls outs -> sound_commitments C (published c outs) ->
  Forall (survived C whole c calls outs) parties -> Forall (fun x => plain_shares (received_by x)) parties -> parties <> [] ->
  exists A, dealers C c (published c outs) A /\
    Forall (fun x => share_of_party x = mkShare (number x + 1) (zsum (map (fun a => poly a (number x + 1)) A) mod L)) parties /\
    Forall (fun x => forall e inp o, nth_error (snd (fst x)) 3 = Some (e, inp, o) -> nth_error A (Z.to_nat (number x)) = Some (pe_a e)) parties.
Proof. intros D Hs HF. apply (joined_one_polynomial C HC) with (calls := calls); [exact D|exact Hs|]. apply survived_joineds; assumption. Qed.
Lemma net_one_key c calls outs parties : done_well C c calls outs -> sound_commitments C (published c outs) ->
  Forall (survived C whole c calls outs) parties -> Forall (fun x => plain_shares (received_by x)) parties -> NoDup (map number parties) -> t_t c <= Z.of_nat (length parties) ->
  exists A, dealers C c (published c outs) A /\ dkg_reconstruct (map share_of_party parties) = zsum (map (hd 0) A) mod L.
Proof. intros D Hs HF. apply (joined_one_key C HC) with (calls := calls); [exact D|exact Hs|]. apply survived_joineds; assumption. Qed.
Lemma net_quorums_agree c calls outs q q' : done_well C c calls outs -> sound_commitments C (published c outs) ->
  Forall (survived C whole c calls outs) q -> Forall (survived C whole c calls outs) q' -> Forall (fun x => plain_shares (received_by x)) (q ++ q') ->
  NoDup (map number q) -> NoDup (map number q') -> t_t c <= Z.of_nat (length q) -> t_t c <= Z.of_nat (length q') ->
  dkg_reconstruct (map share_of_party q) = dkg_reconstruct (map share_of_party q').
Proof. intros D Hs HF HF'. apply (joined_quorums_agree C HC) with (c := c) (calls := calls) (outs := outs); [exact D|exact Hs| |]; apply survived_joineds; assumption. Qed.
End NET.
