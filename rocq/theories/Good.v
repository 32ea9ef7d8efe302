(** C80: if the key generation ends well, the peers that followed the protocol hold shares of one key,
    whatever the others did. *)
From Coq Require Import ZArith Lia List Bool.
From Coq.Strings Require Import Byte.
From Verif Require Import PrimeL Fq Bytes Res Mem Sodium ToprfModel ToprfSpec DkgModel DkgSpec DkgProofs WireModel WireSpec WireProofs TpCrypto TpModel PeerModel.
From Verif Require Import TpFrame PeerFrame TpSpec TpMsg TpContent TpComplaints PeerContent TpControl TpSizes TpAgree TpMisc SafeSpec TpSafe PeerSafe HonestMsg HonestPeer.
From Verif Require Import PeerAnswer Cleared PeerSelf GoodSpec NetSpec.
Import ListNotations.
Open Scope list_scope.
Open Scope Z_scope.

Lemma nine {A} (l : list A) : length l = 9%nat -> exists a0 a1 a2 a3 a4 a5 a6 a7 a8, l = [a0; a1; a2; a3; a4; a5; a6; a7; a8].
Proof. do 9 (destruct l as [|? l]; [discriminate|]). destruct l; [eauto 20|discriminate]. Qed.
Lemma header_from msgno len from to ts sid msgno' len' from' to' ts' sid' sig sig' body body' : zlen sig = 64 -> zlen sig' = 64 -> is_byte from -> is_byte from' ->
  message sig (header msgno len from to ts sid) body = message sig' (header msgno' len' from' to' ts' sid') body' -> from = from'.
Proof.
  intros Z1 Z2 B1 B2 E. unfold message, header in E. apply app_inj_len in E; [|unfold zlen in *; lia]. destruct E as (_ & E).
  rewrite <- !app_assoc in E. apply app_inj_len in E; [|reflexivity]. destruct E as (_ & E). apply app_inj_len in E; [|rewrite !be_bytes_length; reflexivity]. destruct E as (_ & E).
  apply app_inj_len in E; [|reflexivity]. destruct E as (E & _). assert (E' : zb from = zb from') by congruence. rewrite <- (WireProofs.bz_zb_small from), <- (WireProofs.bz_zb_small from') by assumption. congruence.
Qed.
Lemma rows_concat t (l : list bytes) : zlen l = t -> Forall (fun b => zlen b = 32) l -> rows t (concat l) = l.
Proof.
  intros Hl HF. unfold rows. replace (Z.to_nat t) with (length l) by (unfold zlen in Hl; lia). clear Hl. induction l as [|a l IH]; [reflexivity|].
  inversion HF as [|x y Ha HF']; subst. assert (La : length a = 32%nat) by (unfold zlen in Ha; lia). cbn [length seq map concat]. f_equal.
  - rewrite Nat.mul_0_r. cbn [skipn]. rewrite firstn_app, <- La, Nat.sub_diag, firstn_all. cbn [firstn]. apply app_nil_r.
  - rewrite <- seq_shift, map_map. etransitivity; [|apply IH; exact HF']. apply map_ext. intros i. f_equal.
    replace (32 * Datatypes.S i)%nat with (32 + 32 * i)%nat by lia. rewrite skipn_app, skipn_all2 by lia. cbn [app]. f_equal. lia.
Qed.

Section GOOD.
Variable C : crypto.
Hypothesis HC : crypto_ok C.
Notation peer := (peer C).
Notation N := (cN C).
Notation S := (cS C).
Let HN : noise_ok N := ok_cN C HC.
Let HS : sigs_ok S := ok_cS C HC.

Lemma tp_cons c e input out calls outs : tp_run C c ((e, input, out) :: calls) = Ok outs -> exists ret c' out' outs', outs = (ret, c', out') :: outs' /\
  tp_next C e c input out = Ok (ret, c', out') /\ tp_run C c' calls = Ok outs'.
Proof. cbn [tp_run]. intros H. inv H. eauto 10. Qed.

Ltac tk :=
  repeat match goal with
  | H : tp_recv C _ _ _ _ _ _ _ _ _ _ = Ok _ |- _ => apply tp_recv_inv in H; destruct H as (? & ? & ? & _ & _ & _ & ?)
  | H : add_cheater _ _ _ _ _ = Some _ |- _ => apply add_cheater_inv in H; destruct H as (_ & ?)
  end; subst; cbn [ctl_state fst snd]; reflexivity.
Lemma com16 e c input out ret c' out' : tp_step16 C e c input out = Ok (ret, c', out') -> t_com c' = t_com c.
Proof.
  unfold tp_step16. intros H. inv H; try reflexivity.
  all: match goal with E : loopM (tp_step16_body _ _ _) _ _ = Ok _ |- _ =>
    apply (loop_rel (fun a b : tp * bytes * Z => t_com (fst (fst b)) = t_com (fst (fst a)))) in E; [|intros; reflexivity|intros; congruence|] end.
  all: try match goal with E : add_cheater _ _ _ _ _ = Some _ |- _ => apply add_cheater_inv in E; destruct E as (_ & ->) end.
  all: try assumption.
  all: intros i [[a b] w] r H; unfold tp_step16_body in H; inv H; try tk.
  all: try match goal with E : loopM (tp_step16_complaint _ _ _ _) _ _ = Ok _ |- _ =>
    apply (loop_rel (fun a b : tp => t_com b = t_com a)) in E; [|intros; reflexivity|intros; congruence|] end.
  all: try (intros j a0 r0 H0; unfold tp_step16_complaint in H0; inv H0; try tk).
  all: cbn [ctl_state fst snd] in *; repeat match goal with Q : tp_recv _ _ _ _ _ _ _ _ _ _ _ = Ok _ |- _ => apply tp_recv_inv in Q; destruct Q as (? & ? & ? & _ & _ & _ & ?) end; subst; assumption.
Qed.
Lemma next_com e c input out c' out' : tp_next C e c input out = Ok (0, c', out') -> In (t_step c) [5; 6; 8; 9] -> t_com c' = t_com c.
Proof.
  intros H [Hs|[Hs|[Hs|[Hs|[]]]]]; symmetry in Hs.
  - rewrite tp_next_5 in H by assumption. apply finish_inv in H. destruct H as (p & H & ->). apply tkeep14 in H. apply H.
  - rewrite tp_next_6 in H by assumption. apply bind_ok in H. destruct H as ([[r p] o] & H & E). injection E as -> <- <-. apply com16 in H. exact H.
  - rewrite tp_next_8 in H by assumption. apply finish_inv in H. destruct H as (p & H & ->). apply tkeep20 in H. apply H.
  - rewrite tp_next_9 in H by assumption. apply finish_inv in H. destruct H as (p & H & ->). apply tkeep22 in H. apply H.
Qed.
Lemma next_tp e c input out c' out' : tp_next C e c input out = Ok (0, c', out') -> 0 <= t_step c <= 5 -> t_step c' = t_step c + 1 /\ t_prev c' = t_step c.
Proof.
  intros H Hs. apply tp_next_moves in H. destruct H as [(_ & Q & _)|(_ & c1 & X & H)]; [discriminate|].
  destruct H as [(Q & _)|[(_ & _ & ->)|H]]; [lia| |].
  - split; reflexivity.
  - exfalso. destruct H as (_ & Q & _). congruence.
Qed.
Lemma next_nt e c input out ret c' out' : tp_next C e c input out = Ok (ret, c', out') -> t_n c' = t_n c /\ t_t c' = t_t c.
Proof.
  intros H. apply tp_next_moves in H. destruct H as [(_ & _ & -> & _)|(_ & c1 & X & H)]; [auto|].
  destruct H as [(_ & ->)|[(_ & _ & ->)|(_ & _ & [ -> |(_ & _ & ->)])]]; cbn [t_n t_t tp_step_set]; split; apply X.
Qed.

(** what a peer is sent by a peer (here: itself) is what that peer wrote *)
Lemma relayed e c input out c' out' k off len i w sz : 1 <= t_n c -> In (t_step c) [2; 3; 5] -> tp_next C e c input out = Ok (0, c', out') -> 0 <= k < t_n c ->
  sz = relay_size (t_step c) -> tp_peer_msg c' (zlen out') k = (0, Some (off, len)) -> rd out' off len = Ok i -> zlen w = t_n c * sz -> rd input (k * zlen w) (zlen w) = Ok w ->
  forall o l, 0 <= o -> 0 <= l -> o + l <= sz -> rd i (k * sz + o) l = rd w (k * sz + o) l.
Proof.
  intros Hn Hs H Hk Esz Em Ri Zw Rw o l Ho Hl Hol.
  destruct (relay_unchanged C e c input out c' out' k k Hn Hs H Hk Hk) as (off' & M & R & _). cbv zeta in *. rewrite <- Esz in *.
  rewrite M in Em. injection Em as -> <-. assert (0 <= sz) by lia. rewrite Zw in Rw.
  assert (R1 : rd i (k * sz) sz = rd w (k * sz) sz).
  { rewrite (rd_rd _ _ _ _ (k * sz) sz Ri) by nia. rewrite R. symmetry. apply (rd_rd _ _ _ _ (k * sz) sz Rw); nia. }
  pose proof (rd_inv _ _ _ _ Rw) as (_ & _ & _ & Lw & _).
  destruct (rd w (k * sz) sz) as [b|] eqn:Eb; [|rewrite rd_ok in Eb by nia; discriminate].
  rewrite <- (rd_rd _ _ _ _ o l R1), <- (rd_rd _ _ _ _ o l Eb) by lia. reflexivity.
Qed.
Lemma broadcast_all (out' i : bytes) len : rd out' 0 len = Ok i -> len = zlen out' -> i = out'.
Proof. intros H ->. rewrite rd_all in H by reflexivity. congruence. Qed.

Notation xs_same := (fun a b : peer => p_xshares C b = p_xshares C a).
Lemma xs17c input o i lim j c r : peer_step17_complaint C input o i lim j c = Ok r -> xs_same c (ctl_state r).
Proof. unfold peer_step17_complaint. intros H. inv H; reflexivity. Qed.
Lemma xs17b e input i c r : peer_step17_body C e input i c = Ok r -> xs_same c (ctl_state r).
Proof.
  unfold peer_step17_body. intros H. inv H; recvs; try reflexivity.
  apply (loop_rel xs_same) in H; [exact H|reflexivity|intros; congruence|intros; eapply xs17c; eassumption].
Qed.
Lemma xs17 e c input out ret c' out' : peer_step17 C e c input out = Ok (ret, c', out') -> p_xshares C c' = p_xshares C c.
Proof.
  unfold peer_step17. intros H. inv H; recvs; try reflexivity.
  all: match goal with E : loopM (peer_step17_body _ _ _) _ _ = Ok _ |- _ => apply (loop_rel xs_same) in E; [exact E|reflexivity|intros; congruence|intros; eapply xs17b; eassumption] end.
Qed.

(** What the proof needs of the network: the three broadcasts arrive as they were written, so does what
    the peer sends to itself, and its keys, commitments and complaints arrive at the trusted party. *)
Record linked (c : tp) (calls : list tp_call) (outs : list (Z * tp * bytes)) (k : Z) (p : peer) (pcalls : list peer_call) (pouts : list (Z * peer * bytes)) : Prop := mkLinked {
  l_ran : ran C c k p pcalls pouts; l_n : p_n C p = t_n c; l_t : p_t C p = t_t c;
  l_cast : forall s e i o r c' v, In s [1; 4; 6]%nat -> nth_error pcalls s = Some (e, i, o) -> nth_error outs s = Some (r, c', v) -> i = v;
  l_self : forall s sz e i o r p' w, In (s, sz) [(2%nat, 159); (3%nat, 159); (5%nat, 256)] -> nth_error pcalls s = Some (e, i, o) -> nth_error pouts (pred s) = Some (r, p', w) ->
    zlen w = t_n c * sz -> forall o' l, 0 <= o' -> 0 <= l -> o' + l <= sz -> rd i (k * sz + o') l = rd w (k * sz + o') l;
  l_key : forall e j u r p' w, nth_error calls 1 = Some (e, j, u) -> nth_error pouts 0 = Some (r, p', w) -> zlen w = 239 -> rd w 0 175 = rd j (k * 239) 175;
  l_gave : forall s e j u r p' w, In s [3; 5]%nat -> nth_error calls (Datatypes.S s) = Some (e, j, u) -> nth_error pouts s = Some (r, p', w) -> rd j (k * zlen w) (zlen w) = Ok w }.

Section TOOK.
Variables (c : tp) (calls : list tp_call) (outs : list (Z * tp * bytes)) (k : Z) (p : peer) (pcalls : list peer_call) (pouts : list (Z * peer * bytes)).
Hypothesis D : done_well C c calls outs.
Hypothesis T : took_part C c calls outs k p pcalls pouts.
Lemma took_linked : linked c calls outs k p pcalls pouts.
Proof.
  assert (RN : ran C c k p pcalls pouts) by (destruct T; constructor; assumption).
  destruct D as [W0 S0 Cm0 R Lc Ok0 Tc]. destruct T as [Hk F Pn Pt PR Lp POk Tp Rnd Gt Gv].
  destruct (nine _ Lc) as ([[f0 j0] u0] & [[f1 j1] u1] & [[f2 j2] u2] & [[f3 j3] u3] & [[f4 j4] u4] & [[f5 j5] u5] & [[f6 j6] u6] & [[f7 j7] u7] & [[f8 j8] u8] & ->).
  destruct (nine _ Lp) as ([[e0 i0] o0] & [[e1 i1] o1] & [[e2 i2] o2] & [[e3 i3] o3] & [[e4 i4] o4] & [[e5 i5] o5] & [[e6 i6] o6] & [[e7 i7] o7] & [[e8 i8] o8] & ->).
  apply tp_cons in R. destruct R as (r0 & c1 & v0 & ? & -> & N0 & R). apply tp_cons in R. destruct R as (r1 & c2 & v1 & ? & -> & N1 & R).
  apply tp_cons in R. destruct R as (r2 & c3 & v2 & ? & -> & N2 & R). apply tp_cons in R. destruct R as (r3 & c4 & v3 & ? & -> & N3 & R).
  apply tp_cons in R. destruct R as (r4 & c5 & v4 & ? & -> & N4 & R). apply tp_cons in R. destruct R as (r5 & c6 & v5 & ? & -> & N5 & R).
  apply tp_cons in R. destruct R as (r6 & c7 & v6 & ? & -> & N6 & R). apply tp_cons in R. destruct R as (r7 & c8 & v7 & ? & -> & N7 & R).
  apply tp_cons in R. destruct R as (r8 & c9 & v8 & ? & -> & N8 & R). injection R as <-.
  repeat match goal with Q : Forall _ (_ :: _) |- _ => inversion Q; clear Q; subst end. cbn [fst] in *. subst.
  apply run_cons in PR. destruct PR as (? & p1 & w0 & ? & -> & P0 & PR). apply run_cons in PR. destruct PR as (? & p2 & w1 & ? & -> & P1 & PR).
  apply run_cons in PR. destruct PR as (? & p3 & w2 & ? & -> & P2 & PR). apply run_cons in PR. destruct PR as (? & p4 & w3 & ? & -> & P3 & PR).
  apply run_cons in PR. destruct PR as (? & p5 & w4 & ? & -> & P4 & PR). apply run_cons in PR. destruct PR as (? & p6 & w5 & ? & -> & P5 & PR).
  apply run_cons in PR. destruct PR as (? & p7 & w6 & ? & -> & P6 & PR). apply run_cons in PR. destruct PR as (? & p8 & w7 & ? & -> & P7 & PR).
  apply run_cons in PR. destruct PR as (? & p9 & w8 & ? & -> & P8 & PR). injection PR as <-.
  repeat match goal with Q : Forall _ (_ :: _) |- _ => inversion Q; clear Q; subst end. cbn [fst] in *. subst.
  assert (Gt' : forall s c' v e i o, nth_error [(0, c1, v0); (0, c2, v1); (0, c3, v2); (0, c4, v3); (0, c5, v4); (0, c6, v5); (0, c7, v6); (0, c8, v7); (0, c9, v8)] s = Some (0, c', v) ->
    nth_error [(e0, i0, o0); (e1, i1, o1); (e2, i2, o2); (e3, i3, o3); (e4, i4, o4); (e5, i5, o5); (e6, i6, o6); (e7, i7, o7); (e8, i8, o8)] s = Some (e, i, o) -> (s <= 6)%nat ->
    exists off len, tp_peer_msg c' (zlen v) k = (0, Some (off, len)) /\ rd v off len = Ok i).
  { intros s c' v e i o Q1 Q2 Q3. destruct (Gt s Q3) as (c'' & v' & off & len & e' & i' & o' & B1 & B2 & B3 & B4). pose proof (eq_trans (eq_sym Q1) B1) as B1'. pose proof (eq_trans (eq_sym Q2) B2) as B2'. injection B1' as <- <-. injection B2' as <- <- <-. eauto. }
  assert (Gv' : forall s pp w e i o, nth_error [(0, p1, w0); (0, p2, w1); (0, p3, w2); (0, p4, w3); (0, p5, w4); (0, p6, w5); (0, p7, w6); (0, p8, w7); (0, p9, w8)] s = Some (0, pp, w) ->
    nth_error [(f0, j0, u0); (f1, j1, u1); (f2, j2, u2); (f3, j3, u3); (f4, j4, u4); (f5, j5, u5); (f6, j6, u6); (f7, j7, u7); (f8, j8, u8)] (Datatypes.S s) = Some (e, i, o) -> (s <= 5)%nat ->
    rd i (k * zlen w) (zlen w) = Ok w).
  { intros s pp w e i o Q1 Q2 Q3. destruct (Gv s Q3) as (p' & w' & e' & i' & o' & B1 & B2 & B3). pose proof (eq_trans (eq_sym Q1) B1) as B1'. pose proof (eq_trans (eq_sym Q2) B2) as B2'. injection B1' as <- <-. injection B2' as <- <- <-. exact B3. }
  clear Gt Gv.
  destruct (Gt' 1%nat _ _ _ _ _ eq_refl eq_refl ltac:(lia)) as (f1o & f1l & M1 & I1). destruct (Gt' 2%nat _ _ _ _ _ eq_refl eq_refl ltac:(lia)) as (f2o & f2l & M2 & I2).
  destruct (Gt' 3%nat _ _ _ _ _ eq_refl eq_refl ltac:(lia)) as (f3o & f3l & M3 & I3). destruct (Gt' 4%nat _ _ _ _ _ eq_refl eq_refl ltac:(lia)) as (f4o & f4l & M4 & I4).
  destruct (Gt' 5%nat _ _ _ _ _ eq_refl eq_refl ltac:(lia)) as (f5o & f5l & M5 & I5). destruct (Gt' 6%nat _ _ _ _ _ eq_refl eq_refl ltac:(lia)) as (f6o & f6l & M6 & I6). clear Gt'.
  pose proof (Gv' 0%nat _ _ _ _ _ eq_refl eq_refl ltac:(lia)) as O0. pose proof (Gv' 1%nat _ _ _ _ _ eq_refl eq_refl ltac:(lia)) as O1.
  pose proof (Gv' 2%nat _ _ _ _ _ eq_refl eq_refl ltac:(lia)) as O2. pose proof (Gv' 3%nat _ _ _ _ _ eq_refl eq_refl ltac:(lia)) as O3.
  pose proof (Gv' 4%nat _ _ _ _ _ eq_refl eq_refl ltac:(lia)) as O4. pose proof (Gv' 5%nat _ _ _ _ _ eq_refl eq_refl ltac:(lia)) as O5. clear Gv'.
  clear Rnd Tp.
  (* the trusted party *)
  pose proof (tp_wf_step C _ _ _ _ _ _ _ W0 N0) as W1. pose proof (tp_wf_step C _ _ _ _ _ _ _ W1 N1) as W2. pose proof (tp_wf_step C _ _ _ _ _ _ _ W2 N2) as W3.
  pose proof (tp_wf_step C _ _ _ _ _ _ _ W3 N3) as W4. pose proof (tp_wf_step C _ _ _ _ _ _ _ W4 N4) as W5. pose proof (tp_wf_step C _ _ _ _ _ _ _ W5 N5) as W6.
  pose proof (tp_wf_step C _ _ _ _ _ _ _ W6 N6) as W7. pose proof (tp_wf_step C _ _ _ _ _ _ _ W7 N7) as W8. pose proof (tp_wf_step C _ _ _ _ _ _ _ W8 N8) as W9.
  destruct (next_nt _ _ _ _ _ _ _ N0) as (Tn1 & Tt1). destruct (next_nt _ _ _ _ _ _ _ N1) as (Tn2 & Tt2). destruct (next_nt _ _ _ _ _ _ _ N2) as (Tn3 & Tt3).
  destruct (next_nt _ _ _ _ _ _ _ N3) as (Tn4 & Tt4). destruct (next_nt _ _ _ _ _ _ _ N4) as (Tn5 & Tt5). destruct (next_nt _ _ _ _ _ _ _ N5) as (Tn6 & Tt6).
  destruct (next_nt _ _ _ _ _ _ _ N6) as (Tn7 & Tt7). destruct (next_nt _ _ _ _ _ _ _ N7) as (Tn8 & Tt8). destruct (next_nt _ _ _ _ _ _ _ N8) as (Tn9 & Tt9).
  assert (X : t_step c1 = 1 /\ t_prev c1 = 0) by (destruct (next_tp _ _ _ _ _ _ N0 ltac:(lia)); lia). destruct X as (S1 & Q1).
  assert (X : t_step c2 = 2 /\ t_prev c2 = 1) by (destruct (next_tp _ _ _ _ _ _ N1 ltac:(lia)); lia). destruct X as (S2 & Q2).
  assert (X : t_step c3 = 3 /\ t_prev c3 = 2) by (destruct (next_tp _ _ _ _ _ _ N2 ltac:(lia)); lia). destruct X as (S3 & Q3).
  assert (X : t_step c4 = 4 /\ t_prev c4 = 3) by (destruct (next_tp _ _ _ _ _ _ N3 ltac:(lia)); lia). destruct X as (S4 & Q4).
  assert (X : t_step c5 = 5 /\ t_prev c5 = 4) by (destruct (next_tp _ _ _ _ _ _ N4 ltac:(lia)); lia). destruct X as (S5 & Q5).
  assert (X : t_step c6 = 6 /\ t_prev c6 = 5) by (destruct (next_tp _ _ _ _ _ _ N5 ltac:(lia)); lia). destruct X as (S6 & Q6).
  assert (Cm7 : t_complaints c7 = []).
  { destruct (t_complaints c7) as [|x l] eqn:E; [reflexivity|]. exfalso. assert (Ne : t_complaints c7 <> []) by congruence.
    destruct (complaint_tp_fails C _ _ _ _ _ _ _ _ _ _ _ _ _ S6 N6 Ne N7) as (Q & _). apply Q. reflexivity. }
  assert (S7 : t_step c7 = 8 /\ t_prev c7 = 6).
  { pose proof N6 as Q. rewrite tp_next_6 in Q by exact S6. apply bind_ok in Q. destruct Q as ([[r q] o] & E & Q). injection Q as -> <- <-. cbn [t_complaints tp_step_set] in Cm7.
    pose proof (ext_step16 C _ _ _ _ _ _ _ E) as X. cbn [t_step t_prev tp_step_set]. rewrite Cm7, (x_step _ _ X), S6. split; reflexivity. }
  destruct S7 as (S7 & Q7).
  assert (B1' : i1 = v1).
  { pose proof N1 as Q. rewrite tp_next_1 in Q by exact S1. apply finish_inv in Q. destruct Q as (y2 & Q & _). apply out4 in Q.
    unfold tp_peer_msg in M1. rewrite Q2 in M1. cbv beta iota zeta in M1. destruct (t_n c2 <=? k); [discriminate|]. destruct (_ <? _); [discriminate|]. injection M1 as <- <-.
    eapply broadcast_all; [exact I1|]. rewrite Q. congruence. }
  assert (B4' : i4 = v4).
  { pose proof N4 as Q. rewrite tp_next_4 in Q by exact S4. apply finish_inv in Q. destruct Q as (y5 & Q & _). apply out12 in Q.
    unfold tp_peer_msg in M4. rewrite Q5 in M4. cbv beta iota zeta in M4. destruct (t_n c5 <=? k); [discriminate|]. destruct (_ <? _); [discriminate|]. injection M4 as <- <-.
    eapply broadcast_all; [exact I4|]. rewrite Q. congruence. }
  assert (B6' : i6 = v6).
  { pose proof N6 as Q. rewrite tp_next_6 in Q by exact S6. apply bind_ok in Q. destruct Q as ([[r q] o] & E & Q). injection Q as -> _ <-. apply out16 in E.
    unfold tp_peer_msg in M6. rewrite Q7 in M6. cbv beta iota zeta in M6. destruct (t_n c7 <=? k); [discriminate|]. destruct (_ <? _); [discriminate|]. injection M6 as <- <-.
    eapply broadcast_all; [exact I6|]. rewrite E. congruence. }
  pose proof (w_n c W0) as Hn0.
  constructor; [exact RN|exact Pn|exact Pt| | | |].
  - intros s e i o r c' v [<-|[<-|[<-|[]]]] E1 E2; cbn [nth_error] in E1, E2; injection E1 as <- <- <-; injection E2 as <- <- <-; assumption.
  - intros s sz e i o r p' w [X|[X|[X|[]]]] E1 E2 Zw; injection X as <- <-; cbn [pred nth_error] in E1, E2; injection E1 as <- <- <-; injection E2 as <- <- <-.
    + eapply (relayed _ _ _ _ _ _ k _ _ _ _ 159); [|cbn; rewrite S2; auto|exact N2|lia|rewrite S2; reflexivity|exact M2|exact I2|rewrite Zw; lia|exact O1]. lia.
    + eapply (relayed _ _ _ _ _ _ k _ _ _ _ 159); [|cbn; rewrite S3; auto|exact N3|lia|rewrite S3; reflexivity|exact M3|exact I3|rewrite Zw; lia|exact O2]. lia.
    + eapply (relayed _ _ _ _ _ _ k _ _ _ _ 256); [|cbn; rewrite S5; auto|exact N5|lia|rewrite S5; reflexivity|exact M5|exact I5|rewrite Zw; lia|exact O4]. lia.
  - intros e j u r p' w E1 E2 Zw. cbn [nth_error] in E1, E2. injection E1 as <- <- <-. injection E2 as <- <- <-. rewrite Zw in O0. rewrite (rd_rd _ _ _ _ 0 175 O0) by lia. rewrite Z.add_0_r. reflexivity.
  - intros s e j u r p' w [<-|[<-|[]]] E1 E2; cbn [nth_error] in E1, E2; injection E1 as <- <- <-; injection E2 as <- <- <-; assumption.
Qed.
End TOOK.

Section RUN.
Variables (c : tp) (calls : list tp_call) (outs : list (Z * tp * bytes)) (k : Z) (p : peer) (pcalls : list peer_call) (pouts : list (Z * peer * bytes)).
Hypothesis D : done_well C c calls outs.
Hypothesis T : linked c calls outs k p pcalls pouts.

Lemma good_facts :
  let coms := published c outs in let xs := received C p pouts in let i := k + 1 in
  zlen coms = t_n c /\ Forall (fun row => zlen row = t_t c) coms /\ zlen xs = t_n c /\
  key_share C p pouts = mkShare i (dkg_finish xs) /\
  (exists e inp o, nth_error pcalls 3 = Some (e, inp, o) /\ getz xs k = Ok (mkShare i (poly (pe_a e) i mod L)) /\ getz coms k = Ok (commitments_of (cR C) (pe_a e))) /\
  ((exists u, unusable_dealer (cR C) i coms xs u) \/ (forall j, ~ unusable_dealer (cR C) i coms xs j) /\ (forall j, ~ cheated (cR C) i coms xs j)).
Proof.
  destruct D as [W0 S0 Cm0 R Lc Ok0 Tc]. destruct T as [[Hk F PR Lp POk Tp Rnd] Pn Pt Cast Self Key Gave].
  destruct (nine _ Lc) as ([[f0 j0] u0] & [[f1 j1] u1] & [[f2 j2] u2] & [[f3 j3] u3] & [[f4 j4] u4] & [[f5 j5] u5] & [[f6 j6] u6] & [[f7 j7] u7] & [[f8 j8] u8] & ->).
  destruct (nine _ Lp) as ([[e0 i0] o0] & [[e1 i1] o1] & [[e2 i2] o2] & [[e3 i3] o3] & [[e4 i4] o4] & [[e5 i5] o5] & [[e6 i6] o6] & [[e7 i7] o7] & [[e8 i8] o8] & ->).
  apply tp_cons in R. destruct R as (r0 & c1 & v0 & ? & -> & N0 & R). apply tp_cons in R. destruct R as (r1 & c2 & v1 & ? & -> & N1 & R).
  apply tp_cons in R. destruct R as (r2 & c3 & v2 & ? & -> & N2 & R). apply tp_cons in R. destruct R as (r3 & c4 & v3 & ? & -> & N3 & R).
  apply tp_cons in R. destruct R as (r4 & c5 & v4 & ? & -> & N4 & R). apply tp_cons in R. destruct R as (r5 & c6 & v5 & ? & -> & N5 & R).
  apply tp_cons in R. destruct R as (r6 & c7 & v6 & ? & -> & N6 & R). apply tp_cons in R. destruct R as (r7 & c8 & v7 & ? & -> & N7 & R).
  apply tp_cons in R. destruct R as (r8 & c9 & v8 & ? & -> & N8 & R). injection R as <-.
  repeat match goal with Q : Forall _ (_ :: _) |- _ => inversion Q; clear Q; subst end. cbn [fst] in *. subst.
  apply run_cons in PR. destruct PR as (? & p1 & w0 & ? & -> & P0 & PR). apply run_cons in PR. destruct PR as (? & p2 & w1 & ? & -> & P1 & PR).
  apply run_cons in PR. destruct PR as (? & p3 & w2 & ? & -> & P2 & PR). apply run_cons in PR. destruct PR as (? & p4 & w3 & ? & -> & P3 & PR).
  apply run_cons in PR. destruct PR as (? & p5 & w4 & ? & -> & P4 & PR). apply run_cons in PR. destruct PR as (? & p6 & w5 & ? & -> & P5 & PR).
  apply run_cons in PR. destruct PR as (? & p7 & w6 & ? & -> & P6 & PR). apply run_cons in PR. destruct PR as (? & p8 & w7 & ? & -> & P7 & PR).
  apply run_cons in PR. destruct PR as (? & p9 & w8 & ? & -> & P8 & PR). injection PR as <-.
  repeat match goal with Q : Forall _ (_ :: _) |- _ => inversion Q; clear Q; subst end. cbn [fst] in *. subst.
  pose proof (Cast 1%nat _ _ _ _ _ _ ltac:(cbn; auto) eq_refl eq_refl) as Ei1. pose proof (Cast 4%nat _ _ _ _ _ _ ltac:(cbn; auto) eq_refl eq_refl) as Ei4. pose proof (Cast 6%nat _ _ _ _ _ _ ltac:(cbn; auto) eq_refl eq_refl) as Ei6.
  pose proof (Self 2%nat 159 _ _ _ _ _ _ ltac:(cbn; auto) eq_refl eq_refl) as Sf2. pose proof (Self 3%nat 159 _ _ _ _ _ _ ltac:(cbn; auto) eq_refl eq_refl) as Sf3. pose proof (Self 5%nat 256 _ _ _ _ _ _ ltac:(cbn; auto) eq_refl eq_refl) as Sf5.
  pose proof (Key _ _ _ _ _ _ eq_refl eq_refl) as Ky. pose proof (Gave 3%nat _ _ _ _ _ _ ltac:(cbn; auto) eq_refl eq_refl) as O3. pose proof (Gave 5%nat _ _ _ _ _ _ ltac:(cbn; auto) eq_refl eq_refl) as O5. clear Cast Self Key Gave.
  destruct (Rnd _ _ _ eq_refl) as (Ra & Rs). clear Rnd.
  assert (U0 : forall j, is_u64 (pe_s e0 j)) by (intros; eapply Tp; cbn; eauto 12). assert (U1 : forall j, is_u64 (pe_s e1 j)) by (intros; eapply Tp; cbn; eauto 12).
  assert (U2 : forall j, is_u64 (pe_s e2 j)) by (intros; eapply Tp; cbn; eauto 12). assert (U3 : forall j, is_u64 (pe_s e3 j)) by (intros; eapply Tp; cbn; eauto 12).
  assert (U4 : forall j, is_u64 (pe_s e4 j)) by (intros; eapply Tp; cbn; eauto 12). assert (U5 : forall j, is_u64 (pe_s e5 j)) by (intros; eapply Tp; cbn; eauto 12).
  assert (V1 : is_u64 (e_s f1 0)) by (eapply Tc; cbn; eauto 12). assert (V4 : is_u64 (e_s f4 0)) by (eapply Tc; cbn; eauto 12). assert (V6 : is_u64 (e_s f6 0)) by (eapply Tc; cbn; eauto 12).
  clear Tp Tc Lc Lp.
  (* the trusted party *)
  pose proof (tp_wf_step C _ _ _ _ _ _ _ W0 N0) as W1. pose proof (tp_wf_step C _ _ _ _ _ _ _ W1 N1) as W2. pose proof (tp_wf_step C _ _ _ _ _ _ _ W2 N2) as W3.
  pose proof (tp_wf_step C _ _ _ _ _ _ _ W3 N3) as W4. pose proof (tp_wf_step C _ _ _ _ _ _ _ W4 N4) as W5. pose proof (tp_wf_step C _ _ _ _ _ _ _ W5 N5) as W6.
  pose proof (tp_wf_step C _ _ _ _ _ _ _ W6 N6) as W7. pose proof (tp_wf_step C _ _ _ _ _ _ _ W7 N7) as W8. pose proof (tp_wf_step C _ _ _ _ _ _ _ W8 N8) as W9.
  destruct (next_nt _ _ _ _ _ _ _ N0) as (Tn1 & Tt1). destruct (next_nt _ _ _ _ _ _ _ N1) as (Tn2 & Tt2). destruct (next_nt _ _ _ _ _ _ _ N2) as (Tn3 & Tt3).
  destruct (next_nt _ _ _ _ _ _ _ N3) as (Tn4 & Tt4). destruct (next_nt _ _ _ _ _ _ _ N4) as (Tn5 & Tt5). destruct (next_nt _ _ _ _ _ _ _ N5) as (Tn6 & Tt6).
  destruct (next_nt _ _ _ _ _ _ _ N6) as (Tn7 & Tt7). destruct (next_nt _ _ _ _ _ _ _ N7) as (Tn8 & Tt8). destruct (next_nt _ _ _ _ _ _ _ N8) as (Tn9 & Tt9).
  assert (X : t_step c1 = 1 /\ t_prev c1 = 0) by (destruct (next_tp _ _ _ _ _ _ N0 ltac:(lia)); lia). destruct X as (S1 & Q1).
  assert (X : t_step c2 = 2 /\ t_prev c2 = 1) by (destruct (next_tp _ _ _ _ _ _ N1 ltac:(lia)); lia). destruct X as (S2 & Q2).
  assert (X : t_step c3 = 3 /\ t_prev c3 = 2) by (destruct (next_tp _ _ _ _ _ _ N2 ltac:(lia)); lia). destruct X as (S3 & Q3).
  assert (X : t_step c4 = 4 /\ t_prev c4 = 3) by (destruct (next_tp _ _ _ _ _ _ N3 ltac:(lia)); lia). destruct X as (S4 & Q4).
  assert (X : t_step c5 = 5 /\ t_prev c5 = 4) by (destruct (next_tp _ _ _ _ _ _ N4 ltac:(lia)); lia). destruct X as (S5 & Q5).
  assert (X : t_step c6 = 6 /\ t_prev c6 = 5) by (destruct (next_tp _ _ _ _ _ _ N5 ltac:(lia)); lia). destruct X as (S6 & Q6).
  assert (Cm7 : t_complaints c7 = []).
  { destruct (t_complaints c7) as [|x l] eqn:E; [reflexivity|]. exfalso. assert (Ne : t_complaints c7 <> []) by congruence.
    destruct (complaint_tp_fails C _ _ _ _ _ _ _ _ _ _ _ _ _ S6 N6 Ne N7) as (Q & _). apply Q. reflexivity. }
  assert (S7 : t_step c7 = 8 /\ t_prev c7 = 6).
  { pose proof N6 as Q. rewrite tp_next_6 in Q by exact S6. apply bind_ok in Q. destruct Q as ([[r q] o] & E & Q). injection Q as -> <- <-. cbn [t_complaints tp_step_set] in Cm7.
    pose proof (ext_step16 C _ _ _ _ _ _ _ E) as X. cbn [t_step t_prev tp_step_set]. rewrite Cm7, (x_step _ _ X), S6. split; reflexivity. }
  destruct S7 as (S7 & Q7).
  assert (S8 : t_step c8 = 9).
  { pose proof N7 as Q. rewrite tp_next_8 in Q by exact S7. apply finish_inv in Q. destruct Q as (q & E & ->). pose proof (ext_step20 C _ _ _ _ _ _ _ E) as (y & X & [( -> & _)|(_ & X')]); [|discriminate]. cbn. rewrite (x_step _ _ X), S7. reflexivity. }
  pose proof (next_com _ _ _ _ _ _ N5 ltac:(rewrite S5; cbn; auto)) as K6. pose proof (next_com _ _ _ _ _ _ N6 ltac:(rewrite S6; cbn; auto)) as K7.
  pose proof (next_com _ _ _ _ _ _ N7 ltac:(rewrite S7; cbn; auto)) as K8. pose proof (next_com _ _ _ _ _ _ N8 ltac:(rewrite S8; cbn; auto)) as K9.
  (* the peer *)
  pose proof (fresh_inv C p F) as J0. pose proof (proj1 (proj2 F)) as s0.
  pose proof (pinv_next C HN _ _ _ _ _ _ _ J0 P0) as J1. pose proof (pinv_next C HN _ _ _ _ _ _ _ J1 P1) as J2.
  pose proof (pinv_next C HN _ _ _ _ _ _ _ J2 P2) as J3. pose proof (pinv_next C HN _ _ _ _ _ _ _ J3 P3) as J4.
  pose proof (pinv_next C HN _ _ _ _ _ _ _ J4 P4) as J5. pose proof (pinv_next C HN _ _ _ _ _ _ _ J5 P5) as J6.
  assert (s1 : p_step C p1 = 1) by (pose proof (next_step C _ p _ _ _ _ ltac:(lia) P0); lia).
  assert (s2 : p_step C p2 = 2) by (pose proof (next_step C _ p1 _ _ _ _ ltac:(lia) P1); lia).
  assert (s3 : p_step C p3 = 3) by (pose proof (next_step C _ p2 _ _ _ _ ltac:(lia) P2); lia).
  assert (s4 : p_step C p4 = 4) by (pose proof (next_step C _ p3 _ _ _ _ ltac:(lia) P3); lia).
  assert (s5 : p_step C p5 = 5) by (pose proof (next_step C _ p4 _ _ _ _ ltac:(lia) P4); lia).
  assert (s6 : p_step C p6 = 6) by (pose proof (next_step C _ p5 _ _ _ _ ltac:(lia) P5); lia).
  pose proof (next_frame C _ p1 _ _ _ _ ltac:(lia) ltac:(lia) P1) as (G1n & G1t & G1s & G1i & G1k). pose proof (next_frame C _ p2 _ _ _ _ ltac:(lia) ltac:(lia) P2) as (G2n & G2t & G2s & G2i & G2k).
  pose proof (next_frame C _ p3 _ _ _ _ ltac:(lia) ltac:(lia) P3) as (G3n & G3t & G3s & G3i & G3k). pose proof (next_frame C _ p4 _ _ _ _ ltac:(lia) ltac:(lia) P4) as (G4n & G4t & G4s & G4i & G4k).
  pose proof (next_frame C _ p5 _ _ _ _ ltac:(lia) ltac:(lia) P5) as (G5n & G5t & G5s & G5i & G5k). pose proof (next_frame C _ p6 _ _ _ _ ltac:(lia) ltac:(lia) P6) as (G6n & G6t & G6s & G6i & G6k).
  destruct (peer_nt_step C _ _ _ _ _ _ _ P0) as (G0n & G0t).
  assert (PW : forall q, pinv C q -> p_n C q = t_n c -> peer_wf C q) by (intros q Q _; apply (i_wf C q Q)).
  (* keys *)
  pose proof (w_n c1 W1) as Hn1.
  pose proof N1 as X1. rewrite tp_next_1 in X1 by exact S1. apply finish_inv in X1. destruct X1 as (y2 & X1 & Ey2).
  destruct (step4_content C f1 c1 j1 u1 y2 v1 HC (w_sid c1 W1) V1 ltac:(lia) X1) as (Lv1 & _ & _ & _ & K4). destruct (K4 k ltac:(lia)) as (m & ltsig & lt & pk & B1 & _ & _ & _ & _ & _ & B7 & B8). clear K4.
  change msg2_SIZE with 175 in *. change sign_BYTES with 64 in *. change (175 + 64) with 239 in *. change hdr_SIZE with 111 in *.
  pose proof P0 as Z0. rewrite (peer_next_0 C) in Z0 by exact s0. apply pfinish_inv in Z0. destruct Z0 as (q1 & Z0 & Eq1). cbn [Z.eqb] in Eq1.
  apply s23_out in Z0; [|exact HC|apply (v_sid C p (proj1 F))|apply U0]. destruct Z0 as (A1 & A2 & A3 & A4 & A5 & A6 & A7 & A8).
  assert (A9 : rd w0 0 175 = Ok m) by (rewrite (Ky A7); exact B1).
  assert (Idx : p_index C p1 = k + 1).
  { destruct B7 as (m' & ts & body & D1 & sg & D2 & D3 & D4 & _). rewrite B1 in D1. injection D1 as <-. rewrite A8 in A9. injection A9 as A9. rewrite D4 in A9. unfold mk_msg in A9. cbn zeta in A9.
    rewrite Eq1. cbn [p_index peer_step_set]. eapply header_from in A9; [exact A9|apply (sig_zlen S HS)|exact D2|unfold is_byte; lia|unfold is_byte; lia]. }
  assert (Nk : p_noise_sk C p1 = p_noise_sk C q1 /\ p_outs C p1 = p_outs C p /\ p_ins C p1 = p_ins C p) by (rewrite Eq1; auto). destruct Nk as (Nk & Ou1 & In1).
  set (nsk := p_noise_sk C p1) in *.
  subst i1.
  assert (Rk : rd v1 (111 + k * 175 + 111 + 32) 32 = Ok (nz_pk N nsk)).
  { rewrite A8 in A9. injection A9 as A9. rewrite <- A9 in B8. replace (nz_pk N nsk) with (nz_pk N (p_noise_sk C q1)) by congruence.
    rewrite <- (app_nil_r (nz_pk N (p_noise_sk C q1))) in B8. eapply (part_mk S HS _ (v_sid C p (proj1 F))); [exact B8|rewrite (pk_zlen S HS); lia|rewrite (ok_nz_pk_len N HN); reflexivity]. }
  assert (NoLive : forall l : list (slot (nz_sess N)), Forall (fun sl => sl = Uninit \/ sl = Null) l -> forall s, getz l k <> Ok (Live s)).
  { intros l Fl s G. apply getz_In in G. apply (proj1 (Forall_forall _ _) Fl) in G. destruct G; discriminate. }
  destruct F as (WF & _ & _ & _ & Fo & Fi).
  (* step 5 *)
  pose proof P1 as Z1. rewrite (peer_next_1 C) in Z1 by exact s1. apply pfinish_inv in Z1. destruct Z1 as (q2 & Z1 & Eq2). cbn [Z.eqb] in Eq2.
  destruct (s5_self C HC nsk k e1 p1 v1 o1 q2 w1 (i_wf C _ J1) U1 ltac:(lia) eq_refl ltac:(rewrite Ou1; apply NoLive; exact Fo) Rk Z1) as (Lw1 & Ins2 & d & Dv2 & Dk & St2).
  (* step 7 *)
  pose proof P2 as Z2. rewrite (peer_next_2 C) in Z2 by exact s2. apply pfinish_inv in Z2. destruct Z2 as (q3 & Z2 & Eq3). cbn [Z.eqb] in Eq3.
  destruct (s7_self C HC k e2 p2 i2 o2 q3 w2 (i_wf C _ J2) U2 ltac:(lia) Z2) as (Lw2 & Ou3 & d' & Dv2' & An3).
  assert (d' = d) by (rewrite Eq2 in Dv2'; cbn [p_dev peer_step_set] in Dv2'; congruence). subst d'.
  (* step 9-11 *)
  pose proof P3 as Z3. rewrite (peer_next_3 C) in Z3 by exact s3. apply pfinish_inv in Z3. destruct Z3 as (q4 & Z3 & Eq4). cbn [Z.eqb] in Eq4.
  destruct (s911_self C k e3 p3 i3 o3 q4 w3 ltac:(lia) Z3) as (Lw3 & Ins4 & Fn4).
  destruct (s911_out C HC e3 p3 i3 o3 q4 w3 (i_wf C _ J3) (U3 0) ltac:(congruence) Rs Z3) as (Sh4 & Cmt).
  (* step 13 *)
  pose proof P4 as Z4. rewrite (peer_next_4 C) in Z4 by exact s4. apply pfinish_inv in Z4. destruct Z4 as (q5 & Z4 & Eq5). cbn [Z.eqb] in Eq5.
  destruct (s13_self C HC k e4 p4 i4 o4 q5 w4 (i_wf C _ J4) U4 ltac:(lia) Z4) as (Lw4 & Ins5 & Hd).
  (* step 15 *)
  pose proof P5 as Z5. rewrite (peer_next_5 C) in Z5 by exact s5. apply pfinish_inv in Z5. destruct Z5 as (q6 & Z5 & Eq6). cbn [Z.eqb] in Eq6.
  destruct (s15_self C k e5 p5 i5 o5 q6 w5 ltac:(lia) Z5) as (xk & Gx & Got).
  (* the channel *)
  destruct Hd as (sa & sb & sc & sh & m3 & ct & H1 & H2 & H3 & H4 & H5 & H6).
  rewrite Eq4 in H1, H2. cbn [p_outs p_shares peer_step_set] in H1, H2. destruct (Fn4 _ H1) as (sa0 & m2 & p2' & H7 & H8 & H9).
  rewrite Eq3 in H7. cbn [p_outs peer_step_set] in H7. rewrite Ou3, Eq2 in H7. cbn [p_outs peer_step_set] in H7. pose proof (St2 _ H7) as Started.
  destruct Got as (ta & tb & tc & m3' & p3' & ct' & pt & G1 & G2 & G3 & G4 & G5 & ->).
  rewrite Eq5 in G1. cbn [p_ins peer_step_set] in G1. rewrite Ins5, Eq4 in G1. cbn [p_ins peer_step_set] in G1. rewrite Ins4, Eq3 in G1. cbn [p_ins peer_step_set] in G1.
  destruct (An3 _ G1) as (rr & t0 & m1 & t1 & p1' & m2' & L1 & L2 & L3 & L4 & L5).
  assert (E1 : rd w1 (k * 159 + 111) 48 = Ok m1).
  { rewrite <- L1. symmetry. apply Sf2; lia. }
  assert (E2 : m2 = m2').
  { assert (Q : rd w2 (k * 159 + 111) 48 = Ok m2); [|congruence].
    rewrite <- H8. symmetry. apply Sf3; lia. }
  subst m2'.
  assert (RL : forall o l, 0 <= o -> 0 <= l -> o + l <= 256 -> rd i5 (k * 256 + o) l = rd w4 (k * 256 + o) l).
  { intros o l Ho Hl Hol. apply Sf5; lia. }
  assert (m3' = m3) by (rewrite RL in G2 by lia; congruence). assert (ct' = ct) by (rewrite RL in G3 by lia; congruence). subst m3' ct'.
  assert (Pt' : pt = share_bytes sh).
  { eapply (self_channel C HC nsk d w1 k sa0 rr t0 m1 t1 p1' ta m2 sa p2' sb m3 sh sc ct tb p3' tc pt); eassumption. }
  subst pt.
  rewrite Sh4, shares_of_get in H2 by lia. injection H2 as <-.
  rewrite share_of_bytes in Gx; [|cbn; unfold is_byte; lia|cbn; apply Z.mod_pos_bound; exact L_pos].
  (* the commitments *)
  pose proof (commitments_agree C f4 c4 j4 u4 c5 v4 e4 p4 o4 p5 w4 HC W4 V4 S4 N4 s4 ltac:(congruence) ltac:(congruence) ltac:(rewrite (v_com C _ (i_wf C _ J4)); congruence)) as CA.
  subst i4. specialize (CA P4).
  pose proof (w_n c4 W4) as Hn4. pose proof (w_t c4 W4) as Ht4.
  assert (Row : getz (t_com c5) k = Ok (commitments_of (cR C) (pe_a e3))).
  { pose proof N4 as X4. rewrite tp_next_4 in X4 by exact S4. apply finish_inv in X4. destruct X4 as (y5 & X4 & Ey5).
    destruct (step12_content C f4 c4 j4 u4 y5 v4 HC (w_sid c4 W4) V4 ltac:(lia) ltac:(lia) X4) as (_ & _ & _ & _ & K12). destruct (K12 k ltac:(lia)) as (m' & data & pk' & D1 & D2 & D3 & _).
    rewrite Ey5. cbn [t_com tp_step_set]. rewrite D3. f_equal.
    assert (Lc3 : zlen w3 = msg6_SIZE (t_t c4)) by congruence. rewrite <- Lc3, O3 in D1. injection D1 as <-.
    assert (Ld : data = concat (commitments_of (cR C) (pe_a e3))).
    { rewrite <- Cmt. rewrite rd_ok in D2; [|unfold hdr_SIZE; lia|lia|unfold msg6_SIZE in Lc3; unfold hdr_SIZE in *; lia]. injection D2 as <-. change (Z.to_nat hdr_SIZE) with 111%nat. apply firstn_all2.
      unfold msg6_SIZE in Lc3. change hdr_SIZE with 111 in Lc3. rewrite skipn_length. unfold zlen in Lc3. lia. }
    rewrite Ld. apply rows_concat.
    - unfold commitments_of, zlen. rewrite map_length. congruence.
    - unfold commitments_of. apply Forall_forall. intros b Hb. apply in_map_iff in Hb. destruct Hb as (y & <- & _). unfold zlen. rewrite (ok_enc_len _ (ok_cR C HC)). reflexivity. }
  (* the complaints *)
  pose proof (complains_exactly C e5 p5 i5 o5 p6 w5 HC s5 ltac:(lia) ltac:(lia) ltac:(lia) (v_com C _ (i_wf C _ J5)) (v_rows C _ (i_wf C _ J5)) (v_xshares C _ (i_wf C _ J5)) (v_sid C _ (i_wf C _ J5)) (U5 0) P5) as (X1' & X2 & X3 & _ & X5).
  assert (Nm : named w5 = []).
  { pose proof N6 as Q. rewrite tp_next_6 in Q by exact S6. apply bind_ok in Q. destruct Q as ([[r q] o] & E & Q). injection Q as -> <- <-. cbn [t_complaints tp_step_set] in Cm7.
    pose proof (w_n c6 W6) as Hn6. destruct (step16_content C f6 c6 j6 u6 q o HC (w_sid c6 W6) V6 ltac:(lia) E) as (_ & _ & _ & _ & Ec & _). rewrite Cm7 in Ec. unfold complaints_in in Ec.
    assert (Sl : slice (0 + k * msg9_SIZE (t_n c6)) (msg9_SIZE (t_n c6)) j6 = w5).
    { replace (msg9_SIZE (t_n c6)) with (zlen w5) by (rewrite X3; f_equal; lia). rewrite Z.add_0_l. pose proof (rd_inv _ _ _ _ O5) as (B5 & B6 & B9 & _). rewrite rd_ok in O5 by lia. unfold slice. injection O5 as O5. exact O5. }
    assert (Hin : In k (zrange 0 (Z.to_nat (t_n c6)))) by (apply zrange_In; lia).
    destruct (named w5) as [|x l] eqn:En; [reflexivity|]. exfalso. assert (Hf : In ((k + 1) * 256 + x) []).
    { rewrite Ec. apply in_flat_map. exists k. split; [exact Hin|]. rewrite Sl, En. left. reflexivity. }
    destruct Hf. }
  (* the end *)
  subst i6.
  destruct (i_none C _ J6 ltac:(lia)) as (C6 & My6).
  destruct (complaints_agree C f6 c6 j6 u6 c7 v6 e6 p6 o6 p7 w6 HC W6 V6 S6 N6 s6 ltac:(congruence) C6 My6 P6) as (Y1 & _ & _ & Y4 & Y5). rewrite S7 in Y4.
  assert (Xs : p_xshares C p7 = p_xshares C p6).
  { pose proof P6 as Q. rewrite (peer_next_6 C) in Q by exact s6. apply pfinish_inv in Q. destruct Q as (q7 & Q & ->). cbn [p_xshares peer_step_set]. apply xs17 in Q. exact Q. }
  assert (F8 : p_index C p8 = p_index C p7 /\ p_xshares C p8 = p_xshares C p7 /\ p_n C p8 = p_n C p7 /\ p_step C p8 = 9).
  { pose proof P7 as Q. rewrite (peer_next_8 C) in Q by exact Y4. apply pfinish_inv in Q. destruct Q as (q8 & Q & ->). apply pext_step19 in Q. subst q8. cbn. rewrite Y4. auto. }
  destruct F8 as (F8i & F8x & F8n & F8s).
  assert (F9 : p_xshares C p9 = p_xshares C p8 /\ p_share C p9 = mkShare (p_index C p8) (dkg_finish (firstn (Z.to_nat (p_n C p8)) (p_xshares C p8)))).
  { pose proof P8 as Q. rewrite (peer_next_9 C) in Q by exact F8s. apply pfinish_inv in Q. destruct Q as (q9 & Q & ->). unfold peer_step21 in Q. inv Q; try (recvs; match goal with Q : recv_msg _ _ _ _ _ _ _ _ _ _ _ _ = _ |- _ => apply recv_codes in Q end; lia). recvs. split; reflexivity. }
  destruct F9 as (F9x & F9s).
  assert (Ex6 : p_xshares C p6 = p_xshares C q6) by (rewrite Eq6; reflexivity).
  unfold published, received, key_share, final. cbn [map last fst snd]. cbv zeta.
  assert (Ecom : t_com c9 = p_com C p6) by congruence. assert (Exs : p_xshares C p9 = p_xshares C p6) by congruence. rewrite Exs, Ecom.
  split; [rewrite X1', (v_com C _ (i_wf C _ J5)); lia|]. split; [rewrite X1'; pose proof (v_rows C _ (i_wf C _ J5)) as Q; replace (t_t c) with (p_t C p5) by congruence; exact Q|].
  split; [lia|]. split.
  { rewrite F9s, F8i, Y5, F8x, Xs, F8n. replace (p_index C p6) with (k + 1) by congruence. f_equal. f_equal. apply firstn_all2. unfold zlen in X2. lia. }
  split.
  { exists e3, i3, o3. split; [reflexivity|]. split; [rewrite Ex6; exact Gx|]. rewrite <- Ecom, K9, K8, K7, K6. exact Row. }
  replace (k + 1) with (p_index C p5) by congruence. rewrite Nm in X5. destruct X5 as [(u & _ & X5 & _)|(X5 & X6)]; [left; eauto|right].
  split; [exact X5|]. intros j Q. apply X6 in Q. destruct Q.
Qed.

Lemma good_recipient : sound_commitments C (published c outs) -> plain_shares (received C p pouts) ->
  recipient_ok (cR C) (t_n c) (t_t c) (published c outs) (k + 1, received C p pouts) /\ key_share C p pouts = mkShare (k + 1) (dkg_finish (received C p pouts)).
Proof.
  intros Hu Hp. destruct good_facts as (G1 & G2 & G3 & G4 & (e & inp & o & G5 & G6 & G7) & G8). cbv zeta in *. split; [|exact G4].
  pose proof (dw_wf _ _ _ _ D) as W. pose proof (w_n c W). pose proof (w_t c W). pose proof (rn_k _ _ _ _ _ _ (l_ran _ _ _ _ _ _ _ T)) as Hk.
  assert (Ha : index_ok (k + 1)) by (unfold index_ok; lia).
  assert (VA : forall f, Z.of_nat (length f) = t_n c -> verify_args (t_n c) (t_t c) (k + 1) (published c outs) (received C p pouts) f).
  { intros f Lf. split; [lia|]. split; [lia|]. split; [exact Ha|]. repeat split; assumption. }
  assert (Lr : Z.of_nat (length (repeat 0 (Z.to_nat (t_n c)))) = t_n c) by (rewrite repeat_length; lia).
  split; [eexists; apply VA; exact Lr|].
  split; [|split; [|exact Hp]].
  - destruct (verify_commitments_spec _ (ok_cR C HC) _ _ _ _ _ _ (VA _ Lr)) as (ret & f' & nm & E & _ & _ & _ & Hc).
    destruct G8 as [(u & _ & cs & s & (Q1 & Q2 & Q3) & Q4)|(G8 & G9)].
    { exfalso. apply Q4. apply nth_error_In in Q2. exact (proj1 (Forall_forall _ _) Hu _ Q2). }
    destruct Hc as [(u & _ & Q & _)|(_ & Er & Hin)]; [destruct (G8 u Q)|].
    destruct nm as [|x nm]; [|exfalso; apply (G9 x), Hin; left; reflexivity].
    exists (repeat 0 (Z.to_nat (t_n c))), f'. split; [exact Lr|]. rewrite E, Er. reflexivity.
  - intros cs s (_ & Q2 & Q3). replace (k + 1 - 1) with k in * by lia.
    rewrite (getz_ok _ k _ Q2) in G7 by lia. rewrite (getz_ok _ k _ Q3) in G6 by lia. injection G6 as ->. injection G7 as ->.
    apply (honest_matches _ (ok_cR C HC)); [exact Ha| |reflexivity]. exact (proj2 (rn_random _ _ _ _ _ _ (l_ran _ _ _ _ _ _ _ T) _ _ _ G5)).
Qed.
End RUN.

(** the same with [linked] for "followed the protocol" *)
Definition joined (c : tp) (calls : list tp_call) (outs : list (Z * tp * bytes)) (x : party C) : Prop :=
  let '(k, p, pcalls, pouts) := x in linked c calls outs k p pcalls pouts.
Lemma honest_joined c calls outs x : done_well C c calls outs -> honest C c calls outs x -> joined c calls outs x.
Proof. intros D H. destruct x as (((k & p) & pc) & po). exact (took_linked c calls outs k p pc po D H). Qed.
Lemma honest_joineds c calls outs l : done_well C c calls outs -> Forall (honest C c calls outs) l -> Forall (joined c calls outs) l.
Proof. intros D H. eapply Forall_impl; [|exact H]. intros x. apply honest_joined. exact D. Qed.

Lemma joined_own c calls outs x : done_well C c calls outs -> joined c calls outs x ->
  exists e inp o, nth_error (snd (fst x)) 3 = Some (e, inp, o) /\
    getz (received_by x) (number x) = Ok (mkShare (number x + 1) (poly (pe_a e) (number x + 1) mod L)) /\ getz (published c outs) (number x) = Ok (commitments_of (cR C) (pe_a e)).
Proof. intros D H. destruct x as (((k & p) & pc) & po). destruct (good_facts c calls outs k p pc po D H) as (_ & _ & _ & _ & Q & _). exact Q. Qed.

Lemma commitments_inj a b : Forall (fun x => 0 <= x < L) a -> Forall (fun x => 0 <= x < L) b -> commitments_of (cR C) a = commitments_of (cR C) b -> a = b.
Proof.
  intros Ha. revert b. induction Ha as [|x a Hx Ha IH]; intros [|y b] Hb E; try discriminate; [reflexivity|]. inversion Hb; subst. cbn in E. injection E as E1 E2.
  f_equal; [|apply IH; assumption]. apply (f_equal (rdec (cR C))) in E1. rewrite !(ok_dec_enc _ (ok_cR C HC)) in E1. injection E1 as E1.
  rewrite !(gmul_of_Z _ (ok_cR C HC)) in E1 by lia. apply (gmul_inj _ (ok_cR C HC)) in E1; [|apply (ok_base _ (ok_cR C HC))]. apply of_Z_inj; assumption.
Qed.

Lemma joined_one_polynomial c calls outs parties : done_well C c calls outs -> sound_commitments C (published c outs) ->
  Forall (joined c calls outs) parties -> Forall (fun x => plain_shares (received_by x)) parties -> parties <> [] ->
  exists A, dealers C c (published c outs) A /\
    Forall (fun x => share_of_party x = mkShare (number x + 1) (zsum (map (fun a => poly a (number x + 1)) A) mod L)) parties /\
    Forall (fun x => forall e inp o, nth_error (snd (fst x)) 3 = Some (e, inp, o) -> nth_error A (Z.to_nat (number x)) = Some (pe_a e)) parties.
Proof.
  intros D Hu HF HP Hne.
  assert (HR : forall x, In x parties -> recipient_ok (cR C) (t_n c) (t_t c) (published c outs) (number x + 1, received_by x) /\ share_of_party x = mkShare (number x + 1) (dkg_finish (received_by x))).
  { intros x Hx. pose proof (proj1 (Forall_forall _ _) HF _ Hx) as H. pose proof (proj1 (Forall_forall _ _) HP _ Hx) as H'. destruct x as (((k & p) & pc) & po). exact (good_recipient c calls outs k p pc po D H Hu H'). }
  destruct parties as [|x0 parties'] eqn:EP; [contradiction|]. rewrite <- EP in *.
  destruct (HR x0 ltac:(rewrite EP; left; reflexivity)) as (R0 & _). pose proof (recipient_matches _ (ok_cR C HC) _ _ _ _ _ R0) as M0.
  destruct R0 as ((fails0 & (Hn & Ht & Hj0 & HC0 & HCt & HS0 & _)) & _).
  destruct (commitments_matrix _ (ok_cR C HC) (t_t c) (published c outs) HCt) as (A & EA & HA & HA').
  { intros cs Hin. apply In_nth_error in Hin. destruct Hin as (i & Ei). destruct (nth_error (received_by x0) i) as [s|] eqn:Es.
    - destruct (M0 (Z.of_nat i + 1) cs s) as (Cs & HD & _); [|exists Cs; exact HD]. split; [lia|]. replace (Z.to_nat (Z.of_nat i + 1 - 1)) with i by lia. auto.
    - apply nth_error_None in Es. assert (i < length (published c outs))%nat by (apply nth_error_Some; congruence). lia. }
  assert (LA : Z.of_nat (length A) = t_n c) by (rewrite <- HC0, EA, map_length; reflexivity).
  exists A. split; [|split].
  - split; [exact LA|]. split; [|exact EA]. apply Forall_forall. intros a Ia. split; [exact (proj1 (Forall_forall _ _) HA _ Ia)|exact (proj1 (Forall_forall _ _) HA' _ Ia)].
  - apply Forall_forall. intros x Hx. destruct (HR x Hx) as (Rx & ->). f_equal. pose proof (recipient_matches _ (ok_cR C HC) _ _ _ _ _ Rx) as HM.
    destruct Rx as ((f & (_ & _ & Hj & _ & _ & HSx & _)) & _ & _ & Hv). rewrite (finish_poly A (number x + 1)); [rewrite psum_poly; reflexivity|exact Hv|].
    apply Forall2_nth; [lia|]. intros i a s Ea Es. rewrite <- (matches_poly _ (ok_cR C HC) (number x + 1) (commitments_of (cR C) a) (s_value s) a Hj).
    * rewrite Z.mod_small; [reflexivity|]. exact (proj1 (Forall_forall _ _) Hv s (nth_error_In _ _ Es)).
    * apply (HM (Z.of_nat i + 1)). split; [lia|]. replace (Z.to_nat (Z.of_nat i + 1 - 1)) with i by lia. split; [|assumption]. rewrite EA. apply map_nth_error. assumption.
    * exact (proj1 (Forall_forall _ _) HA' a (nth_error_In _ _ Ea)).
    * reflexivity.
  - apply Forall_forall. intros x Hx e inp o He. pose proof (proj1 (Forall_forall _ _) HF _ Hx) as H. destruct (joined_own c calls outs x D H) as (e' & inp' & o' & B1 & _ & B3).
    pose proof (eq_trans (eq_sym He) B1) as B. injection B as <- _ _. 
    assert (Rnd : Forall random_scalar (pe_a e)) by (destruct x as (((k & p) & pc) & po); exact (proj2 (rn_random _ _ _ _ _ _ (l_ran _ _ _ _ _ _ _ H) _ _ _ He))).
    assert (Hk : 0 <= number x < t_n c) by (destruct x as (((k & p) & pc) & po); exact (rn_k _ _ _ _ _ _ (l_ran _ _ _ _ _ _ _ H))).
    rewrite EA in B3. apply getz_inv in B3. destruct B3 as (_ & B3). rewrite nth_error_map in B3. destruct (nth_error A (Z.to_nat (number x))) as [a|] eqn:Ea; [|discriminate]. cbn in B3. injection B3 as B3. f_equal.
    apply commitments_inj; [exact (proj1 (Forall_forall _ _) HA' a (nth_error_In _ _ Ea))| |exact B3].
    eapply Forall_impl; [|exact Rnd]. unfold random_scalar. intros; lia.
Qed.

Lemma joined_one_key c calls outs parties : done_well C c calls outs -> sound_commitments C (published c outs) ->
  Forall (joined c calls outs) parties -> Forall (fun x => plain_shares (received_by x)) parties -> NoDup (map number parties) -> t_t c <= Z.of_nat (length parties) -> 
  exists A, dealers C c (published c outs) A /\ dkg_reconstruct (map share_of_party parties) = zsum (map (hd 0) A) mod L.
Proof.
  intros D Hu HF HP Hnd Hlen. pose proof (dw_wf _ _ _ _ D) as W. pose proof (w_n c W) as Wn. pose proof (w_t c W) as Wt.
  assert (Hne : parties <> []) by (intros ->; cbn in Hlen; lia).
  destruct (joined_one_polynomial c calls outs parties D Hu HF HP Hne) as (A & HA & HS' & _). exists A. split; [exact HA|].
  destruct HA as (LA & FA & _). assert (Hi : Forall (fun x => s_index (share_of_party x) = number x + 1) parties) by (eapply Forall_impl; [|exact HS']; intros x E; cbv beta in E; rewrite E; reflexivity).
  rewrite (dkg_reconstruct_spec (psum A)).
  - f_equal. rewrite psum_poly. f_equal. apply map_ext_in. intros a Ia. destruct (proj1 (Forall_forall _ _) FA _ Ia) as (La & _). destruct a as [|y a]; [cbn in La; lia|]. cbn [poly hd]. lia.
  - rewrite map_map. rewrite (map_ext_in _ (fun x => number x + 1)) by (intros x Hx; exact (proj1 (Forall_forall _ _) Hi x Hx)). rewrite <- (map_map number (fun z => z + 1)). apply FinFun.Injective_map_NoDup; [intros a b; lia|exact Hnd].
  - apply Forall_forall. intros i Hin. apply in_map_iff in Hin. destruct Hin as (s & <- & Hin). apply in_map_iff in Hin. destruct Hin as (x & <- & Hx). rewrite (proj1 (Forall_forall _ _) Hi x Hx).
    pose proof (proj1 (Forall_forall _ _) HF _ Hx) as H. destruct x as (((k & p) & pc) & po). pose proof (rn_k _ _ _ _ _ _ (l_ran _ _ _ _ _ _ _ H)). cbn [number fst]. unfold index_ok. lia.
  - rewrite map_length. apply Nat2Z.inj_le. etransitivity; [|exact Hlen]. rewrite <- (Z2Nat.id (t_t c)) by lia. apply Nat2Z.inj_le. apply psum_length. apply Forall_forall. intros a Ia. destruct (proj1 (Forall_forall _ _) FA _ Ia). lia.
  - intros s Hs. apply in_map_iff in Hs. destruct Hs as (x & <- & Hx). rewrite (proj1 (Forall_forall _ _) HS' x Hx). cbn [s_value s_index]. rewrite psum_poly. apply of_Z_mod.
Qed.

Lemma dealers_fun c coms A B : dealers C c coms A -> dealers C c coms B -> A = B.
Proof.
  intros (_ & FA & EA) (_ & FB & EB). rewrite EA in EB. clear EA coms. revert B FB EB. induction A as [|a A IH]; intros [|b B] FB E; try discriminate; [reflexivity|].
  inversion FA as [|? ? (_ & Fa) FA']; subst. inversion FB as [|? ? (_ & Fb) FB']; subst. cbn [map] in E. injection E as E1 E2. f_equal; [apply commitments_inj; assumption|apply IH; assumption].
Qed.
Lemma joined_quorums_agree c calls outs q q' : done_well C c calls outs -> sound_commitments C (published c outs) ->
  Forall (joined c calls outs) q -> Forall (joined c calls outs) q' -> Forall (fun x => plain_shares (received_by x)) (q ++ q') ->
  NoDup (map number q) -> NoDup (map number q') -> t_t c <= Z.of_nat (length q) -> t_t c <= Z.of_nat (length q') ->
  dkg_reconstruct (map share_of_party q) = dkg_reconstruct (map share_of_party q').
Proof.
  intros D Hu F F' P N1 N2 L1 L2. apply Forall_app in P. destruct P as (P & P').
  destruct (joined_one_key c calls outs q D Hu F P N1 L1) as (A & HA & ->). destruct (joined_one_key c calls outs q' D Hu F' P' N2 L2) as (B & HB & ->).
  rewrite (dealers_fun _ _ _ _ HA HB). reflexivity.
Qed.

(** ** C80 *)
Lemma honest_own c calls outs x : done_well C c calls outs -> honest C c calls outs x ->
  exists e inp o, nth_error (snd (fst x)) 3 = Some (e, inp, o) /\
    getz (received_by x) (number x) = Ok (mkShare (number x + 1) (poly (pe_a e) (number x + 1) mod L)) /\ getz (published c outs) (number x) = Ok (commitments_of (cR C) (pe_a e)).
Proof. intros D H. apply (joined_own c calls outs x D). apply honest_joined; assumption. Qed.
Lemma one_polynomial c calls outs parties : done_well C c calls outs -> sound_commitments C (published c outs) ->
  Forall (honest C c calls outs) parties -> Forall (fun x => plain_shares (received_by x)) parties -> parties <> [] ->
  exists A, dealers C c (published c outs) A /\
    Forall (fun x => share_of_party x = mkShare (number x + 1) (zsum (map (fun a => poly a (number x + 1)) A) mod L)) parties /\
    Forall (fun x => forall e inp o, nth_error (snd (fst x)) 3 = Some (e, inp, o) -> nth_error A (Z.to_nat (number x)) = Some (pe_a e)) parties.
Proof. intros D Hs HF. apply joined_one_polynomial with (calls := calls); [exact D|exact Hs|]. apply honest_joineds; assumption. Qed.
Lemma one_key c calls outs parties : done_well C c calls outs -> sound_commitments C (published c outs) ->
  Forall (honest C c calls outs) parties -> Forall (fun x => plain_shares (received_by x)) parties -> NoDup (map number parties) -> t_t c <= Z.of_nat (length parties) -> 
  exists A, dealers C c (published c outs) A /\ dkg_reconstruct (map share_of_party parties) = zsum (map (hd 0) A) mod L.
Proof. intros D Hs HF. apply joined_one_key with (calls := calls); [exact D|exact Hs|]. apply honest_joineds; assumption. Qed.
Lemma quorums_agree c calls outs q q' : done_well C c calls outs -> sound_commitments C (published c outs) ->
  Forall (honest C c calls outs) q -> Forall (honest C c calls outs) q' -> Forall (fun x => plain_shares (received_by x)) (q ++ q') ->
  NoDup (map number q) -> NoDup (map number q') -> t_t c <= Z.of_nat (length q) -> t_t c <= Z.of_nat (length q') ->
  dkg_reconstruct (map share_of_party q) = dkg_reconstruct (map share_of_party q').
Proof. intros D Hs HF HF'. apply joined_quorums_agree with (c := c) (calls := calls) (outs := outs); [exact D|exact Hs| |]; apply honest_joineds; assumption. Qed.
End GOOD.
