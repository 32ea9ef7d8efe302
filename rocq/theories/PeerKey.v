(** C78: the long-term signing key of a peer. *)
From Coq Require Import ZArith Lia List Bool.
From Coq.Strings Require Import Byte.
From Verif Require Import Bytes Res Mem Sodium ToprfModel DkgModel WireModel WireSpec WireProofs TpCrypto TpModel PeerModel.
From Verif Require Import TpFrame PeerFrame TpSpec TpMsg TpControl TpSafe PeerSafe HonestMsg.
Import ListNotations.
Open Scope list_scope.
Open Scope Z_scope.

Section KEY.
Variable C : crypto.
Notation peer := (peer C).
Notation S := (cS C).

Definition lt (c c' : peer) : Prop := p_lt_sk C c' = p_lt_sk C c.
Lemma lt_refl c : lt c c. Proof. reflexivity. Qed.
Lemma lt_trans a b c : lt a b -> lt b c -> lt a c. Proof. unfold lt. congruence. Qed.
Definition lt2 (s s' : peer * bytes) : Prop := lt (fst s) (fst s').
Lemma lt2_refl s : lt2 s s. Proof. reflexivity. Qed.
Lemma lt2_trans a b c : lt2 a b -> lt2 b c -> lt2 a c. Proof. unfold lt2, lt. congruence. Qed.

Ltac recvs := repeat match goal with
  | H : peer_recv _ _ _ _ _ _ _ _ _ _ _ = Ok (_, ?c') |- _ => apply peer_recv_inv in H; destruct H as (? & ? & ? & ? & ? & ? & H); subst c'
  | H : peer_recv_tp _ _ _ _ _ _ _ _ = Ok (_, ?c') |- _ => apply peer_recv_tp_inv in H; destruct H as (? & ? & H); subst c'
  end.
Ltac fin := match goal with Q : lt2 _ _ |- _ => exact Q | Q : lt _ _ |- _ => exact Q end.
Ltac easy_lt := recvs; cbn [ctl_state fst snd]; reflexivity.
Ltac uloop R lem := match goal with H : loopM _ _ _ = Ok _ |- _ =>
  eapply (loop_rel R) in H; [|first [apply lt_refl|apply lt2_refl]|first [apply lt_trans|apply lt2_trans]|intros; eapply lem; eassumption]; cbn [ctl_state fst snd] in H end.

Lemma k5 e input i s r : peer_step5_body C e input i s = Ok r -> lt2 s (ctl_state r).
Proof. destruct s as [c out]. unfold peer_step5_body, lt2, lt. intros H. inv H; easy_lt. Qed.
Lemma k7 e input i s r : peer_step7_body C e input i s = Ok r -> lt2 s (ctl_state r).
Proof. destruct s as [c out]. unfold peer_step7_body, lt2, lt. intros H. inv H; easy_lt. Qed.
Lemma k911 e input i c r : peer_step911_body C e input i c = Ok r -> lt c (ctl_state r).
Proof. unfold peer_step911_body, lt. intros H. inv H; easy_lt. Qed.
Lemma k13 e input i s r : peer_step13_body C e input i s = Ok r -> lt2 s (ctl_state r).
Proof. destruct s as [c out]. unfold peer_step13_body, lt2, lt. intros H. inv H; easy_lt. Qed.
Lemma k15 e input i c r : peer_step15_body C e input i c = Ok r -> lt c (ctl_state r).
Proof. unfold peer_step15_body, lt. intros H. inv H; easy_lt. Qed.
Lemma k17c input p i lim k c r : peer_step17_complaint C input p i lim k c = Ok r -> lt c (ctl_state r).
Proof. unfold peer_step17_complaint, lt. intros H. inv H; easy_lt. Qed.
Lemma k17 e input i c r : peer_step17_body C e input i c = Ok r -> lt c (ctl_state r).
Proof. unfold peer_step17_body. intros H. inv H; try solve [unfold lt; easy_lt]. uloop lt k17c. recvs. exact H. Qed.

Lemma next_lt e c input out ret c' out' : p_step C c <> 0 -> peer_next C e c input out = Ok (ret, c', out') -> p_lt_sk C c' = p_lt_sk C c.
Proof.
  intros H0 H.
  assert (D : (p_step C c < 0 \/ 10 < p_step C c) \/ 0 <= p_step C c <= 10) by lia. destruct D as [D|D].
  { rewrite peer_next_other in H by assumption. injection H as <- <- <-. reflexivity. }
  assert (E : p_step C c = 1 \/ p_step C c = 2 \/ p_step C c = 3 \/ p_step C c = 4 \/ p_step C c = 5 \/ p_step C c = 6 \/ p_step C c = 7 \/ p_step C c = 8 \/ p_step C c = 9 \/ p_step C c = 10) by lia.
  destruct E as [E|[E|[E|[E|[E|[E|[E|[E|[E|E]]]]]]]]].
  - rewrite (peer_next_1 C) in H by exact E. apply pfinish_inv in H. destruct H as (p & H & ->). cbn [p_lt_sk peer_step_set].
    unfold peer_step5 in H. inv H; try solve [easy_lt]. apply done_inv in H. destruct H as (H & _). subst p. uloop lt2 k5. recvs. fin.
  - rewrite (peer_next_2 C) in H by exact E. apply pfinish_inv in H. destruct H as (p & H & ->). cbn [p_lt_sk peer_step_set].
    unfold peer_step7 in H. inv H; try solve [easy_lt]. apply done_inv in H. destruct H as (H & _). subst p. uloop lt2 k7. fin.
  - rewrite (peer_next_3 C) in H by exact E. apply pfinish_inv in H. destruct H as (p & H & ->). cbn [p_lt_sk peer_step_set].
    unfold peer_step911 in H. inv H; try solve [easy_lt]; uloop lt k911; fin.
  - rewrite (peer_next_4 C) in H by exact E. apply pfinish_inv in H. destruct H as (p & H & ->). cbn [p_lt_sk peer_step_set].
    unfold peer_step13 in H. inv H; try solve [easy_lt]. apply done_inv in H. destruct H as (H & _). subst p. uloop lt2 k13. recvs. fin.
  - rewrite (peer_next_5 C) in H by exact E. apply pfinish_inv in H. destruct H as (p & H & ->). cbn [p_lt_sk peer_step_set].
    unfold peer_step15 in H. inv H; try solve [easy_lt]; uloop lt k15; fin.
  - rewrite (peer_next_6 C) in H by exact E. apply pfinish_inv in H. destruct H as (p & H & ->). cbn [p_lt_sk peer_step_set].
    unfold peer_step17 in H. inv H; try solve [easy_lt]; uloop lt k17; recvs; fin.
  - rewrite (peer_next_7 C) in H by exact E. apply pfinish_inv in H. destruct H as (p & H & ->). apply pext_step17a in H. destruct H as [->|(-> & _)]; reflexivity.
  - rewrite (peer_next_8 C) in H by exact E. apply pfinish_inv in H. destruct H as (p & H & ->). apply pext_step19 in H. subst p. reflexivity.
  - rewrite (peer_next_9 C) in H by exact E. apply pfinish_inv in H. destruct H as (p & H & ->). cbn [p_lt_sk peer_step_set]. unfold peer_step21 in H. inv H; easy_lt.
  - rewrite (peer_next_10 C) in H by exact E. apply pfinish_inv in H. destruct H as (p & H & ->). injection H as <- <- <-. reflexivity.
Qed.

Lemma run_lt calls : forall c outs, 0 < p_step C c -> peer_run C c calls = Ok outs -> p_lt_sk C (final c outs) = p_lt_sk C c.
Proof.
  induction calls as [|[[e input] out] calls IH]; intros c outs H0 H; cbn [peer_run] in H.
  - injection H as <-. reflexivity.
  - apply bind_ok in H. destruct H as ([[ret c'] out'] & E & H). apply bind_ok in H. destruct H as (rest & E2 & H). injection H as <-.
    rewrite final_cons. cbn [fst snd]. rewrite (IH c' rest); [eapply next_lt; [|exact E]; lia| |exact E2].
    destruct (Z.ltb_spec (p_step C c) 11) as [Hs|Hs].
    + assert (Q : 0 <= p_step C c < 11) by lia. pose proof (peer_forward C _ _ _ _ _ _ _ Q E). lia.
    + destruct (peer_stays_done C e c input out Hs) as (c2 & E' & Hc). rewrite E' in E. injection E as <- <- <-. lia.
Qed.

(** the first call: on success the message, its signature by the long-term key, and the erased key *)
Theorem key_used_once (HC : crypto_ok C) c0 e input out c1 w calls outs : zlen (p_sid C c0) = 32 -> p_step C c0 = 0 -> is_u64 (pe_s e 0) ->
  peer_next C e c0 input out = Ok (0, c1, w) -> peer_run C c1 calls = Ok outs ->
  p_lt_sk C (final c1 outs) = zeros 64 /\
  exists m, w = m ++ sig_sign S (p_lt_sk C c0) m /\ signed S (sig_pk S (p_sk C c1)) (p_sid C c0) 2 (p_index C c1) 255 (pe_s e 0) (sig_pk S (p_sk C c1) ++ nz_pk (cN C) (p_noise_sk C c1)) m.
Proof.
  intros Hsid H0 Hts H R. assert (S1 : 0 < p_step C c1) by (assert (Q : 0 <= p_step C c0 < 11) by lia; pose proof (peer_forward C _ _ _ _ _ _ _ Q H); lia).
  rewrite (run_lt calls c1 outs S1 R). rewrite (peer_next_0 C) in H by exact H0. apply pfinish_inv in H. destruct H as (p & H & ->).
  cbn [Z.eqb p_lt_sk p_sk p_index p_noise_sk peer_step_set]. unfold peer_step23 in H.
  destruct (zlen input =? _); cbn [negb] in H; [|discriminate]. destruct (Z.eqb_spec (zlen out) (msg2_SIZE + sign_BYTES)) as [Zo|]; cbn [negb] in H; [|discriminate].
  apply bind_ok in H. destruct H as (b & _ & H). cbn zeta in H. apply bind_ok in H. destruct H as ((ret & c) & Er & H). apply peer_recv_tp_inv in Er. destruct Er as (last & Hr & ->).
  destruct (Z.eqb_spec ret 0) as [->|]; cbn [negb] in H; [|apply recv_codes in Hr; injection H as ? ? ?; lia].
  destruct (_ || _); [discriminate|]. cbn [p_sid peer_tp_last_set p_lt_sk] in H.
  apply bind_ok in H. destruct H as (o1 & W1 & H). apply bind_ok in H. destruct H as (o2 & W2 & H). apply bind_ok in H. destruct H as (o3 & Hs & H).
  apply bind_ok in H. destruct H as (m & Rm & H). apply bind_ok in H. destruct H as (o4 & W3 & H). injection H as <- <-. split; [reflexivity|].
  set (b1 := sig_pk S (pe_sk e)) in *. set (b2 := nz_pk (cN C) (pe_nsk e)) in *.
  assert (Zb1 : zlen b1 = 32) by (unfold b1, zlen; rewrite (ok_sig_pk_len S (ok_cS C HC)); reflexivity).
  assert (Zb2 : zlen b2 = 32) by (unfold b2; apply (ok_nz_pk_len (cN C) (ok_cN C HC))).
  change hdr_SIZE with 111 in *. change msg2_SIZE with 175 in *. change sign_BYTES with 64 in *.
  assert (Em : m = mk_msg S (p_sid C c0) (pe_sk e) 2 (bz b) 255 (pe_s e 0) (b1 ++ b2)).
  { assert (W12 : exists j0 j1 post, out = j0 ++ j1 ++ post /\ zlen j0 = 111 /\ zlen j1 = 64 /\ zlen post = 64).
    { exists (firstn 111 out), (firstn 64 (skipn 111 out)), (skipn 64 (skipn 111 out)). rewrite !firstn_skipn. split; [reflexivity|]. unfold zlen in *. rewrite !firstn_length, !skipn_length. lia. }
    destruct W12 as (j0 & j1 & post & -> & L0 & L1 & L2).
    assert (E1 : exists j2 j3, j1 = j2 ++ j3 /\ zlen j2 = 32 /\ zlen j3 = 32). { exists (firstn 32 j1), (skipn 32 j1). rewrite firstn_skipn. split; [reflexivity|]. unfold zlen in *. rewrite firstn_length, skipn_length. lia. }
    destruct E1 as (j2 & j3 & -> & L3 & L4). rewrite <- app_assoc, (wr_mid j0 j2) in W1 by lia. injection W1 as <-.
    replace (j0 ++ b1 ++ j3 ++ post) with ((j0 ++ b1) ++ j3 ++ post) in W2 by (rewrite <- !app_assoc; reflexivity).
    rewrite wr_mid in W2 by (rewrite ?zlen_app; lia). injection W2 as <-.
    replace ((j0 ++ b1) ++ b2 ++ post) with ([] ++ j0 ++ (b1 ++ b2) ++ post) in Hs by (cbn [app]; rewrite <- !app_assoc; reflexivity).
    rewrite (send_mk S (ok_cS C HC) _ Hsid) in Hs; [|reflexivity|exact L0|rewrite zlen_app; lia|exact Hts]. injection Hs as <-. cbn [app] in Rm.
    rewrite rd_first in Rm; [congruence|]. rewrite (zlen_mk S (ok_cS C HC) _ Hsid), zlen_app. lia. }
  exists m. split.
  - pose proof (rd_inv _ _ _ _ Rm) as (_ & _ & Q1 & Q2 & Em2). pose proof (wr_inv _ _ _ _ W3) as (_ & Q3 & ->).
    assert (Zs : zlen (sig_sign S (p_lt_sk C c0) m) = 64) by (apply sig_zlen; apply (ok_cS C HC)).
    assert (Zo3 : zlen o3 = 239).
    { assert (zlen o3 = zlen out); [|lia]. rewrite <- (wr_zlen _ _ _ _ W1), <- (wr_zlen _ _ _ _ W2). destruct (send_safe C HC o2 0 175 2 (bz b) 255 (pe_sk e) (p_sid C c0) (pe_s e 0)) as (o5 & E5 & Z5); [lia|rewrite (wr_zlen _ _ _ _ W2), (wr_zlen _ _ _ _ W1); lia|exact Hsid|]. rewrite E5 in Hs. injection Hs as <-. exact Z5. }
    rewrite Zs. change (Z.to_nat (175 + 64)) with 239%nat. rewrite skipn_all2 by (unfold zlen in *; lia). rewrite app_nil_r. f_equal. rewrite Em2. reflexivity.
  - cbn [p_sk p_index p_noise_sk peer_keys_set]. fold b1 b2. rewrite Em. apply (signed_mk S (ok_cS C HC)). exact Hts.
Qed.

(** if the first call fails the key stays where it is *)
Theorem key_kept_on_error c0 e input out ret c1 w calls outs : p_step C c0 = 0 -> peer_next C e c0 input out = Ok (ret, c1, w) -> ret <> 0 ->
  peer_run C c1 calls = Ok outs -> p_lt_sk C (final c1 outs) = p_lt_sk C c0.
Proof.
  intros H0 H Hr R. assert (S1 : 0 < p_step C c1) by (assert (Q : 0 <= p_step C c0 < 11) by lia; pose proof (peer_forward C _ _ _ _ _ _ _ Q H); lia).
  rewrite (run_lt calls c1 outs S1 R). rewrite (peer_next_0 C) in H by exact H0. apply pfinish_inv in H. destruct H as (p & H & ->).
  cbn [p_lt_sk peer_step_set]. unfold peer_step23 in H. inv H; try solve [easy_lt]. contradiction.
Qed.
End KEY.
