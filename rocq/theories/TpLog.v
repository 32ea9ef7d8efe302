(** C49: the influence of logging. *)
From Coq Require Import ZArith Lia List Bool.
From Coq.Strings Require Import Byte.
From Verif Require Import Bytes Res Mem Sodium WireModel WireSpec TpCrypto TpModel PeerModel.
From Verif Require Import TpFrame PeerFrame TpSpec SafeSpec TpContent TpControl TpAgree.
Import ListNotations.
Open Scope list_scope.
Open Scope Z_scope.

Section LOG.
Variable C : crypto.
Notation peer := (peer C).

Lemma tp_log_other r s c input out : t_step c <> 2 -> t_step c <> 3 ->
  tp_next C (mkEnv true r s) c input out = tp_next C (mkEnv false r s) c input out.
Proof.
  intros H2 H3. revert H2 H3. generalize (eq_refl (t_step c)).
  destruct (Z.eq_dec (t_step c) 0) as [E|N0]; [intros; rewrite !tp_next_0 by assumption; reflexivity|].
  destruct (Z.eq_dec (t_step c) 1) as [E|N1]; [intros; rewrite !tp_next_1 by assumption; reflexivity|].
  destruct (Z.eq_dec (t_step c) 4) as [E|N4]; [intros; rewrite !tp_next_4 by assumption; reflexivity|].
  destruct (Z.eq_dec (t_step c) 5) as [E|N5]; [intros; rewrite !tp_next_5 by assumption; reflexivity|].
  destruct (Z.eq_dec (t_step c) 6) as [E|N6]; [intros; rewrite !tp_next_6 by assumption; reflexivity|].
  destruct (Z.eq_dec (t_step c) 7) as [E|N7]; [intros; rewrite !tp_next_7 by assumption; reflexivity|].
  destruct (Z.eq_dec (t_step c) 8) as [E|N8]; [intros; rewrite !tp_next_8 by assumption; reflexivity|].
  destruct (Z.eq_dec (t_step c) 9) as [E|N9]; [intros; rewrite !tp_next_9 by assumption; reflexivity|].
  intros. rewrite !tp_next_other by lia. reflexivity.
Qed.

Lemma body68_off r s input k st x : tp_step68_body C (mkEnv false r s) input k st = Ok x -> tp_step68_body C (mkEnv true r s) input k st = Ok x.
Proof.
  unfold tp_step68_body. cbn [e_log e_r]. destruct st as [[c o] w]. destruct (getz _ _); cbn [bind]; [|discriminate].
  destruct (tp_recv _ _ _ _ _ _ _ _ _ _ _) as [[? ?]|]; cbn [bind]; [|discriminate]. destruct (negb _); [|auto]. destruct (add_cheater _ _ _ _ _); [discriminate|auto].
Qed.
Lemma loop_mono {I X} (f g : I -> X -> res (ctl X)) : (forall i s x, f i s = Ok x -> g i s = Ok x) -> forall l s x, loopM f l s = Ok x -> loopM g l s = Ok x.
Proof.
  intros H l. induction l as [|i l IH]; intros s x E; cbn [loopM] in *; [exact E|]. apply bind_ok in E. destruct E as (r & E1 & E2). rewrite (H _ _ _ E1). cbn [bind].
  destruct r; auto.
Qed.

(** what a call does without logging it does with logging *)
Lemma tp_log_off r s c input out x : tp_next C (mkEnv false r s) c input out = Ok x -> tp_next C (mkEnv true r s) c input out = Ok x.
Proof.
  intros H. destruct (Z.eq_dec (t_step c) 2) as [E|N2]; [|destruct (Z.eq_dec (t_step c) 3) as [E|N3]; [|rewrite tp_log_other by assumption; exact H]].
  - rewrite tp_next_2 in * by assumption. unfold tp_finish_step in *. apply bind_ok in H. destruct H as (y & H & H'). unfold tp_step68 in *.
    destruct (negb _); [injection H as <-; exact H'|]. destruct (negb _); [injection H as <-; exact H'|]. apply bind_ok in H. destruct H as (z & H & H2).
    apply (loop_mono _ (tp_step68_body C (mkEnv true r s) input)) in H; [|intros; apply body68_off; assumption]. rewrite H. cbn [bind]. rewrite H2. cbn [bind]. exact H'.
  - rewrite tp_next_3 in * by assumption. unfold tp_finish_step in *. apply bind_ok in H. destruct H as (y & H & H'). unfold tp_step68 in *.
    destruct (negb _); [injection H as <-; exact H'|]. destruct (negb _); [injection H as <-; exact H'|]. apply bind_ok in H. destruct H as (z & H & H2).
    apply (loop_mono _ (tp_step68_body C (mkEnv true r s) input)) in H; [|intros; apply body68_off; assumption]. rewrite H. cbn [bind]. rewrite H2. cbn [bind]. exact H'.
Qed.

Definition nch (st : tp * bytes * Z) : Z := zlen (t_cheaters (fst (fst st))).
Lemma body68_on r s input k st x : tp_step68_body C (mkEnv true r s) input k st = Ok x ->
  nch st <= nch (ctl_state x) /\ (nch (ctl_state x) = nch st -> tp_step68_body C (mkEnv false r s) input k st = Ok x).
Proof.
  unfold tp_step68_body. cbn [e_log e_r]. destruct st as [[c o] w]. destruct (getz _ _); cbn [bind]; [|discriminate].
  destruct (tp_recv _ _ _ _ _ _ _ _ _ _ _) as [[ret c1]|] eqn:E; cbn [bind]; [|discriminate].
  assert (Ec : t_cheaters c1 = t_cheaters c). { apply tp_recv_inv in E. destruct E as (? & ? & ? & _ & _ & _ & ->). reflexivity. }
  destruct (negb _).
  - destruct (add_cheater _ _ _ _ _) eqn:A.
    + intros H. injection H as <-. unfold nch. cbn [ctl_state fst]. apply add_cheater_inv in A. destruct A as (_ & ->). cbn [tp_cheaters_set t_cheaters]. rewrite Ec, zlen_app. match goal with |- context [zlen [?y]] => change (zlen [y]) with 1 end.
      split; lia.
    + intros H. injection H as <-. unfold nch. cbn [ctl_state fst]. rewrite Ec. split; [lia|reflexivity].
  - intros H. split; [|intros _; exact H]. apply bind_ok in H. destruct H as (? & _ & H). apply bind_ok in H. destruct H as (? & _ & H). injection H as <-.
    unfold nch. cbn [ctl_state fst]. rewrite Ec. lia.
Qed.
Lemma loop68_on r s input l : forall st x, loopM (tp_step68_body C (mkEnv true r s) input) l st = Ok x ->
  nch st <= nch (ctl_state x) /\ (nch (ctl_state x) = nch st -> loopM (tp_step68_body C (mkEnv false r s) input) l st = Ok x).
Proof.
  induction l as [|i l IH]; intros st x E; cbn [loopM] in *; [injection E as <-; cbn; split; [lia|reflexivity]|].
  apply bind_ok in E. destruct E as (y & E1 & E2). apply body68_on in E1. destruct E1 as (A1 & A2). destruct y as [s1|code s1]; cbn [ctl_state] in *.
  - apply IH in E2. destruct E2 as (B1 & B2). split; [lia|]. intros H. rewrite A2 by lia. cbn [bind]. apply B2. lia.
  - injection E2 as <-. cbn [ctl_state]. split; [exact A1|]. intros H. rewrite A2 by assumption. reflexivity.
Qed.
Lemma step68_on r s c input out ret c' out' : tp_step68 C (mkEnv true r s) c input out = Ok (ret, c', out') -> zlen (t_cheaters c') = zlen (t_cheaters c) ->
  tp_step68 C (mkEnv false r s) c input out = Ok (ret, c', out').
Proof.
  unfold tp_step68. intros H Hc. destruct (negb _); [exact H|]. destruct (negb _); [exact H|]. apply bind_ok in H. destruct H as (z & H & H2).
  apply loop68_on in H. destruct H as (_ & H). destruct z as [[[c1 o1] w1]|code [[c1 o1] w1]]; unfold nch in H; cbn [ctl_state fst] in H.
  - rewrite H by (injection H2 as _ -> _; exact Hc). exact H2.
  - rewrite H by (injection H2 as _ -> _; exact Hc). exact H2.
Qed.
(** with logging, and no cheater added: the same without logging *)
Lemma tp_log_on r s c input out ret c' out' : tp_next C (mkEnv true r s) c input out = Ok (ret, c', out') -> t_cheaters c' = t_cheaters c ->
  tp_next C (mkEnv false r s) c input out = Ok (ret, c', out').
Proof.
  intros H Hc. destruct (Z.eq_dec (t_step c) 2) as [E|N2]; [|destruct (Z.eq_dec (t_step c) 3) as [E|N3]; [|rewrite <- tp_log_other by assumption; exact H]].
  - rewrite tp_next_2 in * by assumption. unfold tp_finish_step in *. apply bind_ok in H. destruct H as (((r1 & c1) & o1) & H & H'). injection H' as <- <- <-.
    cbn in Hc. rewrite (step68_on _ _ _ _ _ _ _ _ H) by (rewrite Hc; reflexivity). reflexivity.
  - rewrite tp_next_3 in * by assumption. unfold tp_finish_step in *. apply bind_ok in H. destruct H as (((r1 & c1) & o1) & H & H'). injection H' as <- <- <-.
    cbn in Hc. rewrite (step68_on _ _ _ _ _ _ _ _ H) by (rewrite Hc; reflexivity). reflexivity.
Qed.

(** ** Peers *)
Lemma peer_log_other b e c input out : p_step C c <> 3 -> peer_next C (with_log b e) c input out = peer_next C e c input out.
Proof.
  intros H3. destruct e as [l r s a1 a2 a3 a4 a5 a6]. unfold with_log. cbn [pe_r pe_s pe_sk pe_nsk pe_ri pe_rr pe_lock pe_a].
  destruct (Z.eq_dec (p_step C c) 0) as [E|N0]; [intros; rewrite !peer_next_0 by assumption; reflexivity|].
  destruct (Z.eq_dec (p_step C c) 1) as [E|N1]; [intros; rewrite !peer_next_1 by assumption; reflexivity|].
  destruct (Z.eq_dec (p_step C c) 2) as [E|N2]; [intros; rewrite !peer_next_2 by assumption; reflexivity|].
  destruct (Z.eq_dec (p_step C c) 4) as [E|N4]; [intros; rewrite !peer_next_4 by assumption; reflexivity|].
  destruct (Z.eq_dec (p_step C c) 5) as [E|N5]; [intros; rewrite !peer_next_5 by assumption; reflexivity|].
  destruct (Z.eq_dec (p_step C c) 6) as [E|N6]; [intros; rewrite !peer_next_6 by assumption; reflexivity|].
  destruct (Z.eq_dec (p_step C c) 7) as [E|N7]; [intros; rewrite !peer_next_7 by assumption; reflexivity|].
  destruct (Z.eq_dec (p_step C c) 8) as [E|N8]; [intros; rewrite !peer_next_8 by assumption; reflexivity|].
  destruct (Z.eq_dec (p_step C c) 9) as [E|N9]; [intros; rewrite !peer_next_9 by assumption; reflexivity|].
  destruct (Z.eq_dec (p_step C c) 10) as [E|N10]; [intros; rewrite !peer_next_10 by assumption; reflexivity|].
  unfold peer_next. rewrite !match_default10 by lia. reflexivity.
Qed.


Lemma body911_log b e input i c : (forall s d, getz (p_outs C c) i = Ok (Live s) -> p_dev C c = Some d -> nz_peer_known (cN C) d s = true) ->
  peer_step911_body C (with_log b e) input i c = peer_step911_body C e input i c.
Proof.
  intros K. unfold peer_step911_body, with_log. cbn [pe_log pe_r].
  destruct (getz (p_pks C c) i) as [pk|]; cbn [bind]; [|reflexivity].
  destruct (peer_recv _ _ _ _ _ _ _ _ _ _ _) as [[ret c1]|] eqn:E; cbn [bind]; [|reflexivity].
  destruct (negb _); [reflexivity|]. destruct (rd _ _ _) as [msg|]; cbn [bind]; [|reflexivity].
  assert (Eo : p_outs C c1 = p_outs C c /\ p_dev C c1 = p_dev C c).
  { apply peer_recv_inv in E. destruct E as (? & ? & ? & _ & _ & _ & ->). split; reflexivity. }
  destruct Eo as (-> & ->). destruct (getz (p_outs C c) i) as [sl|] eqn:Es; cbn [bind]; [|reflexivity].
  destruct (p_dev C c) as [d|] eqn:Ed; cbn [bind of_opt]; [|reflexivity].
  unfold finish_noise. destruct sl; try reflexivity. rewrite (K _ _ eq_refl eq_refl). cbn [negb]. rewrite !andb_false_r. reflexivity.
Qed.
Lemma loop911_log b e input n : forall a c, 0 <= a ->
  (forall i s d, a <= i -> getz (p_outs C c) i = Ok (Live s) -> p_dev C c = Some d -> nz_peer_known (cN C) d s = true) ->
  loopM (peer_step911_body C (with_log b e) input) (zrange a n) c = loopM (peer_step911_body C e input) (zrange a n) c.
Proof.
  induction n as [|n IH]; intros a c Ha K; [reflexivity|]. rewrite !zrange_S. cbn [loopM]. rewrite body911_log by (intros; eapply K; eauto; lia).
  destruct (peer_step911_body C e input a c) as [x|] eqn:E; cbn [bind]; [|reflexivity]. destruct x as [c1|]; [|reflexivity].
  apply IH; [lia|]. intros i s d Hi Hg Hd. unfold peer_step911_body in E.
  apply bind_ok in E. destruct E as (pk & _ & E). apply bind_ok in E. destruct E as ((ret & c2) & Er & E).
  destruct (negb _); [discriminate|]. apply bind_ok in E. destruct E as (msg & _ & E). apply bind_ok in E. destruct E as (sl & _ & E).
  apply bind_ok in E. destruct E as (d0 & _ & E). apply bind_ok in E. destruct E as (sl' & _ & E). apply bind_ok in E. destruct E as (outs & U & E). injection E as <-.
  apply peer_recv_inv in Er. destruct Er as (? & ? & ? & _ & _ & _ & ->). cbn in Hg, Hd, U. apply (K i s d); [lia| |exact Hd].
  rewrite <- Hg. rewrite (proj2 (proj2 (updz_inv _ _ _ _ U))). destruct (Z.eqb_spec i a); [lia|reflexivity].
Qed.
Lemma peer_log_known b e c input out : p_step C c <> 3 \/ outs_known C c -> peer_next C (with_log b e) c input out = peer_next C e c input out.
Proof.
  intros [N|K]; [apply peer_log_other; exact N|]. destruct (Z.eq_dec (p_step C c) 3) as [E|N]; [|apply peer_log_other; exact N].
  rewrite !peer_next_3 by assumption. f_equal. unfold peer_step911. destruct (negb _); [reflexivity|]. destruct (negb _); [reflexivity|].
  rewrite loop911_log; [|lia|intros i s d _; apply K]. reflexivity.
Qed.
End LOG.
