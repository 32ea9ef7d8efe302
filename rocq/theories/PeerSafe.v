(** C33: which calls of a peer stay inside its buffers and use its secure-channel sessions properly. *)
From Coq Require Import ZArith Lia List Bool.
From Coq.Strings Require Import Byte.
From Verif Require Import Bytes Res Mem Sodium ToprfModel ToprfSpec DkgModel DkgSpec DkgProofs WireModel WireSpec WireProofs TpCrypto TpModel PeerModel.
From Verif Require Import TpFrame PeerFrame TpSpec TpMsg TpContent TpComplaints PeerContent TpControl TpAgree SafeSpec TpSafe.
Import ListNotations.
Open Scope list_scope.
Open Scope Z_scope.

Lemma loop_rel {I X} (R : X -> X -> Prop) (f : I -> X -> res (ctl X)) l s r :
  (forall a, R a a) -> (forall a b c, R a b -> R b c -> R a c) ->
  (forall i s r, f i s = Ok r -> R s (ctl_state r)) -> loopM f l s = Ok r -> R s (ctl_state r).
Proof.
  intros Rr Rt Hf H. pose proof (loopM_inv f (R s) (fun _ => R s) l s r) as Q.
  assert (HH : match r with Next s2 => R s s2 | Return _ s2 => R s s2 end).
  { apply Q; [apply Rr| |assumption]. intros i s1 c1 _ H1 E. apply Hf in E. destruct c1; cbn in *; eapply Rt; eassumption. }
  destruct r; assumption.
Qed.

Section SAFE.
Variable C : crypto.
Notation peer := (peer C).
Notation N := (cN C).

(** ** The life of a session *)
Definition initiated (s : nz_sess N) : Prop := exists d id r s0 m1, nz_initiator N d id r = Some s0 /\ nz_write N s0 [] = (s, Some m1).
Definition finished (s : nz_sess N) : Prop := exists s1 m2 p2, initiated s1 /\ nz_read N s1 m2 = (s, Some p2).
Definition responded (s : nz_sess N) : Prop := exists d r s0 m1 s1 p1 m2, zlen m1 = 48 /\ nz_responder N d r = Some s0 /\
  nz_read N s0 m1 = (s1, Some p1) /\ nz_write N s1 [] = (s, Some m2).
Definition keyed (s : nz_sess N) : Prop := exists k, nz_key N s = Some k /\ zlen k = 32.
Definition slots (P : nz_sess N -> Prop) (l : list (slot (nz_sess N))) : Prop := forall j s, getz l j = Ok (Live s) -> P s.

Lemma slots_upd P l i sl l' : updz l i sl = Ok l' -> slots P l -> (forall s, sl = Live s -> P s) -> slots P l'.
Proof.
  intros U H Hs j s G. apply updz_inv in U. destruct U as (_ & _ & U). rewrite U in G. destruct (j =? i); [injection G as G; auto|eapply H; exact G].
Qed.

Lemma init_slot d sl name rpk rand d' sl' m : init_noise C d sl name rpk rand = (d', sl', m) ->
  (forall s, sl' = Live s -> sl = Live s \/ initiated s) /\ (forall x, m = Some x -> zlen x = 48).
Proof.
  unfold init_noise. destruct (nz_add_peer _ _ _ _) as [[d1 id]|]; [|intros E; injection E as <- <- <-; split; [auto|discriminate]].
  destruct (nz_initiator _ _ _ _) as [s|] eqn:Ei; [|intros E; injection E as <- <- <-; split; discriminate].
  destruct (nz_write _ _ _) as [s' [m0|]] eqn:Ew; [|intros E; injection E as <- <- <-; split; discriminate].
  destruct (zlen m0 =? hs1_SIZE) eqn:El; intros E; injection E as <- <- <-; [|split; discriminate].
  apply Z.eqb_eq in El. split; [|intros x Ex; injection Ex as <-; exact El].
  intros s1 E1. injection E1 as <-. right. exists d1, id, rand, s, m0. auto.
Qed.
Lemma respond_slot d inmsg rand sl m : respond_noise C d inmsg rand = (sl, m) -> zlen inmsg = 48 ->
  (forall s, sl = Live s -> responded s) /\ (forall x, m = Some x -> zlen x = 48).
Proof.
  unfold respond_noise. intros E Hi. destruct (nz_responder _ _ _) as [s|] eqn:Er; [|injection E as <- <-; split; discriminate].
  destruct (nz_read _ _ _) as [s1 [p1|]] eqn:Ed; [|injection E as <- <-; split; discriminate].
  destruct (nz_write _ _ _) as [s2 [m0|]] eqn:Ew; [|injection E as <- <-; split; discriminate].
  destruct (zlen m0 =? hs2_SIZE) eqn:El; injection E as <- <-; [|split; discriminate].
  apply Z.eqb_eq in El. split; [|intros x Ex; injection Ex as <-; exact El].
  intros s3 E3. injection E3 as <-. exists d, rand, s, inmsg, s1, p1, m0. auto.
Qed.
Lemma finish_slot log d sl msg sl' : finish_noise C log d sl msg = Ok sl' -> (forall s, sl = Live s -> initiated s) -> forall s, sl' = Live s -> finished s.
Proof.
  unfold finish_noise. intros H Hi s ->. inv H. exists s0, msg, l. split; [auto|assumption].
Qed.
(** both writes of step 13 *)
Lemma encrypt_ok sl input len sl' m : noise_encrypt C sl input len = Ok (0, sl', m) ->
  exists s s', sl = Live s /\ sl' = Live s' /\ nz_write N s input = (s', Some m) /\ zlen m = len.
Proof.
  unfold noise_encrypt. intros H. inv H. match goal with Q : (zlen _ =? _) = true |- _ => apply Z.eqb_eq in Q end. do 2 eexists. repeat split; eassumption.
Qed.
Lemma decrypt_ok sl input len sl' m : noise_decrypt C sl input len = Ok (0, sl', m) ->
  exists s s', sl = Live s /\ sl' = Live s' /\ nz_read N s input = (s', Some m) /\ zlen m = len.
Proof.
  unfold noise_decrypt. intros H. inv H. match goal with Q : (zlen _ =? _) = true |- _ => apply Z.eqb_eq in Q end. do 2 eexists. repeat split; eassumption.
Qed.
Hypothesis HN : noise_ok N.
Lemma write_twice s1 s2 s3 m c p : finished s1 -> nz_write N s1 [] = (s2, Some m) -> nz_write N s2 p = (s3, Some c) -> keyed s3.
Proof.
  intros (s0 & m2 & p2 & (d & id & r & s & m1 & A1 & A2) & A3) W1 W2. destruct (ok_nz_key_initiator N HN _ _ _ _ _ _ _ _ _ _ _ _ _ _ A1 A2 A3 W1 W2) as (k & K1 & K2 & _). exists k. auto.
Qed.
Lemma read_once s1 s2 m p : responded s1 -> nz_read N s1 m = (s2, Some p) -> keyed s2.
Proof.
  intros (d & r & s0 & m1 & s & p1 & m2 & A0 & A1 & A2 & A3) R. destruct (ok_nz_key_responder N HN _ _ _ _ _ _ _ _ _ _ _ A0 A1 A2 A3 R) as (k & K1 & K2 & _). exists k. auto.
Qed.

(** ** What holds at every point of a history *)
(** the complaints against the peer itself *)
Definition mine (n : Z) (c : peer) : Prop := Forall (fun x => 1 <= x <= n) (p_my C c) /\ (p_complaints C c = [] -> p_my C c = []).
Record pinv (c : peer) : Prop := mkPinv {
  i_wf : peer_wf C c;
  i_none : p_step C c <= 6 -> p_complaints C c = [] /\ p_my C c = [];
  i_index : 1 <= p_step C c <= 10 -> 1 <= p_index C c <= 128;
  i_dev : 2 <= p_step C c <= 3 -> exists d, p_dev C c = Some d;
  i_init : p_step C c <= 3 -> slots initiated (p_outs C c);
  i_fin : p_step C c = 4 -> slots finished (p_outs C c);
  i_key : 5 <= p_step C c <= 11 -> forall j, 0 <= j < p_n C c -> exists s, getz (p_outs C c) j = Ok (Live s) /\ keyed s;
  i_resp : p_step C c <= 5 -> slots responded (p_ins C c);
  i_live : 6 <= p_step C c <= 11 -> forall j, 0 <= j < p_n C c -> exists s, getz (p_ins C c) j = Ok (Live s);
  i_my : p_step C c = 7 -> mine (p_n C c) c
}.

Lemma fresh_inv c : peer_fresh C c -> pinv c.
Proof.
  intros (W & S0 & Hc & Hm & Ho & Hi).
  assert (Q : forall P l, Forall (fun sl : slot (nz_sess N) => sl = Uninit \/ sl = Null) l -> slots P l).
  { intros P l F j s G. apply getz_In in G. apply (proj1 (Forall_forall _ _) F) in G. destruct G; discriminate. }
  constructor; try (intros; lia); auto.
Qed.

(** the parameters and buffer sizes *)
Lemma pwf_ext c c' : peer_wf C c -> p_ext C c c' -> Forall (fun row => zlen row = p_t C c) (p_com C c') -> peer_wf C c'.
Proof. intros [] [] R. constructor; try congruence; try lia. rewrite y_t. exact R. Qed.
Lemma pwf_step c s p : 0 <= s -> peer_wf C c -> peer_wf C (peer_step_set C c s p).
Proof. intros Hs []. constructor; auto. Qed.

(** ** One iteration of each loop *)
Ltac recvs := repeat match goal with
  | H : peer_recv _ _ _ _ _ _ _ _ _ _ _ = Ok (_, ?c') |- _ => apply peer_recv_inv in H; destruct H as (? & ? & ? & ? & ? & ? & H); subst c'
  | H : peer_recv_tp _ _ _ _ _ _ _ _ = Ok (_, ?c') |- _ => apply peer_recv_tp_inv in H; destruct H as (? & ? & H); subst c'
  end.

(** the fields that only some steps change *)
Definition kept (c c' : peer) : Prop := p_complaints C c' = p_complaints C c /\ p_my C c' = p_my C c.
Definition R5 (s s' : peer * bytes) : Prop := let c := fst s in let c' := fst s' in
  kept c c' /\ p_com C c' = p_com C c /\ p_ins C c' = p_ins C c /\ (slots initiated (p_outs C c) -> slots initiated (p_outs C c')) /\
  ((exists d, p_dev C c = Some d) -> exists d, p_dev C c' = Some d).
Lemma b5 e input i s r : peer_step5_body C e input i s = Ok r -> R5 s (ctl_state r).
Proof.
  destruct s as [c out]. unfold peer_step5_body, R5, kept. intros H. inv H; recvs; cbn [ctl_state fst snd p_complaints p_my p_com p_ins p_outs p_dev peer_last_set peer_pk_set peer_outs_set peer_dev_set] in *.
  - repeat split; auto.
  - repeat split; eauto. intros Hs. eapply slots_upd; [eassumption|exact Hs|].
    match goal with Q : init_noise _ _ _ _ _ _ = _ |- _ => apply init_slot in Q; destruct Q as (Q & _);
      intros s0 Es; destruct (Q s0 Es) as [->|]; [eapply Hs; eassumption|assumption] end.
Qed.
Definition R7 (s s' : peer * bytes) : Prop := let c := fst s in let c' := fst s' in
  kept c c' /\ p_com C c' = p_com C c /\ p_outs C c' = p_outs C c /\ p_dev C c' = p_dev C c /\ (slots responded (p_ins C c) -> slots responded (p_ins C c')).
Lemma b7 e input i s r : peer_step7_body C e input i s = Ok r -> R7 s (ctl_state r).
Proof.
  destruct s as [c out]. unfold peer_step7_body, R7, kept. intros H. inv H; recvs; cbn [ctl_state fst snd p_complaints p_my p_com p_ins p_outs p_dev peer_last_set peer_pk_set peer_ins_set peer_outs_set peer_dev_set] in *.
  - repeat split; auto.
  - repeat split; eauto. intros Hs. eapply slots_upd; [eassumption|exact Hs|].
    match goal with Q : respond_noise _ _ _ _ = _ |- _ => apply respond_slot in Q; [destruct Q as (Q & _); exact Q|] end.
    match goal with Q : rd _ _ hs1_SIZE = _ |- _ => apply rd_inv in Q; apply Q end.
Qed.
Definition R911 (c c' : peer) : Prop := kept c c' /\ p_com C c' = p_com C c /\ p_ins C c' = p_ins C c /\ p_dev C c' = p_dev C c.
Lemma b911 e input i c r : peer_step911_body C e input i c = Ok r -> R911 c (ctl_state r).
Proof.
  unfold peer_step911_body, R911, kept. intros H. inv H; recvs; cbn [ctl_state fst snd p_complaints p_my p_com p_ins p_outs p_dev peer_last_set peer_pk_set peer_ins_set peer_outs_set peer_dev_set] in *; repeat split; auto.
Qed.
(** sessions before [i] satisfy [P], the others [Q] *)
Definition upto (P Q : nz_sess N -> Prop) (i : Z) (l : list (slot (nz_sess N))) : Prop := forall j s, getz l j = Ok (Live s) -> if j <? i then P s else Q s.
Lemma upto_0 (P Q : nz_sess N -> Prop) l : slots Q l -> upto P Q 0 l.
Proof. intros H j s G. pose proof (getz_inv _ _ _ G) as (G0 & _). destruct (Z.ltb_spec j 0); [lia|]. eapply H; exact G. Qed.
Lemma upto_end (P Q : nz_sess N -> Prop) k l : zlen l <= k -> upto P Q k l -> slots P l.
Proof. intros Hk H j s G. pose proof (getz_inv _ _ _ G) as (G0 & _). specialize (H j s G). destruct (Z.ltb_spec j k); [exact H|lia]. Qed.
Lemma upto_upd (P Q : nz_sess N -> Prop) l i sl l' : updz l i sl = Ok l' -> upto P Q i l -> (forall s, sl = Live s -> P s) -> upto P Q (i + 1) l'.
Proof.
  intros U H Hs j s G. apply updz_inv in U. destruct U as (_ & _ & U). rewrite U in G. destruct (Z.eqb_spec j i).
  - injection G as G. subst j. destruct (Z.ltb_spec i (i + 1)); [auto|lia].
  - specialize (H j s G). destruct (Z.ltb_spec j i), (Z.ltb_spec j (i + 1)); try lia; assumption.
Qed.
Lemma b911_next e input i c c' : peer_step911_body C e input i c = Ok (Next c') -> upto finished initiated i (p_outs C c) -> upto finished initiated (i + 1) (p_outs C c').
Proof.
  unfold peer_step911_body. intros H U. inv H; recvs. cbn [p_outs peer_last_set peer_outs_set p_dev] in *. eapply upto_upd; [eassumption|exact U|].
  eapply finish_slot; [eassumption|]. intros s ->. match goal with G : getz _ i = Ok (Live s) |- _ => specialize (U i s G) end.
  destruct (Z.ltb_spec i i); [lia|exact U].
Qed.
Definition R13 (s s' : peer * bytes) : Prop := let c := fst s in let c' := fst s' in
  kept c c' /\ p_ins C c' = p_ins C c /\ p_t C c' = p_t C c /\ (0 <= p_t C c -> Forall (fun row => zlen row = p_t C c) (p_com C c) -> Forall (fun row => zlen row = p_t C c) (p_com C c')).
Lemma b13 e input i s r : peer_step13_body C e input i s = Ok r -> R13 s (ctl_state r).
Proof.
  destruct s as [c out]. unfold peer_step13_body, R13, kept. intros H. inv H; recvs;
    cbn [ctl_state fst snd p_complaints p_my p_com p_ins p_outs p_dev p_t peer_last_set peer_pk_set peer_ins_set peer_outs_set peer_dev_set peer_com_set] in *; repeat split; auto;
    intros Ht F; (eapply updz_Forall; [eassumption|apply rows_zlen; exact Ht|exact F]).
Qed.
(** every session before [i] is live and satisfies [P], the others, if live, [Q] *)
Definition made (P Q : nz_sess N -> Prop) (i : Z) (l : list (slot (nz_sess N))) : Prop := forall j sl, getz l j = Ok sl ->
  if j <? i then exists s, sl = Live s /\ P s else forall s, sl = Live s -> Q s.
Lemma made_0 (P Q : nz_sess N -> Prop) l : slots Q l -> made P Q 0 l.
Proof. intros H j sl G. pose proof (getz_inv _ _ _ G) as (G0 & _). destruct (Z.ltb_spec j 0); [lia|]. intros s ->. eapply H; exact G. Qed.
Lemma made_upd (P Q : nz_sess N -> Prop) l i s l' : updz l i (Live s) = Ok l' -> made P Q i l -> P s -> made P Q (i + 1) l'.
Proof.
  intros U H Hs j sl G. apply updz_inv in U. destruct U as (_ & _ & U). rewrite U in G. destruct (Z.eqb_spec j i).
  - injection G as G. subst j. destruct (Z.ltb_spec i (i + 1)); [eauto|lia].
  - specialize (H j sl G). destruct (Z.ltb_spec j i), (Z.ltb_spec j (i + 1)); try lia; assumption.
Qed.
Lemma made_upd2 (P Q : nz_sess N -> Prop) l i sl l' s l2 : updz l i sl = Ok l' -> updz l' i (Live s) = Ok l2 -> made P Q i l -> P s -> made P Q (i + 1) l2.
Proof.
  intros U V H Hs. destruct (updz_inv _ _ _ _ U) as (Ui & Ul & U'). destruct (updz_some l i (Live s) Ui) as (l3 & E).
  assert (E' : l2 = l3).
  { apply updz_inv in E, V. destruct E as (_ & E1 & E2), V as (_ & V1 & V2). apply getz_ext; [lia|]. intros j Hj. rewrite E2, V2. destruct (j =? i) eqn:Ej; [reflexivity|]. rewrite U', Ej. reflexivity. }
  subst l3. eapply made_upd; eassumption.
Qed.
Lemma made_end P Q k l : zlen l <= k -> made P Q k l -> forall j, 0 <= j < zlen l -> exists s, getz l j = Ok (Live s) /\ P s.
Proof.
  intros Hk H j Hj. destruct (getz_some l j Hj) as (sl & G). specialize (H j sl G). destruct (Z.ltb_spec j k); [|lia]. destruct H as (s & -> & Hs). eauto.
Qed.
Lemma b13_next e input i c out c' out' : peer_step13_body C e input i (c, out) = Ok (Next (c', out')) -> made keyed finished i (p_outs C c) -> made keyed finished (i + 1) (p_outs C c').
Proof.
  unfold peer_step13_body. intros H U. inv H; recvs. cbn [p_outs peer_last_set peer_outs_set p_com peer_com_set p_shares] in *.
  repeat match goal with Q : negb (_ =? 0) = false |- _ => apply negb_false_iff, Z.eqb_eq in Q; subst end.
  repeat match goal with Q : noise_encrypt _ _ _ _ = _ |- _ => apply encrypt_ok in Q; destruct Q as (? & ? & ? & ? & ? & ?); subst end.
  match goal with Q : Live _ = Live _ |- _ => injection Q as Q; subst end.
  eapply made_upd2; [|eassumption|exact U|]; [eassumption|].
  match goal with G : getz (p_outs C c) i = Ok (Live ?s) |- _ => pose proof (U i _ G) as F end. destruct (Z.ltb_spec i i); [lia|].
  eapply write_twice; [apply F; reflexivity|eassumption|eassumption].
Qed.
Definition R15 (c c' : peer) : Prop := kept c c' /\ p_com C c' = p_com C c /\ p_outs C c' = p_outs C c.
Lemma b15 e input i c r : peer_step15_body C e input i c = Ok r -> R15 c (ctl_state r).
Proof.
  unfold peer_step15_body, R15, kept. intros H. inv H; recvs; cbn [ctl_state fst snd p_complaints p_my p_com p_ins p_outs p_dev peer_last_set peer_pk_set peer_ins_set peer_outs_set peer_dev_set peer_xshares_set] in *; repeat split; auto.
Qed.
Lemma b15_next e input i c c' : peer_step15_body C e input i c = Ok (Next c') -> made (fun _ => True) responded i (p_ins C c) -> made (fun _ => True) responded (i + 1) (p_ins C c').
Proof.
  unfold peer_step15_body. intros H U. inv H; recvs. cbn [p_ins p_xshares peer_last_set peer_ins_set peer_xshares_set] in *.
  repeat match goal with Q : negb (_ =? 0) = false |- _ => apply negb_false_iff, Z.eqb_eq in Q; subst end.
  repeat match goal with Q : noise_decrypt _ _ _ _ = _ |- _ => apply decrypt_ok in Q; destruct Q as (? & ? & ? & ? & ? & ?); subst end.
  eapply made_upd2; [|eassumption|exact U|exact I]; eassumption.
Qed.
Definition R17 (c c' : peer) : Prop := p_com C c' = p_com C c /\ p_outs C c' = p_outs C c /\ p_ins C c' = p_ins C c.
Lemma b17c input p i lim k c r : peer_step17_complaint C input p i lim k c = Ok r -> R17 c (ctl_state r) /\
  forall n, 0 <= i < n -> mine n c -> mine n (ctl_state r).
Proof.
  unfold peer_step17_complaint, R17. intros H. inv H; cbn [ctl_state p_com p_outs p_ins p_my peer_complaints_set peer_my_set] in *; (split; [auto|]); auto.
  - intros n Hi (F & _). unfold mine. cbn [p_my p_complaints peer_complaints_set peer_my_set]. split; [|intros Q; apply app_eq_nil in Q; destruct Q; discriminate]. apply Forall_app. split; [exact F|]. constructor; [lia|constructor].
  - intros n Hi (F & _). unfold mine. cbn [p_my p_complaints peer_complaints_set peer_my_set]. split; [exact F|intros Q; apply app_eq_nil in Q; destruct Q; discriminate].
Qed.
Lemma b17 e input i c r : peer_step17_body C e input i c = Ok r -> R17 c (ctl_state r) /\
  forall n, 0 <= i < n -> mine n c -> mine n (ctl_state r).
Proof.
  unfold peer_step17_body. intros H. inv H; recvs; try solve [unfold R17; cbn [ctl_state p_com p_outs p_ins p_my peer_last_set]; auto].
  eapply (loop_rel (fun c c' => R17 c c' /\ forall n, 0 <= i < n -> mine n c -> mine n c')) in H.
  - exact H.
  - unfold R17; auto.
  - unfold R17; intros a b d ((A1 & A2 & A3) & A4) ((B1 & B2 & B3) & B4). split; [repeat split; congruence|eauto].
  - intros k s r' Hk. eapply b17c; exact Hk.
Qed.

Lemma kept_refl c : kept c c. Proof. split; reflexivity. Qed.
Lemma kept_trans a b c : kept a b -> kept b c -> kept a c. Proof. unfold kept. intuition congruence. Qed.

(** ** One step *)
Ltac loop_in R lem := match goal with H : loopM _ _ _ = Ok _ |- _ => apply (loop_rel R) in H; [|unfold R, kept; intuition congruence| |intros; eapply lem; eassumption] end.
Lemma R5_trans a b c : R5 a b -> R5 b c -> R5 a c.
Proof.
  unfold R5. cbn zeta. intros (A1 & A2 & A3 & A4 & A5) (B1 & B2 & B3 & B4 & B5).
  split; [eapply kept_trans; eassumption|]. split; [congruence|]. split; [congruence|]. auto.
Qed.
Lemma s5 e c input out ret p out' : peer_step5 C e c input out = Ok (ret, p, out') ->
  R5 (peer_dev_set C c (p_dev C p), out) (p, out') /\ (ret = 0 -> exists d, p_dev C p = Some d).
Proof.
  unfold peer_step5. intros H. destruct (zlen input =? _); cbn [negb] in H; [|injection H as <- <- <-; split; [unfold R5, kept; cbn; auto|lia]].
  destruct (zlen out =? _); cbn [negb] in H; [|injection H as <- <- <-; split; [unfold R5, kept; cbn; auto|lia]].
  apply bind_ok in H. destruct H as ((rt & c1) & E1 & H). pose proof E1 as E1'. apply peer_recv_tp_inv in E1. destruct E1 as (last & Hr & ->).
  destruct (rt =? 0) eqn:Er; cbn [negb] in H.
  2:{ apply Z.eqb_neq in Er. apply recv_codes in Hr. injection H as <- <- <-. split; [unfold R5, kept; cbn; auto|lia]. }
  apply bind_ok in H. destruct H as (r & L & H). apply done_inv in H. destruct H as (D1 & D2 & _).
  apply (loop_rel R5) in L; [|unfold R5, kept; cbn; auto|exact R5_trans|intros; eapply b5; eassumption].
  destruct (ok_nz_create N HN (p_index C c) (p_noise_sk C c)) as (d & Ed & _).
  unfold R5 in L |- *. rewrite D1 in L. cbn [fst p_complaints p_my p_com p_ins p_outs p_dev peer_dev_set peer_transcript_set peer_tp_last_set] in *.
  unfold kept in *. cbn [p_complaints p_my p_com p_ins p_outs p_dev peer_dev_set peer_transcript_set peer_tp_last_set p_index p_noise_sk] in *.
  destruct L as (A1 & A2 & A3 & A4 & A5). split; [auto|]. intros _. apply A5. exists d. exact Ed.
Qed.
Lemma s7 e c input out ret p out' : peer_step7 C e c input out = Ok (ret, p, out') -> R7 (c, out) (p, out').
Proof.
  unfold peer_step7. intros H. inv H; try solve [unfold R7, kept; cbn; auto]. apply done_inv in H. destruct H as (D1 & D2 & _).
  match goal with L : loopM _ _ _ = _ |- _ => apply (loop_rel R7) in L; [|unfold R7, kept; cbn; auto| |intros; eapply b7; eassumption]; [unfold R7 in *; rewrite D1 in L; exact L|] end.
  unfold R7. cbn zeta. intros a b d (A1 & A2 & A3 & A4 & A5) (B1 & B2 & B3 & B4 & B5). split; [eapply kept_trans; eassumption|]. split; [congruence|]. split; [congruence|]. split; [congruence|]. auto.
Qed.
Lemma R911_trans a b c : R911 a b -> R911 b c -> R911 a c.
Proof. unfold R911. intros (A1 & A2 & A3 & A4) (B1 & B2 & B3 & B4). split; [eapply kept_trans; eassumption|]. repeat split; congruence. Qed.
Lemma code911 e input i c r c' : peer_step911_body C e input i c = Ok (Return r c') -> r <> 0.
Proof. unfold peer_step911_body. intros H. inv H; recvs. match goal with Q : recv_msg _ _ _ _ _ _ _ _ _ _ _ _ = _ |- _ => apply recv_codes in Q end. lia. Qed.
Lemma s911 e c input out ret p out' : zlen (p_outs C c) = p_n C c -> slots initiated (p_outs C c) -> peer_step911 C e c input out = Ok (ret, p, out') ->
  R911 c p /\ (ret = 0 -> slots finished (p_outs C p)).
Proof.
  intros Lo Hi. unfold peer_step911. intros H. destruct (zlen input =? _); cbn [negb] in H; [|injection H as <- <- <-; split; [unfold R911, kept; auto|lia]].
  destruct (zlen out =? _); cbn [negb] in H; [|injection H as <- <- <-; split; [unfold R911, kept; auto|lia]].
  apply bind_ok in H. destruct H as (r & L & H).
  pose proof (loop_rel R911 _ _ _ _ (fun a => conj (kept_refl a) (conj eq_refl (conj eq_refl eq_refl))) R911_trans (b911 e input) L) as RR.
  pose proof (ploop_ext C (fun c => c) _ _ _ _ (pext_step911_body C e input) L) as X.
  destruct r as [c1|code c1]; cbn [ctl_state] in *.
  - assert (F : slots finished (p_outs C c1)).
    { apply (upto_end finished initiated (Z.of_nat (Z.to_nat (p_n C c)))); [rewrite (y_outs C _ _ X); lia|].
      refine (next_loop (peer_step911_body C e input) (fun i s => upto finished initiated i (p_outs C s)) _ _ _ _ _ L); [apply upto_0; exact Hi|].
      intros i s1 s2 _ U E. eapply b911_next; eassumption. }
    inv H; [split; [exact RR|auto]|]. split; [exact RR|]. intros _. exact F.
  - injection H as <- <- <-. split; [exact RR|]. intros ->. exfalso.
    assert (HH : (fun r => r <> 0) 0); [|apply HH; reflexivity]. refine (loopM_code (fun r => r <> 0) _ _ _ _ _ _ L). intros x s r1 s2 E'. eapply code911; exact E'.
Qed.
Lemma R13_trans a b c : R13 a b -> R13 b c -> R13 a c.
Proof.
  unfold R13. cbn zeta. intros (A1 & A2 & A3 & A4) (B1 & B2 & B3 & B4). split; [eapply kept_trans; eassumption|]. split; [congruence|]. split; [congruence|].
  intros Ht F. rewrite <- A3. apply B4; rewrite A3; auto.
Qed.
Lemma code13 e input i c out r s : peer_step13_body C e input i (c, out) = Ok (Return r s) -> r <> 0.
Proof. unfold peer_step13_body. intros H. inv H; lia. Qed.
Lemma s13 e c input out ret p out' : zlen (p_outs C c) = p_n C c -> slots finished (p_outs C c) -> peer_step13 C e c input out = Ok (ret, p, out') ->
  R13 (c, out) (p, out') /\ (ret = 0 -> made keyed finished (p_n C c) (p_outs C p)).
Proof.
  intros Lo Hi. unfold peer_step13. intros H. destruct (zlen input =? _); cbn [negb] in H; [|injection H as <- <- <-; split; [unfold R13, kept; cbn; auto|lia]].
  destruct (zlen out =? _); cbn [negb] in H; [|injection H as <- <- <-; split; [unfold R13, kept; cbn; auto|lia]].
  apply bind_ok in H. destruct H as ((rt & c1) & E1 & H). apply peer_recv_tp_inv in E1. destruct E1 as (last & Hr & ->).
  destruct (rt =? 0) eqn:Er; cbn [negb] in H.
  2:{ apply Z.eqb_neq in Er. apply recv_codes in Hr. injection H as <- <- <-. split; [unfold R13, kept; cbn; auto|lia]. }
  apply bind_ok in H. destruct H as (r & L & H). apply done_inv in H. destruct H as (D1 & D2 & D3).
  split.
  - apply (loop_rel R13) in L; [|unfold R13, kept; cbn; auto|exact R13_trans|intros; eapply b13; eassumption].
    unfold R13 in *. rewrite D1 in L. cbn in *. exact L.
  - intros ->. destruct D3 as [(-> & _)| ->].
    + cbn [p_n peer_transcript_set peer_tp_last_set] in L.
      assert (HP : (fun i s => made keyed finished i (p_outs C (fst s))) (Z.of_nat (Z.to_nat (p_n C c))) (p, out')).
      { refine (next_loop (peer_step13_body C e input) (fun i (s : peer * bytes) => made keyed finished i (p_outs C (fst s))) _ _ _ _ _ L).
        - cbn. apply made_0. exact Hi.
        - intros i [c1 o1] [c2 o2] _ U E. cbn [fst] in *. eapply b13_next; eassumption. }
      cbn [fst] in HP. pose proof (zlen_nonneg (p_outs C c)). rewrite Z2Nat.id in HP by lia. exact HP.
    + exfalso. assert (HH : (fun r => r <> 0) 0); [|apply HH; reflexivity]. refine (loopM_code (fun r => r <> 0) _ _ _ _ _ _ L). intros x [a b] r1 s2 E'. eapply code13; exact E'.
Qed.
Lemma R15_trans a b c : R15 a b -> R15 b c -> R15 a c.
Proof. unfold R15. intros (A1 & A2 & A3) (B1 & B2 & B3). split; [eapply kept_trans; eassumption|]. repeat split; congruence. Qed.
Lemma code15 e input i c r c' : peer_step15_body C e input i c = Ok (Return r c') -> r <> 0.
Proof. unfold peer_step15_body. intros H. inv H; recvs; try lia. match goal with Q : recv_msg _ _ _ _ _ _ _ _ _ _ _ _ = _ |- _ => apply recv_codes in Q end. lia. Qed.
Lemma s15 e c input out ret p out' : zlen (p_ins C c) = p_n C c -> slots responded (p_ins C c) -> peer_step15 C e c input out = Ok (ret, p, out') ->
  R15 c p /\ (ret = 0 -> made (fun _ => True) responded (p_n C c) (p_ins C p)).
Proof.
  intros Lo Hi. unfold peer_step15. intros H. destruct (zlen input =? _); cbn [negb] in H; [|injection H as <- <- <-; split; [unfold R15, kept; auto|lia]].
  destruct (zlen out =? _); cbn [negb] in H; [|injection H as <- <- <-; split; [unfold R15, kept; auto|lia]].
  apply bind_ok in H. destruct H as (r & L & H).
  pose proof (loop_rel R15 _ _ _ _ (fun a => conj (kept_refl a) (conj eq_refl eq_refl)) R15_trans (b15 e input) L) as RR.
  destruct r as [c1|code c1]; cbn [ctl_state] in *.
  - assert (F : made (fun _ => True) responded (p_n C c) (p_ins C c1)).
    { pose proof (zlen_nonneg (p_ins C c)). replace (p_n C c) with (Z.of_nat (Z.to_nat (p_n C c))) by lia.
      refine (next_loop (peer_step15_body C e input) (fun i s => made (fun _ => True) responded i (p_ins C s)) _ _ _ _ _ L); [apply made_0; exact Hi|].
      intros i s1 s2 _ U E. eapply b15_next; eassumption. }
    inv H. split; [exact RR|auto].
  - injection H as <- <- <-. split; [exact RR|]. intros ->. exfalso.
    assert (HH : (fun r => r <> 0) 0); [|apply HH; reflexivity]. refine (loopM_code (fun r => r <> 0) _ _ _ _ _ _ L). intros x s r1 s2 E'. eapply code15; exact E'.
Qed.
Lemma s17 e c input out ret p out' : peer_step17 C e c input out = Ok (ret, p, out') ->
  R17 c p /\ (0 <= p_n C c -> p_my C c = [] -> mine (p_n C c) p).
Proof.
  unfold peer_step17. intros H. destruct (zlen input =? _); cbn [negb] in H; [|injection H as <- <- <-; split; [unfold R17; auto|intros _ Hm; unfold mine; cbn; rewrite Hm; split; [constructor|auto]]].
  destruct (zlen out =? _); cbn [negb] in H; [|injection H as <- <- <-; split; [unfold R17; auto|intros _ Hm; unfold mine; cbn; rewrite Hm; split; [constructor|auto]]].
  apply bind_ok in H. destruct H as ((rt & c1) & E1 & H). apply peer_recv_tp_inv in E1. destruct E1 as (last & Hr & ->).
  destruct (rt =? 0) eqn:Er; cbn [negb] in H; [|injection H as <- <- <-; split; [unfold R17; cbn; auto|intros _ Hm; unfold mine; cbn; rewrite Hm; split; [constructor|auto]]].
  apply bind_ok in H. destruct H as (r & L & H).
  assert (RR : R17 c (ctl_state r)).
  { eapply (loop_rel R17) in L; [exact L|unfold R17; auto|unfold R17; intuition congruence|]. intros; eapply b17; eassumption. }
  assert (MY : 0 <= p_n C c -> p_my C c = [] -> mine (p_n C c) (ctl_state r)).
  { intros Hn Hm. cbn [p_n peer_transcript_set peer_tp_last_set] in L.
    assert (Q' : match r with Next s2 => mine (p_n C c) s2 | Return _ s2 => mine (p_n C c) s2 end).
    { refine (loopM_inv (peer_step17_body C e input) (fun s => mine (p_n C c) s) (fun _ s => mine (p_n C c) s) _ _ r _ _ L).
      { unfold mine. cbn [p_my p_complaints peer_transcript_set peer_tp_last_set]. rewrite Hm. split; [constructor|auto]. }
      intros i s1 c2 Hi F E. apply zrange_In in Hi. apply b17 in E. destruct E as (_ & E). specialize (E (p_n C c) ltac:(lia) F). destruct c2; exact E. }
    destruct r; exact Q'. }
  inv H; auto.
Qed.

Lemma pinv_99 p x : peer_wf C p -> pinv (peer_step_set C p 99 x).
Proof. intros W. constructor; cbn [p_step peer_step_set]; try (intros; lia). apply pwf_step; [lia|exact W]. Qed.

Lemma pinv_next e c input out ret c' out' : pinv c -> peer_next C e c input out = Ok (ret, c', out') -> pinv c'.
Proof.
  intros I H. pose proof (i_wf c I) as W. pose proof (v_step C c W) as H0. pose proof (v_n C c W) as Hn. pose proof (v_t C c W) as Ht.
  destruct (Z.ltb_spec 10 (p_step C c)) as [Hs|Hs].
  { rewrite peer_next_other in H by lia. injection H as <- <- <-. apply pinv_99. exact W. }
  assert (D : p_step C c = 0 \/ p_step C c = 1 \/ p_step C c = 2 \/ p_step C c = 3 \/ p_step C c = 4 \/ p_step C c = 5 \/ p_step C c = 6 \/ p_step C c = 7 \/ p_step C c = 8 \/ p_step C c = 9 \/ p_step C c = 10) by lia.
  destruct D as [D|[D|[D|[D|[D|[D|[D|[D|[D|[D|D]]]]]]]]]].
  - rewrite peer_next_0 in H by assumption. apply pfinish_inv in H. destruct H as (p & E & ->). pose proof (pext_step23 C _ _ _ _ _ _ _ D E) as X.
    destruct (i_none c I ltac:(lia)) as (N1 & N2).
    assert (P : p_com C p = p_com C c /\ p_complaints C p = p_complaints C c /\ p_my C p = p_my C c /\ p_outs C p = p_outs C c /\ p_ins C p = p_ins C c /\ (ret = 0 -> 1 <= p_index C p <= 128)).
    { unfold peer_step23 in E. inv E; recvs; cbn; repeat split; auto; try lia; intros;
        try match goal with Q : recv_msg _ _ _ _ _ _ _ _ _ _ _ _ = _, Z : negb (_ =? 0) = true |- _ => apply recv_codes in Q; apply negb_true_iff, Z.eqb_neq in Z end; try lia.
      all: match goal with Z : _ || _ = false |- _ => apply orb_false_iff in Z; destruct Z as (Z1 & Z2); apply Z.ltb_ge in Z1, Z2; lia end. }
    destruct P as (P1 & P2 & P3 & P4 & P5 & P6). pose proof (pwf_ext _ _ W X ltac:(rewrite P1; apply (v_rows C c W))) as Wp.
    destruct (Z.eqb_spec ret 0) as [->|]; [|apply pinv_99; exact Wp]. rewrite (y_step C _ _ X), D.
    constructor; cbn [p_step peer_step_set p_complaints p_my p_index p_dev p_outs p_ins p_n Z.add]; try (intros; lia).
    + apply pwf_step; [lia|exact Wp].
    + rewrite P2, P3. auto.
    + intros _. rewrite P4. apply (i_init c I). lia.
    + intros _. rewrite P5. apply (i_resp c I). lia.
  - rewrite peer_next_1 in H by assumption. apply pfinish_inv in H. destruct H as (p & E & ->). pose proof (pext_step5 C _ _ _ _ _ _ _ E) as X. apply s5 in E.
    destruct (i_none c I ltac:(lia)) as (N1 & N2). destruct E as (R & Hd). unfold R5 in R. cbn in R. destruct R as ((K1 & K2) & P1 & P5 & P4 & _). cbn in K1, K2.
    pose proof (pwf_ext _ _ W X ltac:(rewrite P1; apply (v_rows C c W))) as Wp.
    destruct (Z.eqb_spec ret 0) as [->|]; [|apply pinv_99; exact Wp]. rewrite (y_step C _ _ X), D.
    constructor; cbn [p_step peer_step_set p_complaints p_my p_index p_dev p_outs p_ins p_n Z.add Pos.add Pos.succ]; try (intros; lia).
    + apply pwf_step; [lia|exact Wp].
    + rewrite K1, K2. auto.
    + intros _. rewrite (y_index C _ _ X) by lia. apply (i_index c I). lia.
    + intros _. apply Hd. reflexivity.
    + intros _. apply P4. apply (i_init c I). lia.
    + intros _. rewrite P5. apply (i_resp c I). lia.
  - rewrite peer_next_2 in H by assumption. apply pfinish_inv in H. destruct H as (p & E & ->). pose proof (pext_step7 C _ _ _ _ _ _ _ E) as X. apply s7 in E.
    destruct (i_none c I ltac:(lia)) as (N1 & N2). unfold R7 in E. cbn in E. destruct E as ((K1 & K2) & P1 & P4 & P6 & P5).
    pose proof (pwf_ext _ _ W X ltac:(rewrite P1; apply (v_rows C c W))) as Wp.
    destruct (Z.eqb_spec ret 0) as [->|]; [|apply pinv_99; exact Wp]. rewrite (y_step C _ _ X), D.
    constructor; cbn [p_step peer_step_set p_complaints p_my p_index p_dev p_outs p_ins p_n Z.add Pos.add Pos.succ]; try (intros; lia).
    + apply pwf_step; [lia|exact Wp].
    + rewrite K1, K2. auto.
    + intros _. rewrite (y_index C _ _ X) by lia. apply (i_index c I). lia.
    + intros _. rewrite P6. apply (i_dev c I). lia.
    + intros _. rewrite P4. apply (i_init c I). lia.
    + intros _. apply P5. apply (i_resp c I). lia.
  - rewrite peer_next_3 in H by assumption. apply pfinish_inv in H. destruct H as (p & E & ->). pose proof (pext_step911 C _ _ _ _ _ _ _ E) as X.
    apply s911 in E; [|apply (v_outs C c W)|apply (i_init c I); lia].
    destruct (i_none c I ltac:(lia)) as (N1 & N2). destruct E as (((K1 & K2) & P1 & P5 & P6) & P4).
    pose proof (pwf_ext _ _ W X ltac:(rewrite P1; apply (v_rows C c W))) as Wp.
    destruct (Z.eqb_spec ret 0) as [->|]; [|apply pinv_99; exact Wp]. rewrite (y_step C _ _ X), D.
    constructor; cbn [p_step peer_step_set p_complaints p_my p_index p_dev p_outs p_ins p_n Z.add Pos.add Pos.succ]; try (intros; lia).
    + apply pwf_step; [lia|exact Wp].
    + rewrite K1, K2. auto.
    + intros _. rewrite (y_index C _ _ X) by lia. apply (i_index c I). lia.
    + intros _. apply P4. reflexivity.
    + intros _. rewrite P5. apply (i_resp c I). lia.
  - rewrite peer_next_4 in H by assumption. apply pfinish_inv in H. destruct H as (p & E & ->). pose proof (pext_step13 C _ _ _ _ _ _ _ E) as X.
    apply s13 in E; [|apply (v_outs C c W)|apply (i_fin c I); lia].
    destruct (i_none c I ltac:(lia)) as (N1 & N2). destruct E as (((K1 & K2) & P5 & P6 & P1) & P4). cbn in K1, K2, P1, P5, P6.
    pose proof (pwf_ext _ _ W X ltac:(apply P1; [lia|apply (v_rows C c W)])) as Wp.
    destruct (Z.eqb_spec ret 0) as [->|]; [|apply pinv_99; exact Wp]. rewrite (y_step C _ _ X), D.
    constructor; cbn [p_step peer_step_set p_complaints p_my p_index p_dev p_outs p_ins p_n Z.add Pos.add Pos.succ]; try (intros; lia).
    + apply pwf_step; [lia|exact Wp].
    + rewrite K1, K2. auto.
    + intros _. rewrite (y_index C _ _ X) by lia. apply (i_index c I). lia.
    + intros _ j Hj. rewrite (y_n C _ _ X) in Hj. apply (made_end keyed finished (p_n C c)); [rewrite (v_outs C p Wp), (y_n C _ _ X); lia|apply P4; reflexivity|rewrite (v_outs C p Wp), (y_n C _ _ X); lia].
    + intros _. rewrite P5. apply (i_resp c I). lia.
  - rewrite peer_next_5 in H by assumption. apply pfinish_inv in H. destruct H as (p & E & ->). pose proof (pext_step15 C _ _ _ _ _ _ _ E) as X.
    apply s15 in E; [|apply (v_ins C c W)|apply (i_resp c I); lia].
    destruct (i_none c I ltac:(lia)) as (N1 & N2). destruct E as (((K1 & K2) & P1 & P4) & P5).
    pose proof (pwf_ext _ _ W X ltac:(rewrite P1; apply (v_rows C c W))) as Wp.
    destruct (Z.eqb_spec ret 0) as [->|]; [|apply pinv_99; exact Wp]. rewrite (y_step C _ _ X), D.
    constructor; cbn [p_step peer_step_set p_complaints p_my p_index p_dev p_outs p_ins p_n Z.add Pos.add Pos.succ]; try (intros; lia).
    + apply pwf_step; [lia|exact Wp].
    + rewrite K1, K2. auto.
    + intros _. rewrite (y_index C _ _ X) by lia. apply (i_index c I). lia.
    + intros _ j Hj. rewrite P4. apply (i_key c I); [lia|]. rewrite <- (y_n C _ _ X). exact Hj.
    + intros _ j Hj. rewrite (y_n C _ _ X) in Hj. destruct (made_end (fun _ => True) responded (p_n C c) (p_ins C p)) with (j := j) as (s & G & _); [rewrite (v_ins C p Wp), (y_n C _ _ X); lia|apply P5; reflexivity|rewrite (v_ins C p Wp), (y_n C _ _ X); lia|]. eauto.
  - rewrite peer_next_6 in H by assumption. apply pfinish_inv in H. destruct H as (p & E & ->). pose proof E as E'. apply s17 in E. destruct E as ((P1 & P4 & P5) & MY).
    destruct (i_none c I ltac:(lia)) as (N1 & N2). specialize (MY ltac:(lia) N2). apply pext_step17 in E'. destruct E' as (c1 & X & E').
    assert (Xn : p_n C p = p_n C c) by (destruct E' as [->|(-> & _)]; [|cbn [p_n peer_step_set]]; apply (y_n C _ _ X)).
    assert (Xi : p_index C p = p_index C c) by (destruct E' as [->|(-> & _)]; [|cbn [p_index peer_step_set]]; apply (y_index C _ _ X); lia).
    assert (Wp : peer_wf C p).
    { destruct E' as [->|(-> & _)]; [|apply pwf_step; [rewrite (y_step C _ _ X); lia|]]; (eapply pwf_ext; [exact W|exact X|]).
      - rewrite P1. apply (v_rows C c W).
      - cbn [p_com peer_step_set] in P1. rewrite P1. apply (v_rows C c W). }
    destruct (Z.eqb_spec ret 0) as [->|]; [|apply pinv_99; exact Wp].
    assert (St : p_step C p = 6 \/ p_step C p = 7) by (destruct E' as [->|(-> & _)]; [|cbn [p_step peer_step_set]]; rewrite (y_step C _ _ X); lia).
    constructor; cbn [p_step peer_step_set p_complaints p_my p_index p_dev p_outs p_ins p_n]; try (intros; lia).
    + apply pwf_step; [lia|exact Wp].
    + intros _. rewrite Xi. apply (i_index c I). lia.
    + intros _ j Hj. rewrite P4. apply (i_key c I); lia.
    + intros _ j Hj. rewrite P5. apply (i_live c I); lia.
    + intros _. rewrite Xn. exact MY.
  - rewrite peer_next_7 in H by assumption. apply pfinish_inv in H. destruct H as (p & E & ->). apply pext_step17a in E. destruct E as [-> |(-> & ->)].
    2:{ cbn [Z.eqb p_step peer_step_set]. constructor; cbn [p_step peer_step_set]; try (intros; lia). apply (pwf_step (peer_step_set C c 99 (p_prev C c))); [lia|]. apply pwf_step; [lia|exact W]. }
    destruct (Z.eqb_spec ret 0) as [->|]; [|apply pinv_99; exact W]. rewrite D.
    constructor; cbn [p_step peer_step_set p_complaints p_my p_index p_dev p_outs p_ins p_n Z.add Pos.add Pos.succ]; try (intros; lia).
    + apply pwf_step; [lia|exact W].
    + intros _. apply (i_index c I). lia.
    + intros _ j Hj. apply (i_key c I); lia.
    + intros _ j Hj. apply (i_live c I); lia.
  - rewrite peer_next_8 in H by assumption. apply pfinish_inv in H. destruct H as (p & E & ->). apply pext_step19 in E. subst p.
    destruct (Z.eqb_spec ret 0) as [->|]; [|apply pinv_99; exact W]. rewrite D.
    constructor; cbn [p_step peer_step_set p_complaints p_my p_index p_dev p_outs p_ins p_n Z.add Pos.add Pos.succ]; try (intros; lia).
    + apply pwf_step; [lia|exact W].
    + intros _. apply (i_index c I). lia.
    + intros _ j Hj. apply (i_key c I); lia.
    + intros _ j Hj. apply (i_live c I); lia.
  - rewrite peer_next_9 in H by assumption. apply pfinish_inv in H. destruct H as (p & E & ->).
    assert (P : p_com C p = p_com C c /\ p_outs C p = p_outs C c /\ p_ins C p = p_ins C c) by (unfold peer_step21 in E; inv E; recvs; cbn; auto).
    destruct P as (P1 & P4 & P5). apply pext_step21 in E. destruct E as (c1 & X & _ & E).
    assert (Wp : peer_wf C c1).
    { eapply pwf_ext; [exact W|exact X|]. destruct E as [(-> & _)|(_ & -> & _)]; [|cbn [p_com peer_share_set] in P1]; rewrite P1; apply (v_rows C c W). }
    destruct E as [(-> & Hr)|(-> & -> & _)].
    + destruct (Z.eqb_spec ret 0); [contradiction|]. apply pinv_99. exact Wp.
    + cbn [p_outs p_ins peer_share_set] in P4, P5. cbn [Z.eqb p_step peer_share_set peer_step_set].
      assert (Wq : forall s, peer_wf C (peer_share_set C c1 s)) by (intros s; destruct Wp; constructor; auto). rewrite (y_step C _ _ X), D.
      constructor; cbn [p_step peer_step_set peer_share_set p_complaints p_my p_index p_dev p_outs p_ins p_n Z.add Pos.add Pos.succ]; try (intros; lia).
      * apply pwf_step; [lia|apply Wq].
      * intros _. rewrite (y_index C _ _ X) by lia. apply (i_index c I). lia.
      * intros _ j Hj. rewrite P4. apply (i_key c I); [lia|]. rewrite <- (y_n C _ _ X). exact Hj.
      * intros _ j Hj. rewrite P5. apply (i_live c I); [lia|]. rewrite <- (y_n C _ _ X). exact Hj.
  - rewrite peer_next_10 in H by assumption. apply pfinish_inv in H. destruct H as (p & E & ->). injection E as <- <- <-. cbn [Z.eqb]. rewrite D.
    constructor; cbn [p_step peer_step_set p_complaints p_my p_index p_dev p_outs p_ins p_n Z.add Pos.add Pos.succ]; try (intros; lia).
    + apply pwf_step; [lia|exact W].
    + intros _ j Hj. apply (i_key c I); lia.
    + intros _ j Hj. apply (i_live c I); lia.
Qed.

Theorem pinv_history calls : forall c outs, pinv c -> peer_run C c calls = Ok outs -> pinv (final c outs).
Proof.
  induction calls as [|[[e input] out] calls IH]; intros c outs I H; cbn [peer_run] in H; [injection H as <-; exact I|].
  apply bind_ok in H. destruct H as ([[ret c1] out1] & E & H). apply bind_ok in H. destruct H as (rest & E2 & H). injection H as <-.
  rewrite final_cons. apply (IH c1 rest); [|exact E2]. eapply pinv_next; eassumption.
Qed.

End SAFE.

Section FORWARD.
Variable C : crypto.
Hypothesis HC : crypto_ok C.
Notation peer := (peer C).
Notation N := (cN C).
Notation S := (cS C).
Let HN : noise_ok N := ok_cN C HC.

Lemma peer_recv_safe c buf off len msgno from to pk i now : 0 <= off -> 111 <= len -> off + len <= zlen buf -> 0 <= i < zlen (p_last C c) ->
  exists ret l, peer_recv C c buf off len msgno from to pk i now = Ok (ret, peer_last_set C c l) /\ zlen l = zlen (p_last C c).
Proof.
  intros. unfold peer_recv. destruct (getz_some (p_last C c) i ltac:(assumption)) as (l & ->). cbn [bind].
  destruct (recv_safe C buf off len msgno from to pk (p_sid C c) (p_eps C c) l now) as (ret & l' & ->); try assumption. cbn [bind].
  destruct (updz_some (p_last C c) i l' ltac:(assumption)) as (l2 & E). rewrite E. cbn [bind]. exists ret, l2. split; [reflexivity|]. eapply updz_zlen; exact E.
Qed.
Lemma peer_recv_tp_safe c buf off len msgno to now : 0 <= off -> 111 <= len -> off + len <= zlen buf ->
  exists ret x, peer_recv_tp C c buf off len msgno to now = Ok (ret, peer_tp_last_set C c x).
Proof.
  intros. unfold peer_recv_tp. destruct (recv_safe C buf off len msgno 0 to (p_tp_pk C c) (p_sid C c) (p_eps C c) (p_tp_last C c) now) as (ret & l' & ->); try assumption.
  cbn [bind]. eauto.
Qed.

Lemma safe23 e c input out : peer_wf C c -> is_ok (peer_step23 C e c input out).
Proof.
  intros W. unfold peer_step23. destruct (zlen input =? _) eqn:E1; cbn [negb]; [|eexists; reflexivity]. destruct (zlen out =? _) eqn:E2; cbn [negb]; [|eexists; reflexivity].
  apply Z.eqb_eq in E1, E2. change msg1_SIZE with 111 in *. change msg2_SIZE with 175 in *. change sign_BYTES with 64 in *. change off_to with 70. rewrite hdr_val.
  destruct (getz_some input 70 ltac:(lia)) as (b & ->). cbn [bind].
  destruct (peer_recv_tp_safe c input 0 111 1 (bz b) (pe_r e 0)) as (ret & x & ->); [lia|lia|lia|]. cbn [bind].
  destruct (ret =? 0); cbn [negb]; [|eexists; reflexivity]. destruct (_ || _); [eexists; reflexivity|].
  destruct (wr_is_ok out 111 (sig_pk S (pe_sk e))) as (o1 & -> & L1); [lia|unfold zlen at 1; rewrite (ok_sig_pk_len S (ok_cS C HC)); lia|]. cbn [bind].
  destruct (wr_is_ok o1 (111 + 32) (nz_pk N (pe_nsk e))) as (o2 & -> & L2); [lia|rewrite (ok_nz_pk_len N HN); lia|]. cbn [bind].
  destruct (send_safe C HC o2 0 175 2 (bz b) 255 (pe_sk e) (p_sid C (peer_tp_last_set C c x)) (pe_s e 0)) as (o3 & -> & L3); [lia|lia|apply (v_sid C c W)|]. cbn [bind].
  rewrite rd_ok by lia. cbn [bind].
  match goal with |- context [wr o3 175 ?m] => destruct (wr_is_ok o3 175 m) as (o4 & -> & L4) end; [lia|unfold zlen at 1; rewrite (ok_sig_len S (ok_cS C HC)); lia|]. cbn [bind].
  eexists; reflexivity.
Qed.

(** the state during a loop *)
Lemma wr_opt (out : bytes) off (m : option bytes) k : 0 <= off -> off + k <= zlen out -> (forall x, m = Some x -> zlen x = k) ->
  exists out', match m with Some m => wr out off m | None => Ok out end = Ok out' /\ zlen out' = zlen out.
Proof. intros Ho Hl Hm. destruct m as [m|]; [|eauto]. destruct (wr_is_ok out off m) as (o & -> & L); [exact Ho|rewrite (Hm m eq_refl); exact Hl|]. eauto. Qed.

Lemma body5_safe e input c0 i c out : peer_wf C c0 -> zlen input = 175 * p_n C c0 + 111 -> 0 <= i < p_n C c0 ->
  p_ext C c0 c -> zlen out = 159 * p_n C c0 -> (exists d, p_dev C c = Some d) ->
  exists r, peer_step5_body C e input i (c, out) = Ok r /\ zlen (snd (ctl_state r)) = zlen out.
Proof.
  intros W Li Hi X Lo (d & Hd). unfold peer_step5_body. change msg2_SIZE with 175. rewrite hdr_val. change msg4_SIZE with 159.
  rewrite rd_ok by lia. cbn [bind].
  match goal with |- context [peer_recv C c input ?o ?l ?a ?b ?d ?pk ?j ?nw] => destruct (peer_recv_safe c input o l a b d pk j nw) as (ret & l' & -> & Ll) end;
    [lia|lia|lia|rewrite (y_last C _ _ X), (v_last C c0 W); lia|]. cbn [bind].
  destruct (ret =? 0); cbn [negb]; [|eexists; split; reflexivity]. cbn [p_pks peer_last_set].
  match goal with |- context [updz (p_pks C c) i ?v] => destruct (updz_some (p_pks C c) i v) as (pks & ->) end; [rewrite (y_pks C _ _ X), (v_pks C c0 W); lia|]. cbn [bind].
  rewrite rd_ok by lia. cbn [bind p_npks peer_last_set].
  match goal with |- context [updz (p_npks C c) i ?v] => destruct (updz_some (p_npks C c) i v) as (npks & ->) end; [rewrite (y_npks C _ _ X), (v_npks C c0 W); lia|]. cbn [bind p_dev peer_pk_set peer_last_set].
  rewrite Hd. cbn [of_opt bind p_outs peer_pk_set peer_last_set].
  destruct (getz_some (p_outs C c) i) as (sl & ->); [rewrite (y_outs C _ _ X), (v_outs C c0 W); lia|]. cbn [bind].
  destruct (init_noise C d sl (i + 1) _ (pe_ri e i)) as [[d' sl'] m] eqn:En. apply init_slot in En. destruct En as (_ & Hm). cbn [bind].
  destruct (updz_some (p_outs C c) i sl') as (outs & ->); [rewrite (y_outs C _ _ X), (v_outs C c0 W); lia|]. cbn [bind].
  destruct (wr_opt out (i * 159 + 111) m 48) as (o1 & -> & L1); [lia|lia|exact Hm|]. cbn [bind].
  match goal with |- context [send_msg S o1 ?a ?b ?c ?d ?e ?f ?g ?h] => destruct (send_safe C HC o1 a b c d e f g h) as (o2 & -> & L2) end; [lia|lia|cbn; rewrite (y_sid C _ _ X); apply (v_sid C c0 W)|].
  cbn [bind]. eexists. split; [reflexivity|]. cbn. lia.
Qed.

Lemma safe5 e c input out : peer_wf C c -> is_ok (peer_step5 C e c input out).
Proof.
  intros W. unfold peer_step5. destruct (zlen input =? _) eqn:E1; cbn [negb]; [|eexists; reflexivity]. destruct (zlen out =? _) eqn:E2; cbn [negb]; [|eexists; reflexivity].
  apply Z.eqb_eq in E1, E2. change msg2_SIZE with 175 in *. change msg4_SIZE with 159 in *. rewrite hdr_val in *. pose proof (v_n C c W) as Hn.
  destruct (peer_recv_tp_safe c input 0 (zlen input) 3 255 (pe_r e 0)) as (ret & x & ->); [lia|lia|lia|]. cbn [bind].
  destruct (ret =? 0); cbn [negb]; [|eexists; reflexivity].
  set (c1 := peer_dev_set C _ _).
  assert (X1 : p_ext C c c1) by (constructor; auto).
  assert (D1 : exists d, p_dev C c1 = Some d).
  { cbn. destruct (ok_nz_create N HN (p_index C c) (p_noise_sk C c)) as (d & Ed & _). eauto. }
  destruct (loopM_seq_ok (peer_step5_body C e input) (fun i s => p_ext C c (fst s) /\ zlen (snd s) = zlen out /\ exists d, p_dev C (fst s) = Some d) 0 (Z.to_nat (p_n C c1)) (c1, out)) as (r & -> & _).
  - cbn [fst snd]. auto.
  - intros i [c2 o2] Hi (Y1 & Y2 & Y3). cbn [fst snd] in *. change (p_n C c1) with (p_n C c) in Hi.
    destruct (body5_safe e input c i c2 o2) as (r & E & L); try assumption; try lia.
    exists r. split; [exact E|]. destruct r as [[c3 o3]|]; [|exact I]. cbn [ctl_state fst snd] in *.
    pose proof (pext_step5_body C _ _ _ _ _ E) as X3. cbn [ctl_state fst] in X3. split; [eapply pext_trans; eassumption|]. split; [lia|].
    apply b5 in E. unfold R5 in E. apply E. exact Y3.
  - cbn [bind]. destruct r as [[]|? []]; eexists; reflexivity.
Qed.

Lemma body7_safe e input c0 i c out : peer_wf C c0 -> zlen input = 159 * p_n C c0 -> 0 <= i < p_n C c0 ->
  p_ext C c0 c -> zlen out = 159 * p_n C c0 -> (exists d, p_dev C c = Some d) ->
  exists r, peer_step7_body C e input i (c, out) = Ok r /\ zlen (snd (ctl_state r)) = zlen out.
Proof.
  intros W Li Hi X Lo (d & Hd). unfold peer_step7_body. change msg4_SIZE with 159. rewrite hdr_val. change msg5_SIZE with 159. change hs1_SIZE with 48.
  destruct (getz_some (p_pks C c) i) as (pk & ->); [rewrite (y_pks C _ _ X), (v_pks C c0 W); lia|]. cbn [bind].
  match goal with |- context [peer_recv C c input ?o ?l ?a ?b ?d ?pk ?j ?nw] => destruct (peer_recv_safe c input o l a b d pk j nw) as (ret & l' & -> & Ll) end;
    [lia|lia|lia|rewrite (y_last C _ _ X), (v_last C c0 W); lia|]. cbn [bind].
  destruct (ret =? 0); cbn [negb]; [|eexists; split; reflexivity]. cbn [p_dev peer_last_set]. rewrite Hd. cbn [of_opt bind].
  destruct (rd input (i * 159 + 111) 48) as [inmsg|] eqn:Er; [|rewrite rd_ok in Er by lia; discriminate]. cbn [bind]. apply rd_inv in Er.
  destruct (respond_noise C d inmsg (pe_rr e i)) as [sl m] eqn:En. apply respond_slot in En; [|apply Er]. destruct En as (_ & Hm). cbn [p_ins peer_last_set].
  destruct (updz_some (p_ins C c) i sl) as (ins & ->); [rewrite (y_ins C _ _ X), (v_ins C c0 W); lia|]. cbn [bind].
  destruct (wr_opt out (i * 159 + 111) m 48) as (o1 & -> & L1); [lia|lia|exact Hm|]. cbn [bind].
  match goal with |- context [send_msg S o1 ?a ?b ?c ?d ?e ?f ?g ?h] => destruct (send_safe C HC o1 a b c d e f g h) as (o2 & -> & L2) end; [lia|lia|cbn; rewrite (y_sid C _ _ X); apply (v_sid C c0 W)|].
  cbn [bind]. eexists. split; [reflexivity|]. cbn. lia.
Qed.
Lemma safe7 e c input out : peer_wf C c -> (exists d, p_dev C c = Some d) -> is_ok (peer_step7 C e c input out).
Proof.
  intros W D. unfold peer_step7. destruct (zlen input =? _) eqn:E1; cbn [negb]; [|eexists; reflexivity]. destruct (zlen out =? _) eqn:E2; cbn [negb]; [|eexists; reflexivity].
  apply Z.eqb_eq in E1, E2. change msg5_SIZE with 159 in *. change msg4_SIZE with 159 in *. pose proof (v_n C c W) as Hn.
  destruct (loopM_seq_ok (peer_step7_body C e input) (fun i s => p_ext C c (fst s) /\ zlen (snd s) = zlen out /\ exists d, p_dev C (fst s) = Some d) 0 (Z.to_nat (p_n C c)) (c, out)) as (r & -> & _).
  - cbn [fst snd]. split; [apply pext_refl|auto].
  - intros i [c2 o2] Hi (Y1 & Y2 & Y3). cbn [fst snd] in *.
    destruct (body7_safe e input c i c2 o2) as (r & E & L); try assumption; try lia.
    exists r. split; [exact E|]. destruct r as [[c3 o3]|]; [|exact I]. cbn [ctl_state fst snd] in *.
    pose proof (pext_step7_body C _ _ _ _ _ E) as X3. cbn [ctl_state fst] in X3. split; [eapply pext_trans; eassumption|]. split; [lia|].
    apply b7 in E. unfold R7 in E. cbn [ctl_state fst] in E. destruct E as (_ & _ & _ & -> & _). exact Y3.
  - cbn [bind]. destruct r as [[]|? []]; eexists; reflexivity.
Qed.

(** the sessions not yet used in a loop *)
Definition rest {A} (i : Z) (l : list (slot A)) : Prop := forall j sl, i <= j -> getz l j = Ok sl -> usable sl.
Lemma rest_0 {A} (l : list (slot A)) : Forall usable l -> rest 0 l.
Proof. intros F j sl _ G. apply getz_In in G. exact (proj1 (Forall_forall _ _) F _ G). Qed.
Lemma rest_upd {A} (l : list (slot A)) i sl l' : updz l i sl = Ok l' -> rest i l -> rest (i + 1) l'.
Proof. intros U R j s Hj G. apply updz_inv in U. destruct U as (_ & _ & U). rewrite U in G. destruct (Z.eqb_spec j i); [lia|]. apply (R j s); [lia|exact G]. Qed.

Lemma body911_safe e input c0 i c : peer_wf C c0 -> zlen input = 159 * p_n C c0 -> 0 <= i < p_n C c0 ->
  p_ext C c0 c -> (exists d, p_dev C c = Some d) -> rest i (p_outs C c) ->
  exists r, peer_step911_body C e input i c = Ok r /\ match r with Next c' => rest (i + 1) (p_outs C c') | Return _ _ => True end.
Proof.
  intros W Li Hi X (d & Hd) R. unfold peer_step911_body. rewrite hdr_val. change msg5_SIZE with 159. change hs2_SIZE with 48.
  destruct (getz_some (p_pks C c) i) as (pk & ->); [rewrite (y_pks C _ _ X), (v_pks C c0 W); lia|]. cbn [bind].
  match goal with |- context [peer_recv C c input ?o ?l ?a ?b ?d ?pk ?j ?nw] => destruct (peer_recv_safe c input o l a b d pk j nw) as (ret & l' & -> & Ll) end;
    [lia|lia|lia|rewrite (y_last C _ _ X), (v_last C c0 W); lia|]. cbn [bind].
  destruct (ret =? 0); cbn [negb]; [|eexists; split; [reflexivity|exact I]]. rewrite rd_ok by lia. cbn [bind p_outs peer_last_set p_dev].
  destruct (getz_some (p_outs C c) i) as (sl & G); [rewrite (y_outs C _ _ X), (v_outs C c0 W); lia|]. rewrite G. cbn [bind]. rewrite Hd. cbn [of_opt bind].
  pose proof (R i sl ltac:(lia) G) as U.
  assert (F : forall msg, exists sl', finish_noise C (pe_log e) d sl msg = Ok sl').
  { intros msg. unfold finish_noise. destruct sl; try contradiction; [eauto|]. destruct (_ && _); [eauto|]. destruct (nz_read _ _ _) as [s' [x|]]; eauto. }
  match goal with |- context [finish_noise C ?a ?b ?x ?y] => destruct (F y) as (sl' & ->) end. cbn [bind].
  destruct (updz_some (p_outs C c) i sl') as (outs & E); [rewrite (y_outs C _ _ X), (v_outs C c0 W); lia|]. rewrite E. cbn [bind].
  eexists. split; [reflexivity|]. cbn. eapply rest_upd; eassumption.
Qed.
Lemma concat_32 (R : ristretto) (HR : ristretto_ok R) a : zlen (concat (commitments_of R a)) = 32 * Z.of_nat (length a).
Proof.
  rewrite (zlen_concat _ 32); [unfold zlen, commitments_of; rewrite map_length; reflexivity|].
  unfold commitments_of. apply Forall_forall. intros x Hx. apply in_map_iff in Hx. destruct Hx as (y & <- & _). unfold zlen. rewrite (ok_enc_len R HR). reflexivity.
Qed.
Lemma safe911 e c input out : peer_wf C c -> (exists d, p_dev C c = Some d) -> Forall usable (p_outs C c) -> drawn (p_t C c) (pe_a e) -> is_ok (peer_step911 C e c input out).
Proof.
  intros W D U (Ha & HF). unfold peer_step911. destruct (zlen input =? _) eqn:E1; cbn [negb]; [|eexists; reflexivity]. destruct (zlen out =? _) eqn:E2; cbn [negb]; [|eexists; reflexivity].
  apply Z.eqb_eq in E1, E2. change msg5_SIZE with 159 in *. change (msg6_SIZE (p_t C c)) with (111 + 32 * p_t C c) in *. pose proof (v_n C c W) as Hn. pose proof (v_t C c W) as Ht.
  destruct (loopM_seq_ok (peer_step911_body C e input) (fun i s => p_ext C c s /\ (exists d, p_dev C s = Some d) /\ rest i (p_outs C s)) 0 (Z.to_nat (p_n C c)) c) as (r & -> & HP).
  - split; [apply pext_refl|]. split; [exact D|]. apply rest_0. exact U.
  - intros i c2 Hi (Y1 & Y2 & Y3). destruct (body911_safe e input c i c2) as (r & E & L); try assumption; try lia.
    exists r. split; [exact E|]. destruct r as [c3|]; [|exact I].
    pose proof (pext_step911_body C _ _ _ _ _ E) as X3. cbn [ctl_state] in X3. split; [eapply pext_trans; eassumption|].
    split; [|exact L]. apply b911 in E. unfold R911 in E. cbn [ctl_state] in E. destruct E as (_ & _ & _ & ->). exact Y2.
  - cbn [bind]. destruct r as [c1|]; [|eexists; reflexivity]. destruct HP as (X & _). rewrite hdr_val. rewrite (y_t C _ _ X), (y_n C _ _ X).
    rewrite rd_ok by lia. cbn [bind]. destruct (pe_lock e).
    + rewrite (dkg_start_eq (cR C)); try assumption; try lia.
      * cbn [bind Z.eqb negb].
        destruct (wr_is_ok out 111 (concat (commitments_of (cR C) (pe_a e)))) as (o1 & -> & L1); [lia|rewrite (concat_32 _ (ok_cR C HC)); lia|]. cbn [bind].
        match goal with |- context [send_msg S o1 ?a ?b ?c ?d ?e ?f ?g ?h] => destruct (send_safe C HC o1 a b c d e f g h) as (o2 & -> & L2) end; [lia|lia|cbn; rewrite (y_sid C _ _ X); apply (v_sid C c W)|].
        cbn [bind]. eexists; reflexivity.
      * pose proof (rows_zlen (p_t C c) (firstn (Z.to_nat (32 * p_t C c)) (skipn (Z.to_nat 111) out)) ltac:(lia)) as Z. unfold zlen in Z. exact Z.
      * pose proof (y_shares C _ _ X) as Z. rewrite (v_shares C c W) in Z. exact Z.
    + unfold dkg_start. cbn. eexists; reflexivity.
Qed.

Lemma body13_safe e input c0 i c out : peer_wf C c0 -> zlen input = 111 + (111 + 32 * p_t C c0) * p_n C c0 -> 0 <= i < p_n C c0 ->
  p_ext C c0 c -> zlen out = p_n C c0 * 256 -> rest i (p_outs C c) -> made C (keyed C) (finished C) i (p_outs C c) ->
  exists r, peer_step13_body C e input i (c, out) = Ok r /\ match r with Next (c', out') => rest (i + 1) (p_outs C c') /\ zlen out' = zlen out | Return _ _ => True end.
Proof.
  intros W Li Hi X Lo R M. unfold peer_step13_body. rewrite hdr_val, (y_t C _ _ X). change (msg6_SIZE (p_t C c0)) with (111 + 32 * p_t C c0). change msg8_SIZE with 256. change hs3_SIZE with 64.
  pose proof (v_n C c0 W) as Hn. pose proof (v_t C c0 W) as Ht.
  set (z := 111 + 32 * p_t C c0) in *. assert (Hz : 0 <= i * z /\ i * z + z <= z * p_n C c0) by (assert (0 < z) by lia; split; nia).
  change share_SIZE with 33. change mac_SIZE with 16. change (33 + 16) with 49.
  destruct (getz_some (p_pks C c) i) as (pk & ->); [rewrite (y_pks C _ _ X), (v_pks C c0 W); lia|]. cbn [bind].
  match goal with |- context [peer_recv C c input ?o ?l ?a ?b ?d ?pk ?j ?nw] => destruct (peer_recv_safe c input o l a b d pk j nw) as (ret & l' & -> & Ll) end;
    [lia|lia|lia|rewrite (y_last C _ _ X), (v_last C c0 W); lia|]. cbn [bind p_t peer_last_set]. rewrite (y_t C _ _ X).
  destruct (ret =? 0); cbn [negb]; [|eexists; split; [reflexivity|exact I]]. rewrite rd_ok by lia. cbn [bind p_com peer_last_set].
  match goal with |- context [updz (p_com C c) i ?v] => destruct (updz_some (p_com C c) i v) as (com & ->) end; [rewrite (y_com C _ _ X), (v_com C c0 W); lia|]. cbn [bind p_outs peer_com_set peer_last_set].
  destruct (getz_some (p_outs C c) i) as (sl & G); [rewrite (y_outs C _ _ X), (v_outs C c0 W); lia|]. rewrite G. cbn [bind].
  pose proof (R i sl ltac:(lia) G) as U. pose proof (M i sl G) as F. destruct (Z.ltb_spec i i); [lia|].
  assert (En : forall sl0 inp len, usable sl0 -> exists ret sl' m, noise_encrypt C sl0 inp len = Ok (ret, sl', m)).
  { intros sl0 inp len Us. unfold noise_encrypt. destruct sl0; try contradiction; [eauto|]. destruct (_ <? _); [eauto|]. destruct (nz_write _ _ _) as [s' [x|]]; [destruct (_ =? _); eauto|eauto]. }
  destruct (En sl [] 64 U) as (r1 & sl1 & m1 & E1). rewrite E1. cbn [bind].
  destruct (updz_some (p_outs C c) i sl1) as (outs & Eo); [rewrite (y_outs C _ _ X), (v_outs C c0 W); lia|]. rewrite Eo. cbn [bind].
  destruct (Z.eqb_spec r1 0) as [->|]; cbn [negb]; [|eexists; split; [reflexivity|exact I]].
  apply encrypt_ok in E1. destruct E1 as (s & s1 & -> & -> & W1 & L1).
  destruct (wr_is_ok out (i * 256 + 111) m1) as (o1 & -> & Lo1); [lia|lia|]. cbn [bind p_shares peer_outs_set peer_com_set peer_last_set].
  destruct (getz_some (p_shares C c) i) as (sh & ->); [rewrite (y_shares C _ _ X), (v_shares C c0 W); lia|]. cbn [bind].
  destruct (En (Live s1) (share_bytes sh) 49 I) as (r2 & sl2 & ct & E2). rewrite E2. cbn [bind p_outs peer_outs_set].
  destruct (updz_some outs i sl2) as (outs2 & Eo2); [apply updz_zlen in Eo; rewrite Eo, (y_outs C _ _ X), (v_outs C c0 W); lia|]. rewrite Eo2. cbn [bind].
  destruct (Z.eqb_spec r2 0) as [->|]; cbn [negb]; [|eexists; split; [reflexivity|exact I]].
  apply encrypt_ok in E2. destruct E2 as (s1' & s2 & Es & -> & W2 & L2). injection Es as <-.
  destruct (wr_is_ok o1 (i * 256 + 111 + 64) ct) as (o2 & -> & Lo2); [lia|lia|]. cbn [bind].
  destruct (write_twice C HN s s1 s2 m1 ct (share_bytes sh) (F s eq_refl) W1 W2) as (k & Hk & _). cbn [session_key]. rewrite Hk. cbn [of_opt bind].
  destruct (wr_is_ok o2 (i * 256 + 111 + 64 + 33 + 16) (c_auth C k ct)) as (o3 & -> & Lo3); [lia|rewrite (ok_auth_len C HC); lia|]. cbn [bind].
  match goal with |- context [send_msg S o3 ?a ?b ?c ?d ?e ?f ?g ?h] => destruct (send_safe C HC o3 a b c d e f g h) as (o4 & -> & L4) end; [lia|lia|cbn; rewrite (y_sid C _ _ X); apply (v_sid C c0 W)|].
  cbn [bind]. eexists. split; [reflexivity|]. cbn. split; [|lia].
  intros j sl' Hj Gj. apply updz_inv in Eo2, Eo. destruct Eo2 as (_ & _ & Q2), Eo as (_ & _ & Q1). rewrite Q2 in Gj. destruct (Z.eqb_spec j i); [lia|]. rewrite Q1 in Gj. destruct (Z.eqb_spec j i); [lia|]. apply (R j sl'); [lia|exact Gj].
Qed.
Lemma safe13 e c input out : peer_wf C c -> Forall usable (p_outs C c) -> slots C (finished C) (p_outs C c) -> is_ok (peer_step13 C e c input out).
Proof.
  intros W U F. unfold peer_step13. destruct (zlen input =? _) eqn:E1; cbn [negb]; [|eexists; reflexivity]. destruct (zlen out =? _) eqn:E2; cbn [negb]; [|eexists; reflexivity].
  apply Z.eqb_eq in E1, E2. change (msg6_SIZE (p_t C c)) with (111 + 32 * p_t C c) in *. change msg8_SIZE with 256 in *. rewrite hdr_val in *. pose proof (v_n C c W) as Hn. pose proof (v_t C c W) as Ht.
  destruct (peer_recv_tp_safe c input 0 (zlen input) 7 255 (pe_r e 0)) as (ret & x & ->); [lia|nia|lia|]. cbn [bind].
  destruct (ret =? 0); cbn [negb]; [|eexists; reflexivity].
  set (c1 := peer_transcript_set C _ _).
  assert (X1 : p_ext C c c1) by (constructor; auto).
  destruct (loopM_seq_ok (peer_step13_body C e input) (fun i s => p_ext C c (fst s) /\ zlen (snd s) = zlen out /\ rest i (p_outs C (fst s)) /\ made C (keyed C) (finished C) i (p_outs C (fst s))) 0 (Z.to_nat (p_n C c1)) (c1, out)) as (r & -> & _).
  - cbn [fst snd]. split; [exact X1|]. split; [reflexivity|]. split; [apply rest_0; exact U|apply made_0; exact F].
  - intros i [c2 o2] Hi (Y1 & Y2 & Y3 & Y4). cbn [fst snd] in *. change (p_n C c1) with (p_n C c) in Hi.
    destruct (body13_safe e input c i c2 o2) as (r & E & L); try assumption; try lia.
    exists r. split; [exact E|]. destruct r as [[c3 o3]|]; [|exact I]. cbn [fst snd]. destruct L as (L1 & L2).
    pose proof (pext_step13_body C _ _ _ _ _ E) as X3. cbn [ctl_state fst] in X3. split; [eapply pext_trans; eassumption|]. split; [lia|]. split; [exact L1|].
    eapply b13_next; [exact HN|exact E|exact Y4].
  - cbn [bind]. destruct r as [[]|? []]; eexists; reflexivity.
Qed.

Lemma body15_safe e input c0 i c : peer_wf C c0 -> zlen input = p_n C c0 * 256 -> 0 <= i < p_n C c0 ->
  p_ext C c0 c -> rest i (p_ins C c) -> made C (fun _ => True) (responded C) i (p_ins C c) ->
  exists r, peer_step15_body C e input i c = Ok r /\ match r with Next c' => rest (i + 1) (p_ins C c') | Return _ _ => True end.
Proof.
  intros W Li Hi X R M. unfold peer_step15_body. rewrite hdr_val. change msg8_SIZE with 256. change hs3_SIZE with 64. change share_SIZE with 33. change mac_SIZE with 16. change hmac_SIZE with 32.
  destruct (getz_some (p_pks C c) i) as (pk & ->); [rewrite (y_pks C _ _ X), (v_pks C c0 W); lia|]. cbn [bind].
  match goal with |- context [peer_recv C c input ?o ?l ?a ?b ?d ?pk ?j ?nw] => destruct (peer_recv_safe c input o l a b d pk j nw) as (ret & l' & -> & Ll) end;
    [lia|lia|lia|rewrite (y_last C _ _ X), (v_last C c0 W); lia|]. cbn [bind].
  destruct (ret =? 0); cbn [negb]; [|eexists; split; [reflexivity|exact I]]. rewrite !rd_ok by lia. cbn [bind p_ins peer_last_set].
  destruct (getz_some (p_ins C c) i) as (sl & G); [rewrite (y_ins C _ _ X), (v_ins C c0 W); lia|]. rewrite G. cbn [bind].
  pose proof (R i sl ltac:(lia) G) as U. pose proof (M i sl G) as F. destruct (Z.ltb_spec i i); [lia|].
  assert (En : forall sl0 inp len, usable sl0 -> exists ret sl' m, noise_decrypt C sl0 inp len = Ok (ret, sl', m)).
  { intros sl0 inp len Us. unfold noise_decrypt. destruct sl0; try contradiction; [eauto|]. destruct (_ <? _); [eauto|]. destruct (nz_read _ _ _) as [s' [x|]]; [destruct (_ =? _); eauto|eauto]. }
  match goal with |- context [noise_decrypt C sl ?a ?b] => destruct (En sl a b U) as (r1 & sl1 & m1 & E1) end. rewrite E1. cbn [bind].
  destruct (updz_some (p_ins C c) i sl1) as (ins & Eo); [rewrite (y_ins C _ _ X), (v_ins C c0 W); lia|]. rewrite Eo. cbn [bind].
  destruct (Z.eqb_spec r1 0) as [->|]; cbn [negb]; [|eexists; split; [reflexivity|exact I]].
  apply decrypt_ok in E1. destruct E1 as (s & s1 & -> & -> & W1 & L1).
  destruct (read_once C HN s s1 _ m1 (F s eq_refl) W1) as (k & Hk & _). cbn [session_key]. rewrite Hk. cbn [of_opt bind].
  destruct (bytes_eqb _ _); cbn [negb]; [|eexists; split; [reflexivity|exact I]].
  match goal with |- context [noise_decrypt C (Live s1) ?a ?b] => destruct (En (Live s1) a b I) as (r2 & sl2 & pt & E2) end. rewrite E2. cbn [bind p_ins peer_ins_set].
  destruct (updz_some ins i sl2) as (ins2 & Eo2); [apply updz_zlen in Eo; rewrite Eo, (y_ins C _ _ X), (v_ins C c0 W); lia|]. rewrite Eo2. cbn [bind].
  destruct (Z.eqb_spec r2 0) as [->|]; cbn [negb]; [|eexists; split; [reflexivity|exact I]]. cbn [p_xshares peer_ins_set peer_last_set].
  destruct (updz_some (p_xshares C c) i (share_of pt)) as (xs & ->); [rewrite (y_xshares C _ _ X), (v_xshares C c0 W); lia|]. cbn [bind].
  eexists. split; [reflexivity|]. cbn.
  intros j sl' Hj Gj. apply updz_inv in Eo2, Eo. destruct Eo2 as (_ & _ & Q2), Eo as (_ & _ & Q1). rewrite Q2 in Gj. destruct (Z.eqb_spec j i); [lia|]. rewrite Q1 in Gj. destruct (Z.eqb_spec j i); [lia|]. apply (R j sl'); [lia|exact Gj].
Qed.
Lemma safe15 e c input out : peer_wf C c -> 1 <= p_index C c <= 128 -> p_step C c <> 0 -> Forall usable (p_ins C c) -> slots C (responded C) (p_ins C c) -> is_ok (peer_step15 C e c input out).
Proof.
  intros W Hx H0 U F. unfold peer_step15. destruct (zlen input =? _) eqn:E1; cbn [negb]; [|eexists; reflexivity]. destruct (zlen out =? _) eqn:E2; cbn [negb]; [|eexists; reflexivity].
  apply Z.eqb_eq in E1, E2. rewrite msg9_val in E2. change msg8_SIZE with 256 in *. pose proof (v_n C c W) as Hn. pose proof (v_t C c W) as Ht.
  destruct (loopM_seq_ok (peer_step15_body C e input) (fun i s => p_ext C c s /\ R15 C c s /\ rest i (p_ins C s) /\ made C (fun _ => True) (responded C) i (p_ins C s)) 0 (Z.to_nat (p_n C c)) c) as (r & -> & HP).
  - split; [apply pext_refl|]. split; [split; [apply kept_refl|auto]|]. split; [apply rest_0; exact U|apply made_0; exact F].
  - intros i c2 Hi (Y1 & Y2 & Y3 & Y4). destruct (body15_safe e input c i c2) as (r & E & L); try assumption; try lia.
    exists r. split; [exact E|]. destruct r as [c3|]; [|exact I].
    pose proof (pext_step15_body C _ _ _ _ _ E) as X3. cbn [ctl_state] in X3. split; [eapply pext_trans; eassumption|].
    split; [eapply R15_trans; [exact Y2|]; exact (b15 C _ _ _ _ _ E)|]. split; [exact L|]. eapply b15_next; [exact E|exact Y4].
  - cbn [bind]. destruct r as [c1|]; [|eexists; reflexivity]. destruct HP as (X & (_ & Rc & _) & _). rewrite (y_n C _ _ X).
    destruct (verify_commitments_spec (cR C) (ok_cR C HC) (p_n C c) (p_t C c) (p_index C c1) (p_com C c1) (p_xshares C c1) (repeat 0 (Z.to_nat (p_n C c)))) as (ret & fails & named & -> & Lf & _).
    { unfold verify_args, index_ok. rewrite (y_index C _ _ X) by assumption. rewrite Rc. split; [lia|]. split; [lia|]. split; [lia|]. split; [apply (v_com C c W)|]. split; [apply (v_rows C c W)|].
      split; [pose proof (y_xshares C _ _ X) as Z; rewrite (v_xshares C c W) in Z; exact Z|rewrite repeat_length; lia]. }
    cbn [bind]. rewrite repeat_length in Lf. rewrite hdr_val.
    match goal with |- context [wr out 111 ?m] => destruct (wr_is_ok out 111 m) as (o1 & -> & L1) end; [lia|rewrite zlen_cons; unfold zlen at 1; rewrite map_length, Lf; lia|]. cbn [bind].
    match goal with |- context [send_msg S o1 ?a ?b ?c ?d ?e ?f ?g ?h] => destruct (send_safe C HC o1 a b c d e f g h) as (o2 & -> & L2) end; [lia|lia|rewrite (y_sid C _ _ X); apply (v_sid C c W)|].
    cbn [bind]. eexists; reflexivity.
Qed.
(** step 17: the complaints and those against the peer itself *)
Definition tallied (n x : Z) (c : peer) : Prop := good_complaints n (p_complaints C c) /\ NoDup (p_my C c) /\
  forall y, In y (p_my C c) -> 1 <= y <= n /\ In (y * 256 + x) (p_complaints C c).
Lemma complaint17_safe input p i lim k c0 c : peer_wf C c0 -> p_ext C c0 c -> p_step C c0 <> 0 -> 0 <= i < p_n C c0 ->
  (exists a, getz input (p + hdr_SIZE + (k + 1)) = Ok a /\ 1 <= bz a <= p_n C c0) -> tallied (p_n C c0) (p_index C c0) c ->
  exists r, peer_step17_complaint C input p i lim k c = Ok r /\ match r with Next c' => p_ext C c0 c' /\ tallied (p_n C c0) (p_index C c0) c' | Return _ _ => True end.
Proof.
  intros W X H0 Hi (a & Ga & Ra) (G & ND & My). unfold peer_step17_complaint. destruct (k + 1 <? lim); cbn [negb]; [|eexists; split; [reflexivity|]; (split; [exact X|]; split; [exact G|]; split; [exact ND|exact My])].
  rewrite Ga. cbn [bind]. pose proof (v_n C c0 W) as Hn. rewrite pair16_val by lia. destruct (existsb _ _) eqn:Ex; [eexists; split; [reflexivity|]; (split; [exact X|]; split; [exact G|]; split; [exact ND|exact My])|].
  assert (Nin : ~ In ((i + 1) * 256 + bz a) (p_complaints C c)) by (rewrite <- existsb_eqb_In, Ex; discriminate).
  assert (G' : good_complaints (p_n C c0) (p_complaints C c ++ [(i + 1) * 256 + bz a])).
  { destruct G as (G1 & G2). split; [|apply NoDup_snoc; assumption]. apply Forall_app. split; [exact G1|]. constructor; [|constructor]. unfold complaint_ok. destruct (pair_parts (i + 1) (bz a)) as (-> & ->); lia. }
  assert (Lc : zlen (p_complaints C c) < p_cmax C c).
  { rewrite (y_cmax C _ _ X), (v_cmax C c0 W). destruct G' as (G1 & G2). pose proof (complaints_bound (p_n C c0) _ ltac:(lia) G1 G2) as B. rewrite zlen_app in B. change (zlen [_]) with 1 in B. lia. }
  destruct (Z.ltb_spec (zlen (p_complaints C c)) (p_cmax C c)); [|lia]. cbn [negb p_index peer_complaints_set]. rewrite (y_index C _ _ X) by assumption.
  destruct (Z.eqb_spec (bz a) (p_index C c0)) as [Ea|Ea].
  - cbn [p_my p_mymax peer_complaints_set].
    assert (Ni : ~ In (i + 1) (p_my C c)) by (intros Q; apply My in Q; rewrite <- Ea in Q; apply Nin, Q).
    assert (Lm : zlen (p_my C c) < p_mymax C c).
    { rewrite (y_mymax C _ _ X), (v_mymax C c0 W). pose proof (NoDup_snoc _ _ ND Ni) as ND'.
      assert (B : (length (p_my C c ++ [i + 1]%Z) <= length (zrange 1 (Z.to_nat (p_n C c0))))%nat).
      { apply NoDup_incl_length; [exact ND'|]. intros y Hy. apply zrange_In. apply in_app_or in Hy. destruct Hy as [Hy|[<-|[]]]; [apply My in Hy|]; lia. }
      rewrite app_length, zrange_length in B. cbn [length] in B. unfold zlen. lia. }
    destruct (Z.ltb_spec (zlen (p_my C c)) (p_mymax C c)); [|lia]. eexists. split; [reflexivity|]. split; [eapply pext_trans; [exact X|constructor; auto]|].
    unfold tallied. cbn [p_complaints p_my peer_complaints_set peer_my_set]. split; [exact G'|]. split; [apply NoDup_snoc; assumption|].
    intros y Hy. apply in_app_or in Hy. destruct Hy as [Hy|[<-|[]]].
    + apply My in Hy. split; [lia|]. apply in_or_app. left. apply Hy.
    + split; [lia|]. apply in_or_app. right. left. rewrite Ea. reflexivity.
  - eexists. split; [reflexivity|]. split; [eapply pext_trans; [exact X|constructor; auto]|].
    unfold tallied. cbn [p_complaints p_my peer_complaints_set]. split; [exact G'|]. split; [exact ND|]. intros y Hy. apply My in Hy. split; [lia|]. apply in_or_app. left. apply Hy.
Qed.
Lemma body17_safe e input c0 i c : peer_wf C c0 -> p_ext C c0 c -> p_step C c0 <> 0 -> 0 <= i < p_n C c0 -> zlen input = msg10_SIZE (p_n C c0) ->
  complaints_sane (p_n C c0) input -> tallied (p_n C c0) (p_index C c0) c ->
  exists r, peer_step17_body C e input i c = Ok r /\ match r with Next c' => p_ext C c0 c' /\ tallied (p_n C c0) (p_index C c0) c' | Return _ _ => True end.
Proof.
  intros W X H0 Hi Li Hs T. unfold peer_step17_body. pose proof (v_n C c0 W) as Hn. rewrite (y_n C _ _ X). unfold msg10_SIZE in Li. rewrite hdr_val in *. unfold complaints_sane in Hs. rewrite msg9_val in *. change off_len with 65.
  set (z := 112 + p_n C c0) in *. assert (Hz : 0 <= i * z /\ i * z + z <= z * p_n C c0) by (assert (0 < z) by lia; split; nia).
  destruct (getz_some (p_pks C c) i) as (pk & ->); [rewrite (y_pks C _ _ X), (v_pks C c0 W); lia|]. cbn [bind].
  match goal with |- context [peer_recv C c input ?o ?l ?a ?b ?d ?pk ?j ?nw] => destruct (peer_recv_safe c input o l a b d pk j nw) as (ret & l' & -> & Ll) end;
    [lia|lia|lia|rewrite (y_last C _ _ X), (v_last C c0 W); lia|]. cbn [bind].
  destruct (ret =? 0); cbn [negb]; [|eexists; split; [reflexivity|exact I]]. rewrite rd_ok by lia. cbn [bind].
  destruct (getz_some input (111 + i * z + 111)) as (d0 & Gd); [lia|]. rewrite Gd. cbn [bind]. destruct (_ <? _); [eexists; split; [reflexivity|exact I]|].
  match goal with |- context [loopM (peer_step17_complaint C input ?p i ?lim) _ ?c1] =>
    destruct (loopM_ok (peer_step17_complaint C input p i lim) (fun c => p_ext C c0 c /\ tallied (p_n C c0) (p_index C c0) c) (zrange 0 (Z.to_nat (bz d0))) c1) as (r & El & Hr) end.
  - split; [eapply pext_trans; [exact X|apply pext_last; exact Ll]|exact T].
  - intros k s1 Hk (Xs & Gs). apply zrange_In in Hk. apply complaint17_safe; try assumption. pose proof (bz_range d0). rewrite hdr_val. apply (Hs i d0 Hi Gd). lia.
  - exists r. split; [exact El|exact Hr].
Qed.
Lemma safe17 e c input out : peer_wf C c -> p_step C c <> 0 -> p_complaints C c = [] -> p_my C c = [] -> complaints_sane (p_n C c) input -> is_ok (peer_step17 C e c input out).
Proof.
  intros W H0 N1 N2 Hs. unfold peer_step17. destruct (zlen input =? _) eqn:E1; cbn [negb]; [|eexists; reflexivity]. destruct (zlen out =? _) eqn:E2; cbn [negb]; [|eexists; reflexivity].
  apply Z.eqb_eq in E1, E2. pose proof (v_n C c W) as Hn. assert (Hi : 111 <= zlen input) by (rewrite E1; unfold msg10_SIZE; rewrite hdr_val, msg9_val; nia).
  destruct (peer_recv_tp_safe c input 0 (zlen input) 10 255 (pe_r e 0)) as (ret & x & ->); [lia|lia|lia|]. cbn [bind].
  destruct (ret =? 0); cbn [negb]; [|eexists; reflexivity].
  set (c1 := peer_transcript_set C _ _).
  destruct (loopM_seq_ok (peer_step17_body C e input) (fun i s => p_ext C c s /\ tallied (p_n C c) (p_index C c) s) 0 (Z.to_nat (p_n C c1)) c1) as (r & -> & _).
  - split; [constructor; auto|]. unfold tallied. cbn. rewrite N1, N2. split; [split; constructor|]. split; [constructor|intros y []].
  - intros i s1 Hi1 (Y1 & Y2). change (p_n C c1) with (p_n C c) in Hi1. apply body17_safe; try assumption; lia.
  - cbn [bind]. destruct r as [c2|]; [|eexists; reflexivity]. destruct (_ =? 0); eexists; reflexivity.
Qed.

Lemma safe17a e c input out : peer_wf C c -> mine C (p_n C c) c -> p_step C c = 7 ->
  (forall j, 0 <= j < p_n C c -> exists s, getz (p_outs C c) j = Ok (Live s) /\ keyed C s) -> is_ok (peer_step17a C e c input out).
Proof.
  intros W (F & Z) D K. unfold peer_step17a. destruct (zlen input =? _) eqn:E1; cbn [negb]; [|eexists; reflexivity]. destruct (zlen out =? _) eqn:E2; cbn [negb]; [|eexists; reflexivity].
  apply Z.eqb_eq in E1, E2. destruct (Z.eqb_spec (zlen out) 0) as [|Hne]; [eexists; reflexivity|].
  pose proof (zlen_nonneg (p_my C c)) as Hm.
  assert (Lo : 111 + zlen (p_my C c) * 33 <= zlen out).
  { unfold peer_output_size in E2. rewrite D in E2. change msg19_SIZE with 143 in E2. change noise_key_SIZE with 32 in E2. rewrite hdr_val in E2. destruct (Z.ltb_spec 0 (zlen (p_complaints C c))) as [|Hz].
    - destruct (Z.ltb_spec 0 (zlen (p_my C c))); lia.
    - pose proof (zlen_nonneg (p_complaints C c)). rewrite Z by (apply zlen_0; lia). change (zlen (@nil BinNums.Z)) with 0. lia. }
  destruct (loopM_seq_ok (peer_step17a_body C c) (fun _ o => zlen o = zlen out) 0 (Z.to_nat (zlen (p_my C c))) out) as (r & -> & HP).
  - reflexivity.
  - intros i o Hi Lo'. unfold peer_step17a_body. change noise_key_SIZE with 32. rewrite hdr_val. destruct (getz_some (p_my C c) i ltac:(lia)) as (x & G). rewrite G. cbn [bind].
    apply getz_In in G. pose proof (proj1 (Forall_forall _ _) F _ G) as Hx. cbv beta in Hx.
    destruct (wr_is_ok o (111 + i * (1 + 32)) [zb x]) as (o1 & -> & L1); [lia|change (zlen [zb x]) with 1; lia|]. cbn [bind].
    destruct (K (x - 1) ltac:(lia)) as (s & -> & k & Hk & Lk). cbn [bind session_key]. rewrite Hk. cbn [of_opt bind].
    destruct (wr_is_ok o1 (111 + i * (1 + 32) + 1) k) as (o2 & -> & L2); [lia|lia|]. cbn [bind]. eexists. split; [reflexivity|]. cbv beta iota. lia.
  - cbn [bind]. destruct r as [o|]; [|eexists; reflexivity]. cbv beta iota in HP.
    destruct (send_safe C HC o 0 (peer_output_size C c) 11 (p_index C c) 0 (p_sk C c) (p_sid C c) (pe_s e 0)) as (o2 & -> & _); [lia|lia|apply (v_sid C c W)|].
    cbn [bind]. eexists; reflexivity.
Qed.
Lemma safe19 e c input out : peer_wf C c -> is_ok (peer_step19 C e c input out).
Proof.
  intros W. unfold peer_step19. destruct (zlen input =? _) eqn:E1; cbn [negb]; [|eexists; reflexivity]. destruct (zlen out =? _) eqn:E2; cbn [negb]; [|eexists; reflexivity].
  apply Z.eqb_eq in E1, E2. change msg19_SIZE with 143 in *. rewrite hdr_val.
  destruct (wr_is_ok out 111 (blake2b (cH C) 32 (p_transcript C c))) as (o1 & -> & L1); [lia|unfold zlen at 1; rewrite (ok_blake2b_len _ (ok_cH C HC)); lia|]. cbn [bind].
  match goal with |- context [send_msg S o1 ?a ?b ?c ?d ?e ?f ?g ?h] => destruct (send_safe C HC o1 a b c d e f g h) as (o2 & -> & L2) end; [lia|lia|apply (v_sid C c W)|].
  cbn [bind]. eexists; reflexivity.
Qed.
Lemma safe21 e c input out : peer_wf C c -> is_ok (peer_step21 C e c input out).
Proof.
  intros W. unfold peer_step21. destruct (zlen input =? _) eqn:E1; cbn [negb]; [|eexists; reflexivity]. destruct (zlen out =? _) eqn:E2; cbn [negb]; [|eexists; reflexivity].
  apply Z.eqb_eq in E1, E2. change msg20_SIZE with 113 in *. change msg21_SIZE with 113 in *. rewrite hdr_val.
  destruct (peer_recv_tp_safe c input 0 (zlen input) 21 255 (pe_r e 0)) as (ret & x & ->); [lia|lia|lia|]. cbn [bind].
  destruct (ret =? 0); cbn [negb]; [|eexists; reflexivity].
  destruct (rd input 111 2) as [d|] eqn:Er; [|rewrite rd_ok in Er by lia; discriminate]. cbn [bind]. apply rd_inv in Er. destruct (bytes_eqb _ _); cbn [negb]; [|eexists; reflexivity].
  destruct (wr_is_ok out 111 d) as (o1 & -> & L1); [lia|lia|]. cbn [bind].
  match goal with |- context [send_msg S o1 ?a ?b ?c ?d ?e ?f ?g ?h] => destruct (send_safe C HC o1 a b c d e f g h) as (o2 & -> & L2) end; [lia|lia|apply (v_sid C c W)|].
  cbn [bind]. eexists; reflexivity.
Qed.

(** what a call relies on *)
Definition call_ready (e : penv) (c : peer) (input : bytes) : Prop :=
  (p_step C c = 3 -> drawn (p_t C c) (pe_a e)) /\
  (p_step C c = 3 \/ p_step C c = 4 -> Forall usable (p_outs C c)) /\
  (p_step C c = 5 -> Forall usable (p_ins C c)) /\
  (p_step C c = 6 -> complaints_sane (p_n C c) input).
Lemma finish_ok r : is_ok r -> is_ok (peer_finish_step C r).
Proof. intros ([[ret c] out] & ->). eexists. reflexivity. Qed.
Theorem peer_safe e c input out : pinv C c -> call_ready e c input -> is_ok (peer_next C e c input out).
Proof.
  intros I (R1 & R2 & R3 & R4). pose proof (i_wf C c I) as W. pose proof (v_step C c W) as H0.
  destruct (Z.ltb_spec 10 (p_step C c)) as [Hs|Hs]; [rewrite peer_next_other by lia; eexists; reflexivity|].
  assert (D : p_step C c = 0 \/ p_step C c = 1 \/ p_step C c = 2 \/ p_step C c = 3 \/ p_step C c = 4 \/ p_step C c = 5 \/ p_step C c = 6 \/ p_step C c = 7 \/ p_step C c = 8 \/ p_step C c = 9 \/ p_step C c = 10) by lia.
  destruct D as [D|[D|[D|[D|[D|[D|[D|[D|[D|[D|D]]]]]]]]]].
  - rewrite peer_next_0 by assumption. apply finish_ok, safe23, W.
  - rewrite peer_next_1 by assumption. apply finish_ok, safe5, W.
  - rewrite peer_next_2 by assumption. apply finish_ok, safe7; [exact W|apply (i_dev C c I); lia].
  - rewrite peer_next_3 by assumption. apply finish_ok, safe911; [exact W|apply (i_dev C c I); lia|apply R2; lia|apply R1; lia].
  - rewrite peer_next_4 by assumption. apply finish_ok, safe13; [exact W|apply R2; lia|apply (i_fin C c I); lia].
  - rewrite peer_next_5 by assumption. apply finish_ok, safe15; [exact W|apply (i_index C c I); lia|lia|apply R3; lia|apply (i_resp C c I); lia].
  - rewrite peer_next_6 by assumption. destruct (i_none C c I ltac:(lia)). apply finish_ok, safe17; try assumption; [lia|apply R4; lia].
  - rewrite peer_next_7 by assumption. apply finish_ok, safe17a; [exact W|apply (i_my C c I); lia|lia|apply (i_key C c I); lia].
  - rewrite peer_next_8 by assumption. apply finish_ok, safe19, W.
  - rewrite peer_next_9 by assumption. apply finish_ok, safe21, W.
  - rewrite peer_next_10 by assumption. eexists; reflexivity.
Qed.

Theorem peer_safe_history e c0 calls outs input out : peer_fresh C c0 -> peer_run C c0 calls = Ok outs -> let c := final c0 outs in
  (p_step C c = 3 -> drawn (p_t C c) (pe_a e)) ->
  (p_step C c = 3 \/ p_step C c = 4 -> Forall usable (p_outs C c)) ->
  (p_step C c = 5 -> Forall usable (p_ins C c)) ->
  (p_step C c = 6 -> complaints_sane (p_n C c) input) ->
  exists r, peer_next C e c input out = Ok r.
Proof.
  intros F H c A1 A2 A3 A4. apply peer_safe; [|unfold call_ready; auto]. eapply pinv_history; [exact HN|apply fresh_inv; exact F|exact H].
Qed.

End FORWARD.

(** ** tpdkg_peer_free *)
Section FREE.
Variable C : crypto.
Notation peer := (peer C).
Notation N := (cN C).

Definition free_at (i : Z) (c : peer) : res peer :=
  do sl <- getz (p_ins C c) i ;;
  do sl <- free_slot C sl ;;
  do ins <- updz (p_ins C c) i sl ;;
  let c := peer_ins_set C c ins in
  do sl <- getz (p_outs C c) i ;;
  do sl <- free_slot C sl ;;
  do outs <- updz (p_outs C c) i sl ;;
  Ok (peer_outs_set C c outs).
Lemma free_slot_ok sl : usable sl -> free_slot C sl = Ok (after_free sl).
Proof. destruct sl; intros H; try contradiction; reflexivity. Qed.
Lemma free_slot_inv sl sl' : free_slot C sl = Ok sl' -> usable sl /\ sl' = after_free sl.
Proof. destruct sl; intros H; try discriminate; injection H as <-; split; exact I || reflexivity. Qed.

Lemma free_at_inv i c c' : free_at i c = Ok c' -> exists si so ins outs, getz (p_ins C c) i = Ok si /\ usable si /\ getz (p_outs C c) i = Ok so /\ usable so /\
  updz (p_ins C c) i (after_free si) = Ok ins /\ updz (p_outs C c) i (after_free so) = Ok outs /\ c' = peer_outs_set C (peer_ins_set C c ins) outs.
Proof.
  unfold free_at. intros H. apply bind_ok in H. destruct H as (si & E1 & H). apply bind_ok in H. destruct H as (si' & E2 & H). apply bind_ok in H. destruct H as (ins & E3 & H).
  cbn zeta in H. cbn [p_outs peer_ins_set] in H. apply bind_ok in H. destruct H as (so & E4 & H). apply bind_ok in H. destruct H as (so' & E5 & H). apply bind_ok in H. destruct H as (outs & E6 & H).
  injection H as <-. apply free_slot_inv in E2, E5. destruct E2 as (U1 & ->), E5 as (U2 & ->). exists si, so, ins, outs. auto 10.
Qed.
Lemma free_at_ok i c si so : getz (p_ins C c) i = Ok si -> usable si -> getz (p_outs C c) i = Ok so -> usable so -> exists c', free_at i c = Ok c'.
Proof.
  intros E1 U1 E2 U2. unfold free_at. rewrite E1. cbn [bind]. rewrite (free_slot_ok si U1). cbn [bind].
  destruct (updz_some (p_ins C c) i (after_free si)) as (ins & ->); [apply getz_inv in E1; apply E1|]. cbn [bind p_outs peer_ins_set].
  rewrite E2. cbn [bind]. rewrite (free_slot_ok so U2). cbn [bind]. destruct (updz_some (p_outs C c) i (after_free so)) as (outs & ->); [apply getz_inv in E2; apply E2|]. cbn [bind]. eauto.
Qed.

Lemma free_loop k : forall a c c', 0 <= a -> foldM free_at (zrange a k) c = Ok c' ->
  (forall j, a <= j < a + Z.of_nat k -> exists si so, getz (p_ins C c) j = Ok si /\ usable si /\ getz (p_ins C c') j = Ok (after_free si) /\
     getz (p_outs C c) j = Ok so /\ usable so /\ getz (p_outs C c') j = Ok (after_free so)) /\
  (forall j, ~ a <= j < a + Z.of_nat k -> getz (p_ins C c') j = getz (p_ins C c) j /\ getz (p_outs C c') j = getz (p_outs C c) j) /\
  c' = peer_outs_set C (peer_ins_set C c (p_ins C c')) (p_outs C c').
Proof.
  induction k as [|k IH]; intros a c c' Ha H.
  - cbn in H. injection H as <-. split; [intros j Hj; lia|]. split; [auto|destruct c; reflexivity].
  - rewrite zrange_S in H. cbn [foldM] in H. apply bind_ok in H. destruct H as (c1 & E & H). apply IH in H; [|lia]. destruct H as (H1 & H2 & H3).
    apply free_at_inv in E. destruct E as (si & so & ins & outs & A1 & A2 & A3 & A4 & A5 & A6 & A7). apply updz_inv in A5, A6. destruct A5 as (_ & _ & Q1), A6 as (_ & _ & Q2).
    assert (Qi : forall j, getz (p_ins C c1) j = if j =? a then Ok (after_free si) else getz (p_ins C c) j) by (rewrite A7; exact Q1).
    assert (Qo : forall j, getz (p_outs C c1) j = if j =? a then Ok (after_free so) else getz (p_outs C c) j) by (rewrite A7; exact Q2).
    split; [|split].
    + intros j Hj. destruct (Z.eqb_spec j a) as [->|Hne].
      * destruct (H2 a ltac:(lia)) as (G1 & G2). exists si, so. rewrite G1, G2, Qi, Qo, Z.eqb_refl. auto 10.
      * destruct (H1 j ltac:(lia)) as (si1 & so1 & B1 & B2 & B3 & B4 & B5 & B6). exists si1, so1. rewrite Qi in B1. rewrite Qo in B4. destruct (Z.eqb_spec j a); [lia|]. auto 10.
    + intros j Hj. destruct (H2 j ltac:(lia)) as (G1 & G2). rewrite G1, G2, Qi, Qo. destruct (Z.eqb_spec j a); [lia|auto].
    + rewrite H3. rewrite A7. reflexivity.
Qed.

Lemma free_loop_ok k : forall a c, 0 <= a ->
  (forall j, a <= j < a + Z.of_nat k -> exists si so, getz (p_ins C c) j = Ok si /\ usable si /\ getz (p_outs C c) j = Ok so /\ usable so) ->
  exists c', foldM free_at (zrange a k) c = Ok c'.
Proof.
  induction k as [|k IH]; intros a c Ha H; [eexists; reflexivity|]. rewrite zrange_S. cbn [foldM].
  destruct (H a ltac:(lia)) as (si & so & A1 & A2 & A3 & A4). destruct (free_at_ok a c si so A1 A2 A3 A4) as (c1 & E). rewrite E. cbn [bind]. apply IH; [lia|].
  intros j Hj. destruct (H j ltac:(lia)) as (si1 & so1 & B1 & B2 & B3 & B4). exists si1, so1. apply free_at_inv in E. destruct E as (x1 & x2 & ins & outs & _ & _ & _ & _ & U1 & U2 & ->).
  apply updz_inv in U1, U2. destruct U1 as (_ & _ & Q1), U2 as (_ & _ & Q2). cbn [p_ins p_outs peer_ins_set peer_outs_set]. rewrite Q1, Q2. destruct (Z.eqb_spec j a); [lia|]. auto.
Qed.

Lemma Forall_getz {A} (P : A -> Prop) l : Forall P l <-> forall j, 0 <= j < zlen l -> exists x, getz l j = Ok x /\ P x.
Proof.
  split.
  - intros F j Hj. destruct (getz_some l j Hj) as (x & E). exists x. split; [exact E|]. apply getz_In in E. exact (proj1 (Forall_forall _ _) F x E).
  - intros H. apply Forall_forall. intros x Hx. apply In_nth_error in Hx. destruct Hx as (k & Hk).
    assert (Lk : (k < length l)%nat) by (apply nth_error_Some; congruence). destruct (H (Z.of_nat k)) as (y & E & Hy); [unfold zlen; lia|].
    apply getz_inv in E. destruct E as (_ & E). rewrite Nat2Z.id in E. congruence.
Qed.

Theorem free_defined c : peer_wf C c -> (exists c', peer_free C c = Ok c') <-> Forall usable (p_ins C c) /\ Forall usable (p_outs C c).
Proof.
  intros W. pose proof (v_n C c W) as Hn. rewrite !Forall_getz, (v_ins C c W), (v_outs C c W). change (peer_free C c) with (foldM free_at (zrange 0 (Z.to_nat (p_n C c))) c). split.
  - intros (c' & H). apply free_loop in H; [|lia]. destruct H as (H & _). split; intros j Hj; destruct (H j ltac:(lia)) as (si & so & A1 & A2 & _ & A3 & A4 & _); eauto.
  - intros (H1 & H2). apply free_loop_ok; [lia|]. intros j Hj. destruct (H1 j ltac:(lia)) as (si & A1 & A2), (H2 j ltac:(lia)) as (so & B1 & B2). eauto 10.
Qed.
Lemma map_after_free (l l' : list (slot (nz_sess N))) : zlen l' = zlen l -> (forall j, 0 <= j < zlen l -> exists x, getz l j = Ok x /\ getz l' j = Ok (after_free x)) -> l' = map after_free l.
Proof.
  intros L H. apply getz_ext; [unfold zlen in *; rewrite map_length; exact L|]. intros j Hj. destruct (H j ltac:(lia)) as (x & E1 & E2). rewrite E2. symmetry. apply getz_map. exact E1.
Qed.
Theorem free_effect c c' : peer_wf C c -> peer_free C c = Ok c' ->
  c' = peer_outs_set C (peer_ins_set C c (map after_free (p_ins C c))) (map after_free (p_outs C c)).
Proof.
  intros W H. pose proof (v_n C c W) as Hn. change (peer_free C c) with (foldM free_at (zrange 0 (Z.to_nat (p_n C c))) c) in H. pose proof H as H'. apply free_loop in H; [|lia]. destruct H as (H & _ & E).
  assert (L : zlen (p_ins C c') = zlen (p_ins C c) /\ zlen (p_outs C c') = zlen (p_outs C c)).
  { refine (foldM_inv free_at (fun s => zlen (p_ins C s) = zlen (p_ins C c) /\ zlen (p_outs C s) = zlen (p_outs C c)) _ _ _ (conj eq_refl eq_refl) _ H').
    intros i s1 s2 _ (L1 & L2) Es. apply free_at_inv in Es. destruct Es as (? & ? & ? & ? & _ & _ & _ & _ & U1 & U2 & ->). apply updz_zlen in U1, U2. cbn. split; congruence. }
  destruct L as (L1 & L2). rewrite E at 1. f_equal; [f_equal|]; apply map_after_free; try assumption; intros j Hj; rewrite ?(v_ins C c W), ?(v_outs C c W) in Hj;
    destruct (H j ltac:(lia)) as (si & so & A1 & _ & A2 & A3 & _ & A4); eauto.
Qed.
Theorem free_after_success (HC : crypto_ok C) c0 calls outs : peer_fresh C c0 -> peer_run C c0 calls = Ok outs -> 6 <= p_step C (final c0 outs) <= 11 ->
  exists c', peer_free C (final c0 outs) = Ok c'.
Proof.
  intros F H Hs. pose proof (pinv_history C (ok_cN C HC) calls c0 outs (fresh_inv C c0 F) H) as I. set (c := final c0 outs) in *. pose proof (i_wf C c I) as W. apply free_defined; [exact W|].
  rewrite !Forall_getz, (v_ins C c W), (v_outs C c W). split; intros j Hj.
  - destruct (i_live C c I Hs j Hj) as (s & E). exists (Live s). split; [exact E|exact Logic.I].
  - destruct (i_key C c I ltac:(lia) j Hj) as (s & E & _). exists (Live s). split; [exact E|exact Logic.I].
Qed.
End FREE.
