(** What the trusted party's step functions leave unchanged. *)
From Coq Require Import ZArith Lia List Bool.
From Coq.Strings Require Import Byte.
From Verif Require Import Bytes Res Mem Sodium ToprfModel DkgModel WireModel TpCrypto TpModel.
Import ListNotations.
Open Scope list_scope.
Open Scope Z_scope.

(** inversion of a monadic equation [H : ... = Ok _] *)
Ltac inv1 H :=
  lazymatch type of H with
  | bind ?x _ = Ok _ =>
      let y := fresh "y" in let E := fresh "E" in
      apply bind_ok in H; destruct H as (y & E & H)
  | (if ?b then _ else _) = Ok _ => let E := fresh "E" in destruct b eqn:E
  | match ?x with _ => _ end = Ok _ => let E := fresh "E" in destruct x eqn:E
  | UB = Ok _ => discriminate H
  | Ok _ = Ok _ => first [discriminate H | injection H; clear H; intros; subst]
  | _ => fail
  end.
Ltac inv H := repeat (cbn beta iota zeta in H; inv1 H).

(** the relation between the state before and after (part of) a step *)
Record tp_ext (c c' : tp) : Prop := mkExt {
  x_step : t_step c' = t_step c; x_prev : t_prev c' = t_prev c; x_sid : t_sid c' = t_sid c; x_n : t_n c' = t_n c;
  x_t : t_t c' = t_t c; x_pk : t_pk c' = t_pk c; x_sk : t_sk c' = t_sk c; x_eps : t_eps c' = t_eps c;
  x_lt : t_lt c' = t_lt c; x_cmax : t_cmax c' = t_cmax c; x_chmax : t_chmax c' = t_chmax c;
  x_last : zlen (t_last c') = zlen (t_last c); x_pks : zlen (t_pks c') = zlen (t_pks c);
  x_com : zlen (t_com c') = zlen (t_com c); x_enc : zlen (t_enc c') = zlen (t_enc c);
  x_chlen : zlen (t_cheaters c) <= t_chmax c -> zlen (t_cheaters c') <= t_chmax c';
  x_cheaters : exists l, t_cheaters c' = t_cheaters c ++ l;
  x_rows : 0 <= t_t c -> Forall (fun row => zlen row = t_t c) (t_com c) -> Forall (fun row => zlen row = t_t c) (t_com c')
}.

Lemma ext_refl c : tp_ext c c.
Proof. constructor; try reflexivity; auto. exists []. rewrite app_nil_r. reflexivity. Qed.

Lemma ext_trans a b c : tp_ext a b -> tp_ext b c -> tp_ext a c.
Proof.
  intros [] []. constructor; try congruence; auto.
  - destruct x_cheaters0 as (l1 & E1), x_cheaters1 as (l2 & E2). exists (l1 ++ l2). rewrite E2, E1, app_assoc. reflexivity.
  - intros H1 H2. rewrite <- x_t0. apply x_rows1; rewrite x_t0; auto.
Qed.

Lemma ext_last c l : zlen l = zlen (t_last c) -> tp_ext c (tp_last_set c l).
Proof. intros H. constructor; try reflexivity; auto. exists []. cbn. rewrite app_nil_r. reflexivity. Qed.
Lemma ext_pks c l : zlen l = zlen (t_pks c) -> tp_ext c (tp_pks_set c l).
Proof. intros H. constructor; try reflexivity; auto. exists []. cbn. rewrite app_nil_r. reflexivity. Qed.
Lemma rows_zlen t data : 0 <= t -> zlen (rows t data) = t.
Proof. intros H. unfold rows, zlen. rewrite map_length, seq_length. lia. Qed.
Lemma updz_Forall {A} (P : A -> Prop) l i x l' : updz l i x = Ok l' -> P x -> Forall P l -> Forall P l'.
Proof.
  intros E Hx Hl. apply updz_inv in E. destruct E as (_ & E2 & E3). apply Forall_forall. intros y Hy. apply In_nth_error in Hy. destruct Hy as (k & Hk).
  specialize (E3 (Z.of_nat k)). unfold getz in E3. destruct (Z.ltb_spec (Z.of_nat k) 0); [lia|]. rewrite Nat2Z.id, Hk in E3. cbn [of_opt] in E3.
  destruct (_ =? _); [injection E3 as ->; exact Hx|]. destruct (nth_error l k) as [z|] eqn:Z; [|discriminate]. injection E3 as ->.
  apply (proj1 (Forall_forall _ _) Hl). eapply nth_error_In; exact Z.
Qed.
Lemma ext_com c i data l : updz (t_com c) i (rows (t_t c) data) = Ok l -> tp_ext c (tp_com_set c l).
Proof.
  intros H. constructor; try reflexivity; auto.
  - cbn. apply updz_inv in H. tauto.
  - exists []. cbn. rewrite app_nil_r. reflexivity.
  - intros H0 H1. cbn. eapply (updz_Forall (fun row => zlen row = t_t c)); [exact H|apply rows_zlen; exact H0|exact H1].
Qed.
Lemma ext_enc c l : zlen l = zlen (t_enc c) -> tp_ext c (tp_enc_set c l).
Proof. intros H. constructor; try reflexivity; auto. exists []. cbn. rewrite app_nil_r. reflexivity. Qed.
Lemma ext_complaints c l : tp_ext c (tp_complaints_set c l).
Proof. constructor; try reflexivity; auto. exists []. cbn. rewrite app_nil_r. reflexivity. Qed.
Lemma ext_transcript c l : tp_ext c (tp_transcript_set c l).
Proof. constructor; try reflexivity; auto. exists []. cbn. rewrite app_nil_r. reflexivity. Qed.
Lemma ext_cheaters c x : zlen (t_cheaters c) < t_chmax c -> tp_ext c (tp_cheaters_set c (t_cheaters c ++ [x])).
Proof.
  intros H. constructor; try reflexivity; cbn.
  - rewrite zlen_app. change (zlen [x]) with 1. lia.
  - eexists. reflexivity.
  - auto.
Qed.

Lemma add_cheater_inv c step error peer other c' : add_cheater c step error peer other = Some c' ->
  zlen (t_cheaters c) < t_chmax c /\
  c' = tp_cheaters_set c (t_cheaters c ++ [mkCheater step error (u8 peer) (u8 other) 0]).
Proof.
  unfold add_cheater. destruct (Z.leb_spec (t_chmax c) (zlen (t_cheaters c))); [discriminate|].
  intros E. injection E as <-. auto.
Qed.

Lemma ext_add c step error peer other c' : add_cheater c step error peer other = Some c' -> tp_ext c c'.
Proof. intros H. apply add_cheater_inv in H. destruct H as (H & ->). apply ext_cheaters. assumption. Qed.

Lemma updz_zlen {A} (l : list A) i v l' : updz l i v = Ok l' -> zlen l' = zlen l.
Proof. intros H. apply updz_inv in H. tauto. Qed.

(** the codes a loop can return are those its body can return *)
Lemma loopM_code {I X} (P : Z -> Prop) (f : I -> X -> res (ctl X)) l s code s' :
  (forall i s code s', f i s = Ok (Return code s') -> P code) -> loopM f l s = Ok (Return code s') -> P code.
Proof.
  intros Hf. revert s. induction l as [|i l IH]; intros s H; cbn [loopM] in H; [discriminate|].
  apply bind_ok in H. destruct H as (r & E & H). destruct r as [s1|r1 s1]; [eapply IH; exact H|].
  injection H as -> ->. eapply Hf; exact E.
Qed.

Section TP.
Variable C : crypto.

Lemma tp_recv_inv c buf off len msgno from to pk i now ret c' :
  tp_recv C c buf off len msgno from to pk i now = Ok (ret, c') ->
  exists last last' l, getz (t_last c) i = Ok last /\
    recv_msg (cS C) buf off len msgno from to pk (t_sid c) (t_eps c) last now = Ok (ret, last') /\
    updz (t_last c) i last' = Ok l /\ c' = tp_last_set c l.
Proof.
  unfold tp_recv. intros H. inv H. do 3 eexists. repeat split; eassumption.
Qed.

Lemma ext_recv c buf off len msgno from to pk i now ret c' :
  tp_recv C c buf off len msgno from to pk i now = Ok (ret, c') -> tp_ext c c'.
Proof.
  intros H. apply tp_recv_inv in H. destruct H as (last & last' & l & _ & _ & H & ->).
  apply ext_last. eapply updz_zlen; exact H.
Qed.

(** the result state of a loop body / loop / handler *)
Definition ctl_state {X} (r : ctl X) : X := match r with Next s => s | Return _ s => s end.

Lemma loop_ext {I X} (proj : X -> tp) (f : I -> X -> res (ctl X)) l s r :
  (forall i s r, f i s = Ok r -> tp_ext (proj s) (proj (ctl_state r))) ->
  loopM f l s = Ok r -> tp_ext (proj s) (proj (ctl_state r)).
Proof.
  intros Hf H.
  pose proof (loopM_inv f (fun s' => tp_ext (proj s) (proj s')) (fun _ s' => tp_ext (proj s) (proj s')) l s r) as L.
  assert (HH : match r with Next s2 => tp_ext (proj s) (proj s2) | Return _ s2 => tp_ext (proj s) (proj s2) end).
  { apply L; [apply ext_refl| |assumption]. intros i s1 c1 _ H1 E. pose proof (Hf _ _ _ E) as H2.
    destruct c1; cbn in *; eapply ext_trans; eassumption. }
  destruct r; assumption.
Qed.

Hint Resolve ext_refl ext_last ext_pks ext_com ext_enc ext_complaints ext_transcript ext_cheaters ext_add ext_recv updz_zlen wr_zlen : ext.

(** chain the facts found in the context *)
Ltac chain :=
  cbn [ctl_state fst snd] in *;
  repeat match goal with
  | H : tp_recv C ?c _ _ _ _ _ _ _ _ _ = Ok (_, ?c') |- tp_ext ?c ?x => eapply ext_trans; [exact (ext_recv _ _ _ _ _ _ _ _ _ _ _ _ H)|]; clear H
  | H : add_cheater ?c _ _ _ _ = Some ?c' |- tp_ext ?c ?x => eapply ext_trans; [exact (ext_add _ _ _ _ _ _ H)|]; clear H
  end; eauto 6 with ext.

Lemma ext_step4_body e input i s r : tp_step4_body C e input i s = Ok r -> tp_ext (fst (fst s)) (fst (fst (ctl_state r))).
Proof. destruct s as [[c out] w]. unfold tp_step4_body. intros H. inv H; chain. Qed.

Lemma ext_step68_body e input i s r : tp_step68_body C e input i s = Ok r -> tp_ext (fst (fst s)) (fst (fst (ctl_state r))).
Proof. destruct s as [[c out] w]. unfold tp_step68_body. intros H. inv H; chain. Qed.

Lemma ext_step12_body e input i s r : tp_step12_body C e input i s = Ok r -> tp_ext (fst (fst s)) (fst (fst (ctl_state r))).
Proof. destruct s as [[c out] w]. unfold tp_step12_body. intros H. inv H; chain. Qed.

Lemma ext_step14_body e input i s r : tp_step14_body C e input i s = Ok r -> tp_ext (fst (fst s)) (fst (fst (ctl_state r))).
Proof. destruct s as [[c out] w]. unfold tp_step14_body. intros H. inv H; chain. Qed.

Lemma ext_step16_complaint input p i lim k c r : tp_step16_complaint input p i lim k c = Ok r -> tp_ext c (ctl_state r).
Proof. unfold tp_step16_complaint. intros H. inv H; chain. Qed.

Lemma ext_step16_body e input i s r : tp_step16_body C e input i s = Ok r -> tp_ext (fst (fst s)) (fst (fst (ctl_state r))).
Proof.
  destruct s as [[c out] w]. unfold tp_step16_body. intros H. inv H; chain;
    repeat match goal with H : loopM (tp_step16_complaint _ _ _ _) _ _ = Ok _ |- _ =>
      eapply (loop_ext (fun c => c)) in H; [|intros; eapply ext_step16_complaint; eassumption]; cbn [ctl_state] in H end; assumption.
Qed.

Lemma ext_step18_key e input p i k s r : tp_step18_key C e input p i k s = Ok r -> tp_ext (fst s) (fst (ctl_state r)).
Proof.
  destruct s as [c cs]. unfold tp_step18_key. intros H. inv H; try solve [chain].
  match goal with H : add_cheater _ _ _ _ _ = Some _ |- _ => apply add_cheater_inv in H; destruct H as (Hl & ->) end.
  match goal with H : updz (t_cheaters (tp_cheaters_set _ (?l ++ [?x]))) _ _ = Ok _ |- _ => rename H into Hu end.
  cbn [t_cheaters tp_cheaters_set] in Hu. rewrite (updz_mid (t_cheaters c) _ []) in Hu; [|rewrite zlen_app; change (zlen [_]) with 1; lia].
  injection Hu as <-. apply (ext_cheaters c). assumption.
Qed.

Ltac useloop proj lem :=
  match goal with H : loopM _ _ _ = Ok _ |- _ =>
    eapply (loop_ext proj) in H; [|intros; eapply lem; eassumption]; cbn [ctl_state fst snd] in H end.
Ltac useloop3 lem :=
  match goal with H : loopM _ _ _ = Ok _ |- _ =>
    eapply (loop_ext (fun s => fst (fst s))) in H; [|intros; eapply lem; eassumption]; cbn [ctl_state fst snd] in H end.

Lemma ext_step18_body e input ctr i s r : tp_step18_body C e input ctr i s = Ok r -> tp_ext (fst (fst s)) (fst (fst (ctl_state r))).
Proof.
  destruct s as [[c cs] p]. unfold tp_step18_body. intros H. inv H; chain;
    useloop (fun s : tp * list Z => fst s) ext_step18_key; assumption.
Qed.

Lemma ext_step18_unanswered x c r : tp_step18_unanswered x c = Ok r -> tp_ext c (ctl_state r).
Proof. unfold tp_step18_unanswered. intros H. inv H; chain. Qed.

Lemma ext_step20_body e input hash i s r : tp_step20_body C e input hash i s = Ok r -> tp_ext (fst s) (fst (ctl_state r)).
Proof. destruct s as [c out]. unfold tp_step20_body. intros H. inv H; chain. Qed.

Lemma ext_step22_body e input i c r : tp_step22_body C e input i c = Ok r -> tp_ext c (ctl_state r).
Proof. unfold tp_step22_body. intros H. inv H; chain. Qed.

Lemma ext_step1 e c input out ret c' out' : tp_step1 C e c input out = Ok (ret, c', out') -> tp_ext c c'.
Proof. unfold tp_step1. intros H. inv H; chain. Qed.

Lemma ext_step4 e c input out ret c' out' : tp_step4 C e c input out = Ok (ret, c', out') -> tp_ext c c'.
Proof. unfold tp_step4. intros H. inv H; chain; useloop3 ext_step4_body; eauto using ext_trans with ext. Qed.

Lemma ext_step68 e c input out ret c' out' : tp_step68 C e c input out = Ok (ret, c', out') -> tp_ext c c'.
Proof. unfold tp_step68. intros H. inv H; chain; useloop3 ext_step68_body; eauto using ext_trans with ext. Qed.

Lemma ext_step12 e c input out ret c' out' : tp_step12 C e c input out = Ok (ret, c', out') -> tp_ext c c'.
Proof. unfold tp_step12. intros H. inv H; chain; useloop3 ext_step12_body; eauto using ext_trans with ext. Qed.

Lemma ext_step14 e c input out ret c' out' : tp_step14 C e c input out = Ok (ret, c', out') -> tp_ext c c'.
Proof. unfold tp_step14. intros H. inv H; chain; useloop3 ext_step14_body; eauto using ext_trans with ext. Qed.

Lemma ext_step16 e c input out ret c' out' : tp_step16 C e c input out = Ok (ret, c', out') -> tp_ext c c'.
Proof.
  unfold tp_step16. intros H. inv H; try solve [chain]; useloop3 ext_step16_body;
    (eapply ext_trans; [apply ext_complaints|]); (eapply ext_trans; [eassumption|]); chain.
Qed.

(** step 18 and 20 may also set the step counter *)
Lemma ext_step18 e c input out ret c' out' : tp_step18 C e c input out = Ok (ret, c', out') ->
  exists c1, tp_ext c c1 /\ (c' = c1 /\ (ret = 1 \/ ret = 2 \/ ret = 4) \/ c' = tp_step_set c1 99 (t_prev c1) /\ ret = 3).
Proof.
  unfold tp_step18. intros H. inv H.
  - exists c'. split; [chain|auto].
  - exists c'. split; [chain|auto].
  - match goal with H : loopM tp_step18_unanswered _ _ = Ok _ |- _ =>
      eapply (loop_ext (fun c => c)) in H; [|intros; eapply ext_step18_unanswered; eassumption] end.
    useloop3 ext_step18_body. eexists. split; [eapply ext_trans; eassumption|]. right. auto.
  - match goal with H : loopM tp_step18_unanswered _ _ = Ok _ |- _ => pose proof H as HR;
      eapply (loop_ext (fun c => c)) in H; [|intros; eapply ext_step18_unanswered; eassumption] end.
    assert (ret = 4).
    { refine (loopM_code (fun r => r = 4) _ _ _ _ _ _ HR). intros x s1 r1 s2 E'. unfold tp_step18_unanswered in E'. inv E'; auto. }
    useloop3 ext_step18_body. eexists. split; [eapply ext_trans; eassumption|]. left. auto.
  - match goal with H : loopM _ _ _ = Ok _ |- _ => pose proof H as HR end.
    assert (ret = 4).
    { refine (loopM_code (fun r => r = 4) _ _ _ _ _ _ HR). intros x s1 r1 s2 E'. destruct s1 as [[a b] q]. unfold tp_step18_body in E'. inv E'; auto.
      match goal with H : loopM _ _ _ = Ok _ |- _ => rename H into HQ end.
      refine (loopM_code (fun r => r = 4) _ _ _ _ _ _ HQ). intros x2 s3 r2 s4 E''. destruct s3. unfold tp_step18_key in E''. inv E''; auto. }
    useloop3 ext_step18_body. eexists. split; [eassumption|]. left. auto.
Qed.

Lemma ext_step20 e c input out ret c' out' : tp_step20 C e c input out = Ok (ret, c', out') ->
  exists c1, tp_ext c c1 /\ (c' = c1 /\ (ret = 0 \/ ret = 1 \/ ret = 2 \/ ret = 4) \/ c' = tp_step_set c1 99 (t_prev c1) /\ ret = 3).
Proof.
  unfold tp_step20. intros H. inv H.
  - exists c'. split; [chain|auto 8].
  - exists c'. split; [chain|auto 8].
  - useloop (fun s : tp * bytes => fst s) ext_step20_body. eexists. split; [eassumption|]. auto 8.
  - useloop (fun s : tp * bytes => fst s) ext_step20_body. eexists. split; [eassumption|]. auto 8.
  - match goal with H : loopM _ _ _ = Ok _ |- _ => pose proof H as HR end.
    assert (ret = 4).
    { refine (loopM_code (fun r => r = 4) _ _ _ _ _ _ HR). intros x s1 r1 s2 E'. destruct s1 as [a b]. unfold tp_step20_body in E'. inv E'; auto. }
    useloop (fun s : tp * bytes => fst s) ext_step20_body. eexists. split; [eassumption|]. auto 8.
Qed.

Lemma ext_step22 e c input out ret c' out' : tp_step22 C e c input out = Ok (ret, c', out') -> tp_ext c c'.
Proof.
  unfold tp_step22. intros H. inv H; try solve [chain]; useloop (fun c : tp => c) ext_step22_body; assumption.
Qed.
End TP.
