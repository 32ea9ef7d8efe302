(** Agreement between the trusted party and the peers: transcripts, complaints, keys, commitments. *)
From Coq Require Import ZArith Lia List Bool.
From Coq.Strings Require Import Byte.
From Verif Require Import Bytes Res Mem Sodium ToprfModel DkgModel WireModel WireSpec WireProofs TpCrypto TpModel PeerModel.
From Verif Require Import TpFrame PeerFrame TpSpec TpMsg TpContent TpComplaints PeerContent TpControl TpSizes.
Import ListNotations.
Open Scope list_scope.
Open Scope Z_scope.

Lemma loop_rel {I X} (R : X -> X -> Prop) (f : I -> X -> res (ctl X)) l s r :
  (forall x, R x x) -> (forall x y z, R x y -> R y z -> R x z) ->
  (forall i s r, f i s = Ok r -> R s (ctl_state r)) -> loopM f l s = Ok r -> R s (ctl_state r).
Proof.
  intros Hr Ht Hf H. pose proof (loopM_inv f (R s) (fun _ => R s) l s r) as L.
  assert (HH : match r with Next s2 => R s s2 | Return _ s2 => R s s2 end).
  { apply L; [apply Hr| |assumption]. intros i s1 c1 _ H1 E. pose proof (Hf _ _ _ E) as H2. destruct c1; cbn in *; eapply Ht; eassumption. }
  destruct r; assumption.
Qed.

(** ** Steps that do not touch keys, commitments, complaints and transcript *)
Definition tkeep (c c' : tp) : Prop := t_transcript c' = t_transcript c /\ t_complaints c' = t_complaints c /\
  t_pks c' = t_pks c /\ t_com c' = t_com c.
Lemma tkeep_refl c : tkeep c c. Proof. repeat split. Qed.
Lemma tkeep_trans a b c : tkeep a b -> tkeep b c -> tkeep a c.
Proof. unfold tkeep. intros (H1 & H2 & H3 & H4) (K1 & K2 & K3 & K4). repeat split; congruence. Qed.

(** ** Counting complaints *)
Lemma count_step w n x l ctr : 0 < w -> complaint_ok n x -> zlen ctr = n ->
  foldM (fun x ctr => let a := u8 x - 1 in do v <- getz ctr a ;; updz ctr a ((v + 1) mod w)) (x :: l) ctr =
  match getz ctr (accused_of x - 1) with
  | Ok v => match updz ctr (accused_of x - 1) ((v + 1) mod w) with
            | Ok c2 => foldM (fun x ctr => let a := u8 x - 1 in do v <- getz ctr a ;; updz ctr a ((v + 1) mod w)) l c2
            | UB => UB end
  | UB => UB end.
Proof.
  intros Hw Hx Hl. cbn [foldM]. change (u8 x) with (accused_of x). destruct (getz ctr (accused_of x - 1)); [|reflexivity]. reflexivity.
Qed.

Lemma accusations_cons a x l : accusations a (x :: l) = (if accused_of x =? a then 1 else 0) + accusations a l.
Proof. unfold accusations. cbn [filter]. destruct (accused_of x =? a); [rewrite zlen_cons|]; lia. Qed.

Lemma count_fold w n l : 0 < w -> Forall (complaint_ok n) l -> forall ctr, zlen ctr = n ->
  exists ctr', foldM (fun x ctr => let a := u8 x - 1 in do v <- getz ctr a ;; updz ctr a ((v + 1) mod w)) l ctr = Ok ctr' /\
    zlen ctr' = n /\ forall a v, getz ctr (a - 1) = Ok v -> 0 <= v < w -> getz ctr' (a - 1) = Ok ((v + accusations a l) mod w).
Proof.
  intros Hw. induction l as [|x l IH]; intros Hl ctr Hc.
  - exists ctr. split; [reflexivity|]. split; [exact Hc|]. intros a v Hv Hr. change (accusations a []) with 0. rewrite Z.add_0_r, Z.mod_small by lia. exact Hv.
  - inversion Hl as [|? ? Hx Hl']; subst x0 l0. rewrite count_step with (n := n) by assumption. destruct Hx as (_ & Hx).
    destruct (getz_some ctr (accused_of x - 1) ltac:(lia)) as (v0 & Hv0). rewrite Hv0.
    destruct (updz_some ctr (accused_of x - 1) ((v0 + 1) mod w) ltac:(lia)) as (c2 & Hc2). rewrite Hc2.
    apply updz_inv in Hc2. destruct Hc2 as (U1 & U2 & U3).
    destruct (IH Hl' c2 ltac:(lia)) as (ctr' & F & Z & G). exists ctr'. split; [exact F|]. split; [exact Z|].
    intros a v Hv Hr. rewrite accusations_cons. destruct (Z.eqb_spec (accused_of x) a) as [<-|Hne].
    + rewrite Hv0 in Hv. injection Hv as ->. rewrite (G (accused_of x) ((v + 1) mod w)).
      * f_equal. rewrite Z.add_mod_idemp_l by lia. f_equal. lia.
      * rewrite U3, Z.eqb_refl. reflexivity.
      * apply Z.mod_pos_bound. lia.
    + rewrite (G a v); [f_equal; f_equal; lia| |exact Hr]. rewrite U3. destruct (Z.eqb_spec (a - 1) (accused_of x - 1)); [lia|exact Hv].
Qed.

Lemma count_val w n l : 0 < w -> 0 <= n -> Forall (complaint_ok n) l ->
  exists ctr, count_complaints w n l = Ok ctr /\ zlen ctr = n /\
    forall a, 1 <= a <= n -> getz ctr (a - 1) = Ok (accusations a l mod w).
Proof.
  intros Hw Hn Hl. destruct (count_fold w n l Hw Hl (repeat 0 (Z.to_nat n))) as (ctr & F & Z & G); [unfold zlen; rewrite repeat_length; lia|].
  exists ctr. split; [exact F|]. split; [exact Z|]. intros a Ha. rewrite (G a 0); [reflexivity| |lia]. apply getz_repeat. lia.
Qed.

(** nobody is accused more than n times *)
Lemma accusations_bound n a l : 0 <= n -> Forall (complaint_ok n) l -> NoDup l -> 0 <= accusations a l <= n.
Proof.
  intros Hn Hl Hd. split; [apply zlen_nonneg|]. unfold accusations.
  assert (E : zlen (filter (fun x => accused_of x =? a) l) = zlen (map complainer_of (filter (fun x => accused_of x =? a) l))) by (rewrite zlen_map; reflexivity).
  rewrite E. unfold zlen. enough (Nat.le (length (map complainer_of (filter (fun x => accused_of x =? a) l))) (length (zrange 1 (Z.to_nat n)))) by (rewrite zrange_length in *; lia).
  apply NoDup_incl_length.
  - assert (Hf : forall x y, In x (filter (fun x => accused_of x =? a) l) -> In y (filter (fun x => accused_of x =? a) l) -> complainer_of x = complainer_of y -> x = y).
    { intros x y Hx Hy E1. apply filter_In in Hx, Hy. destruct Hx as (_ & Hx), Hy as (_ & Hy). apply Z.eqb_eq in Hx, Hy.
      rewrite <- (pair_back x), <- (pair_back y). congruence. }
    assert (Hd' : NoDup (filter (fun x => accused_of x =? a) l)) by (apply NoDup_filter; exact Hd).
    revert Hf Hd'. generalize (filter (fun x => accused_of x =? a) l) as m. intros m. induction m as [|x m IH]; intros Hf Hd'; [constructor|].
    inversion Hd' as [|? ? Hx Hm]; subst. cbn [map]. constructor.
    + intros Hin. apply in_map_iff in Hin. destruct Hin as (y & E1 & Hy). apply Hx. rewrite (Hf x y); [exact Hy|left; reflexivity|right; exact Hy|congruence].
    + apply IH; [|exact Hm]. intros; apply Hf; [right; assumption|right; assumption|assumption].
  - intros y Hy. apply in_map_iff in Hy. destruct Hy as (x & <- & Hx). apply filter_In in Hx. destruct Hx as (Hx & _).
    pose proof (proj1 (Forall_forall _ _) Hl x Hx) as (H1 & _). apply zrange_In. lia.
Qed.

Section AGREE.
Variable C : crypto.
Notation S := (cS C).
Notation peer := (peer C).
Notation delivered := (delivered C).

Definition pkeep (c c' : peer) : Prop := p_transcript C c' = p_transcript C c /\ p_complaints C c' = p_complaints C c /\
  p_my C c' = p_my C c /\ p_pks C c' = p_pks C c /\ p_com C c' = p_com C c.
Lemma pkeep_refl c : pkeep c c. Proof. repeat split. Qed.
Lemma pkeep_trans a b c : pkeep a b -> pkeep b c -> pkeep a c.
Proof. unfold pkeep. intros (H1 & H2 & H3 & H4 & H5) (K1 & K2 & K3 & K4 & K5). repeat split; congruence. Qed.

Ltac tk :=
  repeat match goal with
  | H : tp_recv C _ _ _ _ _ _ _ _ _ _ = Ok _ |- _ => apply tp_recv_inv in H; destruct H as (? & ? & ? & _ & _ & _ & ?)
  | H : add_cheater _ _ _ _ _ = Some _ |- _ => apply add_cheater_inv in H; destruct H as (_ & ?)
  | H : peer_recv C _ _ _ _ _ _ _ _ _ _ = Ok _ |- _ => apply peer_recv_inv in H; destruct H as (? & ? & ? & _ & _ & _ & ?)
  | H : peer_recv_tp C _ _ _ _ _ _ _ = Ok _ |- _ => apply peer_recv_tp_inv in H; destruct H as (? & _ & ?)
  end; subst; cbn [ctl_state fst snd]; repeat split; reflexivity.

Ltac lrel R proj :=
  match goal with H : loopM _ _ _ = Ok _ |- _ =>
    apply (loop_rel (fun a b => R (proj a) (proj b))) in H; [|intros; unfold tkeep, pkeep; repeat split|intros; first [eapply tkeep_trans|eapply pkeep_trans]; eassumption|] end.

Lemma tkeep1 e c input out ret c' out' : tp_step1 C e c input out = Ok (ret, c', out') -> tkeep c c'.
Proof. unfold tp_step1. intros H. inv H; tk. Qed.
Lemma tkeep68 e c input out ret c' out' : tp_step68 C e c input out = Ok (ret, c', out') -> tkeep c c'.
Proof.
  unfold tp_step68. intros H. inv H; try tk; (lrel tkeep (fun s : tp * bytes * Z => fst (fst s)); [exact E1|]);
  intros i [[a b] w] r H; unfold tp_step68_body in H; inv H; tk.
Qed.
Lemma tkeep14 e c input out ret c' out' : tp_step14 C e c input out = Ok (ret, c', out') -> tkeep c c'.
Proof.
  unfold tp_step14. intros H. inv H; try tk; (lrel tkeep (fun s : tp * bytes * Z => fst (fst s)); [exact E1|]);
  intros i [[a b] w] r H; unfold tp_step14_body in H; inv H; tk.
Qed.
Lemma tkeep20 e c input out ret c' out' : tp_step20 C e c input out = Ok (ret, c', out') -> tkeep c c'.
Proof.
  unfold tp_step20. intros H. inv H; try tk; (lrel tkeep (fun s : tp * bytes => fst s); [exact E2|]);
  intros i [a b] r H; unfold tp_step20_body in H; inv H; tk.
Qed.
Lemma tkeep22 e c input out ret c' out' : tp_step22 C e c input out = Ok (ret, c', out') -> tkeep c c'.
Proof.
  unfold tp_step22. intros H. inv H; try tk; (lrel tkeep (fun s : tp => s); [exact E1|]);
  intros i a r H; unfold tp_step22_body in H; inv H; tk.
Qed.

Lemma pkeep23 e c input out ret c' out' : peer_step23 C e c input out = Ok (ret, c', out') -> pkeep c c'.
Proof. unfold peer_step23. intros H. inv H; tk. Qed.
Lemma pkeep7 e c input out ret c' out' : peer_step7 C e c input out = Ok (ret, c', out') -> pkeep c c'.
Proof.
  unfold peer_step7. intros H. inv H; try tk. apply done_inv in H. destruct H as (H & _). subst c'.
  lrel pkeep (fun s : peer * bytes => fst s); [exact E1|]. intros i [a b] r H; unfold peer_step7_body in H; inv H; tk.
Qed.
Lemma pkeep911 e c input out ret c' out' : peer_step911 C e c input out = Ok (ret, c', out') -> pkeep c c'.
Proof.
  unfold peer_step911. intros H. inv H; try tk; (lrel pkeep (fun s : peer => s); [exact E1|]);
  intros i a r H; unfold peer_step911_body in H; inv H; tk.
Qed.
Lemma pkeep15 e c input out ret c' out' : peer_step15 C e c input out = Ok (ret, c', out') -> pkeep c c'.
Proof.
  unfold peer_step15. intros H. inv H; try tk; (lrel pkeep (fun s : peer => s); [exact E1|]);
  intros i a r H; unfold peer_step15_body in H; inv H; tk.
Qed.
Lemma pkeep17a e c input out ret c' out' : peer_step17a C e c input out = Ok (ret, c', out') -> pkeep c c'.
Proof. unfold peer_step17a. intros H. inv H; tk. Qed.
Lemma pkeep19 e c input out ret c' out' : peer_step19 C e c input out = Ok (ret, c', out') -> pkeep c c'.
Proof. unfold peer_step19. intros H. inv H; tk. Qed.
Lemma pkeep21 e c input out ret c' out' : peer_step21 C e c input out = Ok (ret, c', out') -> pkeep c c'.
Proof. unfold peer_step21. intros H. inv H; tk. Qed.

(** ** Transcripts *)
Ltac tsame proj body :=
  match goal with H : loopM _ _ _ = Ok _ |- _ =>
    apply (loop_rel (fun a b => t_transcript (proj a) = t_transcript (proj b))) in H;
      [cbn [ctl_state fst snd] in H|reflexivity|intros; congruence|intros ? ?s ? HH; try destruct s as [[? ?] ?]; unfold body in HH; inv HH; tk] end.

Lemma said4 e c input out c' out' : tp_step4 C e c input out = Ok (0, c', out') -> t_transcript c' = update_transcript (t_transcript c) out'.
Proof.
  unfold tp_step4. intros H. inv H.
  - tsame (fun s : tp * bytes * Z => fst (fst s)) tp_step4_body. cbn [t_transcript tp_transcript_set]. rewrite E1. reflexivity.
  - exfalso. assert (HH : (fun r => r <> 0) 0); [|apply HH; reflexivity]. refine (loopM_code (fun r => r <> 0) _ _ _ _ _ _ E1).
    intros ? [[? ?] ?] ? ? HH. unfold tp_step4_body in HH. inv HH; lia.
Qed.
Lemma said12 e c input out c' out' : tp_step12 C e c input out = Ok (0, c', out') -> t_transcript c' = update_transcript (t_transcript c) out'.
Proof.
  unfold tp_step12. intros H. inv H.
  - tsame (fun s : tp * bytes * Z => fst (fst s)) tp_step12_body. cbn [t_transcript tp_transcript_set]. rewrite E1. reflexivity.
  - exfalso. assert (HH : (fun r => r <> 0) 0); [|apply HH; reflexivity]. refine (loopM_code (fun r => r <> 0) _ _ _ _ _ _ E1).
    intros ? [[? ?] ?] ? ? HH. unfold tp_step12_body in HH. inv HH; lia.
Qed.
Lemma said16 e c input out c' out' : tp_step16 C e c input out = Ok (0, c', out') -> t_transcript c' = update_transcript (t_transcript c) out'.
Proof.
  unfold tp_step16. intros H. inv H.
  - apply (loop_rel (fun a b : tp * bytes * Z => t_transcript (fst (fst a)) = t_transcript (fst (fst b)))) in E1;
      [cbn in E1; cbn; rewrite E1; reflexivity|reflexivity|intros; congruence|].
    intros i [[a b] w] r HH. unfold tp_step16_body in HH. inv HH; try tk.
    + match goal with HQ : loopM _ _ _ = Ok _ |- _ => apply (loop_rel (fun a b => t_transcript a = t_transcript b)) in HQ; [rename HQ into Q|reflexivity|intros; congruence|] end.
      * cbn in Q |- *. match goal with HQ : tp_recv C _ _ _ _ _ _ _ _ _ _ = Ok _ |- _ => apply tp_recv_inv in HQ; destruct HQ as (? & ? & ? & _ & _ & _ & ->) end. exact Q.
      * intros ? ? ? HH. unfold tp_step16_complaint in HH. inv HH; tk.
    + match goal with HQ : loopM _ _ _ = Ok _ |- _ => apply (loop_rel (fun a b => t_transcript a = t_transcript b)) in HQ; [rename HQ into Q|reflexivity|intros; congruence|] end.
      * cbn in Q |- *. match goal with HQ : tp_recv C _ _ _ _ _ _ _ _ _ _ = Ok _ |- _ => apply tp_recv_inv in HQ; destruct HQ as (? & ? & ? & _ & _ & _ & ->) end. exact Q.
      * intros ? ? ? HH. unfold tp_step16_complaint in HH. inv HH; tk.
  - exfalso. assert (HH : (fun r => r <> 0) 0); [|apply HH; reflexivity]. refine (loopM_code (fun r => r <> 0) _ _ _ _ _ _ E1).
    intros ? [[? ?] ?] ? ? HH. unfold tp_step16_body in HH. inv HH; try lia.
    match goal with HQ : loopM _ _ _ = Ok (Return _ _) |- _ => refine (loopM_code (fun r => r <> 0) _ _ _ _ _ _ HQ) end.
    intros ? ? ? ? H''. unfold tp_step16_complaint in H''. inv H''; lia.
Qed.

Lemma step18_fails e c input out ret c' out' : tp_step18 C e c input out = Ok (ret, c', out') -> ret <> 0.
Proof.
  unfold tp_step18. intros H. inv H; try lia.
  - match goal with HQ : loopM _ _ _ = Ok (Return _ _) |- _ => refine (loopM_code (fun r => r <> 0) _ _ _ _ _ _ HQ) end.
    intros ? ? ? ? HH. unfold tp_step18_unanswered in HH. inv HH; lia.
  - match goal with HQ : loopM _ _ _ = Ok (Return _ _) |- _ => refine (loopM_code (fun r => r <> 0) _ _ _ _ _ _ HQ) end.
    intros ? [[? ?] ?] ? ? HH. unfold tp_step18_body in HH. inv HH; try lia.
    match goal with HQ : loopM _ _ _ = Ok (Return _ _) |- _ => refine (loopM_code (fun r => r <> 0) _ _ _ _ _ _ HQ) end.
    intros ? [? ?] ? ? H''. unfold tp_step18_key in H''. inv H''; lia.
Qed.

Lemma finish_inv r ret c' out' : tp_finish_step r = Ok (ret, c', out') -> exists p, r = Ok (ret, p, out') /\
  c' = tp_step_set p (if ret =? 0 then t_step p + 1 else 99) (t_step p).
Proof. intros E. unfold tp_finish_step in E. inv E. eexists. split; reflexivity. Qed.

Lemma tp_said_step e c input out c' out' : tp_next C e c input out = Ok (0, c', out') ->
  t_transcript c' = if broadcast_step (t_step c) then update_transcript (t_transcript c) out' else t_transcript c.
Proof.
  intros H. unfold broadcast_step.
  destruct (Z.lt_ge_cases (t_step c) 0) as [Hs|Hs]; [rewrite tp_next_other in H by lia; discriminate|].
  destruct (Z.lt_ge_cases 9 (t_step c)) as [Hs'|Hs']; [rewrite tp_next_other in H by lia; discriminate|].
  assert (Hc : t_step c = 0 \/ t_step c = 1 \/ t_step c = 2 \/ t_step c = 3 \/ t_step c = 4 \/ t_step c = 5 \/ t_step c = 6 \/ t_step c = 7 \/ t_step c = 8 \/ t_step c = 9) by lia.
  decompose [or] Hc; clear Hc; match goal with E : t_step c = _ |- _ => rename E into Es end; rewrite Es; cbn [Z.eqb Pos.eqb orb].
  - rewrite tp_next_0 in H by assumption. apply finish_inv in H. destruct H as (p & H & ->). apply tkeep1 in H. apply H.
  - rewrite tp_next_1 in H by assumption. apply finish_inv in H. destruct H as (p & H & ->). apply said4 in H. exact H.
  - rewrite tp_next_2 in H by assumption. apply finish_inv in H. destruct H as (p & H & ->). apply tkeep68 in H. apply H.
  - rewrite tp_next_3 in H by assumption. apply finish_inv in H. destruct H as (p & H & ->). apply tkeep68 in H. apply H.
  - rewrite tp_next_4 in H by assumption. apply finish_inv in H. destruct H as (p & H & ->). apply said12 in H. exact H.
  - rewrite tp_next_5 in H by assumption. apply finish_inv in H. destruct H as (p & H & ->). apply tkeep14 in H. apply H.
  - rewrite tp_next_6 in H by assumption. inv H. match goal with HQ : tp_step16 _ _ _ _ _ = _ |- _ => apply said16 in HQ; exact HQ end.
  - rewrite tp_next_7 in H by assumption. apply finish_inv in H. destruct H as (p & H & ->). apply step18_fails in H. lia.
  - rewrite tp_next_8 in H by assumption. apply finish_inv in H. destruct H as (p & H & ->). apply tkeep20 in H. apply H.
  - rewrite tp_next_9 in H by assumption. apply finish_inv in H. destruct H as (p & H & ->). apply tkeep22 in H. apply H.
Qed.

Theorem tp_transcript_history calls : forall c outs, tp_run C c calls = Ok outs -> Forall (fun o => fst (fst o) = 0) outs ->
  t_transcript (final c outs) = fold_left update_transcript (tp_said c outs) (t_transcript c).
Proof.
  induction calls as [|[[e input] out] calls IH]; intros c outs H Hr; cbn [tp_run] in H; [injection H as <-; reflexivity|].
  apply bind_ok in H. destruct H as ([[ret c1] out1] & E & H). apply bind_ok in H. destruct H as (rest & E0 & H). injection H as <-.
  inversion Hr as [|? ? R1 R2]; subst. cbn [fst] in R1. subst ret. rewrite final_cons. cbn [fst snd tp_said]. rewrite (IH _ _ E0) by assumption.
  apply tp_said_step in E. rewrite fold_left_app, E. destruct (broadcast_step (t_step c)); reflexivity.
Qed.

Lemma heard5 e c input out c' out' : peer_step5 C e c input out = Ok (0, c', out') ->
  p_transcript C c' = update_transcript (p_transcript C c) input /\ p_complaints C c' = p_complaints C c /\ p_my C c' = p_my C c.
Proof.
  unfold peer_step5. intros H. inv H; try tk.
  - match goal with HQ : peer_recv_tp C _ _ _ _ _ _ _ = Ok _ |- _ => apply peer_recv_tp_inv in HQ; destruct HQ as (? & R & _) end.
    apply recv_codes in R. apply negb_true_iff, Z.eqb_neq in E3. lia.
  - apply done_inv in H. destruct H as (H & _).
    apply (loop_rel (fun a b : peer * bytes => p_transcript C (fst b) = p_transcript C (fst a) /\ p_complaints C (fst b) = p_complaints C (fst a) /\ p_my C (fst b) = p_my C (fst a))) in E4; [|auto|intros ? ? ? (? & ? & ?) (? & ? & ?); repeat split; congruence|].
    + rewrite H in E4. cbn in E4. match goal with HQ : peer_recv_tp C _ _ _ _ _ _ _ = Ok _ |- _ => apply peer_recv_tp_inv in HQ; destruct HQ as (? & R & ->) end. exact E4.
    + intros i [a b] r HH. unfold peer_step5_body in HH. inv HH; tk.
Qed.
Lemma heard13 e c input out c' out' : peer_step13 C e c input out = Ok (0, c', out') ->
  p_transcript C c' = update_transcript (p_transcript C c) input /\ p_complaints C c' = p_complaints C c /\ p_my C c' = p_my C c.
Proof.
  unfold peer_step13. intros H. inv H; try tk.
  - match goal with HQ : peer_recv_tp C _ _ _ _ _ _ _ = Ok _ |- _ => apply peer_recv_tp_inv in HQ; destruct HQ as (? & R & _) end.
    apply recv_codes in R. apply negb_true_iff, Z.eqb_neq in E3. lia.
  - apply done_inv in H. destruct H as (H & _).
    apply (loop_rel (fun a b : peer * bytes => p_transcript C (fst b) = p_transcript C (fst a) /\ p_complaints C (fst b) = p_complaints C (fst a) /\ p_my C (fst b) = p_my C (fst a))) in E4; [|auto|intros ? ? ? (? & ? & ?) (? & ? & ?); repeat split; congruence|].
    + rewrite H in E4. cbn in E4. match goal with HQ : peer_recv_tp C _ _ _ _ _ _ _ = Ok _ |- _ => apply peer_recv_tp_inv in HQ; destruct HQ as (? & R & ->) end. exact E4.
    + intros i [a b] r HH. unfold peer_step13_body in HH. inv HH; tk.
Qed.
Lemma heard17 e c input out c' out' : peer_step17 C e c input out = Ok (0, c', out') ->
  p_transcript C c' = update_transcript (p_transcript C c) input.
Proof.
  unfold peer_step17. intros H. inv H; try tk.
  all: match goal with HQ : peer_recv_tp C _ _ _ _ _ _ _ = Ok _ |- _ => apply peer_recv_tp_inv in HQ; destruct HQ as (? & R & ->) end.
  - apply recv_codes in R. apply negb_true_iff, Z.eqb_neq in E3. lia.
  - apply (loop_rel (fun a b : peer => p_transcript C b = p_transcript C a)) in E4; [exact E4|reflexivity|intros; congruence|].
    intros i a r HH. unfold peer_step17_body in HH. inv HH; try tk.
    apply (loop_rel (fun a b : peer => p_transcript C b = p_transcript C a)) in HH; [|reflexivity|intros; congruence|].
    + match goal with HQ : peer_recv C _ _ _ _ _ _ _ _ _ _ = Ok _ |- _ => apply peer_recv_inv in HQ; destruct HQ as (? & ? & ? & _ & _ & _ & ->) end. exact HH.
    + intros ? ? ? HH'. unfold peer_step17_complaint in HH'. inv HH'; tk.
  - apply (loop_rel (fun a b : peer => p_transcript C b = p_transcript C a)) in E4; [exact E4|reflexivity|intros; congruence|].
    intros i a r HH. unfold peer_step17_body in HH. inv HH; try tk.
    apply (loop_rel (fun a b : peer => p_transcript C b = p_transcript C a)) in HH; [|reflexivity|intros; congruence|].
    + match goal with HQ : peer_recv C _ _ _ _ _ _ _ _ _ _ = Ok _ |- _ => apply peer_recv_inv in HQ; destruct HQ as (? & ? & ? & _ & _ & _ & ->) end. exact HH.
    + intros ? ? ? HH'. unfold peer_step17_complaint in HH'. inv HH'; tk.
  - apply (loop_rel (fun a b : peer => p_transcript C b = p_transcript C a)) in E4; [exact E4|reflexivity|intros; congruence|].
    intros i a r HH. unfold peer_step17_body in HH. inv HH; try tk.
    apply (loop_rel (fun a b : peer => p_transcript C b = p_transcript C a)) in HH; [|reflexivity|intros; congruence|].
    + match goal with HQ : peer_recv C _ _ _ _ _ _ _ _ _ _ = Ok _ |- _ => apply peer_recv_inv in HQ; destruct HQ as (? & ? & ? & _ & _ & _ & ->) end. exact HH.
    + intros ? ? ? HH'. unfold peer_step17_complaint in HH'. inv HH'; tk.
Qed.

Lemma peer_heard_step e c input out c' out' : peer_next C e c input out = Ok (0, c', out') ->
  p_transcript C c' = (if broadcast_step (p_step C c) then update_transcript (p_transcript C c) input else p_transcript C c) /\
  (p_step C c <> 6 -> p_complaints C c' = p_complaints C c /\ p_my C c' = p_my C c).
Proof.
  intros H. unfold broadcast_step.
  destruct (Z.lt_ge_cases (p_step C c) 0) as [Hs|Hs]; [rewrite peer_next_other in H by lia; discriminate|].
  destruct (Z.lt_ge_cases 10 (p_step C c)) as [Hs'|Hs']; [rewrite peer_next_other in H by lia; discriminate|].
  assert (Hc : p_step C c = 0 \/ p_step C c = 1 \/ p_step C c = 2 \/ p_step C c = 3 \/ p_step C c = 4 \/ p_step C c = 5 \/ p_step C c = 6 \/ p_step C c = 7 \/ p_step C c = 8 \/ p_step C c = 9 \/ p_step C c = 10) by lia.
  decompose [or] Hc; clear Hc; match goal with E : p_step C c = _ |- _ => rename E into Es end; rewrite Es; cbn [Z.eqb Pos.eqb orb].
  - rewrite peer_next_0 in H by assumption. apply pfinish_inv in H. destruct H as (p & H & ->). apply pkeep23 in H. unfold pkeep in H. tauto.
  - rewrite peer_next_1 in H by assumption. apply pfinish_inv in H. destruct H as (p & H & ->). apply heard5 in H. tauto.
  - rewrite peer_next_2 in H by assumption. apply pfinish_inv in H. destruct H as (p & H & ->). apply pkeep7 in H. unfold pkeep in H. tauto.
  - rewrite peer_next_3 in H by assumption. apply pfinish_inv in H. destruct H as (p & H & ->). apply pkeep911 in H. unfold pkeep in H. tauto.
  - rewrite peer_next_4 in H by assumption. apply pfinish_inv in H. destruct H as (p & H & ->). apply heard13 in H. tauto.
  - rewrite peer_next_5 in H by assumption. apply pfinish_inv in H. destruct H as (p & H & ->). apply pkeep15 in H. unfold pkeep in H. tauto.
  - rewrite peer_next_6 in H by assumption. apply pfinish_inv in H. destruct H as (p & H & ->). apply heard17 in H. split; [exact H|congruence].
  - rewrite peer_next_7 in H by assumption. apply pfinish_inv in H. destruct H as (p & H & ->). apply pkeep17a in H. unfold pkeep in H. tauto.
  - rewrite peer_next_8 in H by assumption. apply pfinish_inv in H. destruct H as (p & H & ->). apply pkeep19 in H. unfold pkeep in H. tauto.
  - rewrite peer_next_9 in H by assumption. apply pfinish_inv in H. destruct H as (p & H & ->). apply pkeep21 in H. unfold pkeep in H. tauto.
  - rewrite peer_next_10 in H by assumption. apply pfinish_inv in H. destruct H as (p & H & ->). injection H as <- <-. cbn. auto.
Qed.

Theorem peer_transcript_history calls : forall c outs, peer_run C c calls = Ok outs -> Forall (fun o => fst (fst o) = 0) outs ->
  p_transcript C (final c outs) = fold_left update_transcript (peer_heard C c calls outs) (p_transcript C c).
Proof.
  induction calls as [|[[e input] out] calls IH]; intros c outs H Hr; cbn [peer_run] in H; [injection H as <-; reflexivity|].
  apply bind_ok in H. destruct H as ([[ret c1] out1] & E & H). apply bind_ok in H. destruct H as (rest & E0 & H). injection H as <-.
  inversion Hr as [|? ? R1 R2]; subst. cbn [fst] in R1. subst ret. rewrite final_cons. cbn [fst snd peer_heard]. rewrite (IH _ _ E0) by assumption.
  apply peer_heard_step in E. destruct E as (E & _). rewrite fold_left_app, E. destruct (broadcast_step (p_step C c)); reflexivity.
Qed.

(** before its step 6 a peer has no complaints *)
Theorem no_complaints_before calls : forall c outs, peer_run C c calls = Ok outs -> 0 <= p_step C c -> p_step C (final c outs) <= 6 ->
  p_complaints C c = [] -> p_my C c = [] -> p_complaints C (final c outs) = [] /\ p_my C (final c outs) = [].
Proof.
  induction calls as [|[[e input] out] calls IH]; intros c outs H H0 H6 Hc Hm; cbn [peer_run] in H; [injection H as <-; auto|].
  apply bind_ok in H. destruct H as ([[ret c1] out1] & E & H). apply bind_ok in H. destruct H as (rest & E0 & H). injection H as <-.
  rewrite final_cons in *. cbn [fst snd] in *. 
  destruct (Z.lt_ge_cases (p_step C c) 11) as [Hlt|Hge].
  - pose proof E as F. apply peer_forward in F; [|lia].
    pose proof (peer_run_step C calls c1 rest ltac:(lia) E0) as M.
    destruct (Z.eq_dec ret 0) as [->|Hret].
    + apply peer_heard_step in E. destruct E as (_ & E).
      assert (Hmono : p_step C c1 <= p_step C (final c1 rest)) by lia.
      destruct E as (E1 & E2); [lia|]. apply (IH c1 rest); [exact E0|lia|exact H6|congruence|congruence].
    + apply peer_error_ends in E; [|exact Hret]. unfold peer_not_done in E. apply Z.ltb_ge in E. lia.
  - destruct (peer_stays_done C e c input out Hge) as (c2 & E' & Hc2). rewrite E' in E. injection E as <- <- <-.
    pose proof (peer_run_step C calls c2 rest ltac:(lia) E0) as M. lia.
Qed.

(** ** C36 *)
Lemma slice_shift a b o k b1 : rd b o (zlen b1) = Ok b1 -> 0 <= a -> 0 <= k -> a + k <= zlen b1 ->
  slice (o + a) k b = slice a k b1.
Proof.
  intros H Ha Hk Hak. assert (E : rd b1 a k = rd b (o + a) k) by (apply (rd_rd _ _ _ _ _ _ H); lia).
  pose proof (rd_inv _ _ _ _ H) as (I1 & I2 & I3 & _). rewrite !rd_ok in E by lia. injection E as E. symmetry. exact E.
Qed.

Lemma complaints_shift n b b1 : 0 <= n -> zlen b1 = n * msg9_SIZE n -> rd b hdr_SIZE (zlen b1) = Ok b1 ->
  complaints_in n hdr_SIZE b = complaints_in n 0 b1 /\
  forall i, 0 <= i < n -> slice (hdr_SIZE + i * msg9_SIZE n) (msg9_SIZE n) b = slice (i * msg9_SIZE n) (msg9_SIZE n) b1.
Proof.
  intros Hn Hl H. pose proof (msg9_val n) as Hsz.
  assert (G : forall i, 0 <= i < n -> slice (hdr_SIZE + i * msg9_SIZE n) (msg9_SIZE n) b = slice (i * msg9_SIZE n) (msg9_SIZE n) b1).
  { intros i Hi. apply slice_shift; [exact H|nia|lia|nia]. }
  split; [|exact G]. unfold complaints_in. rewrite !flat_map_concat_map. f_equal. apply map_ext_in. intros i Hi. apply zrange_In in Hi.
  cbv beta. rewrite G by lia. rewrite Z.add_0_l. reflexivity.
Qed.

Theorem complaints_agree e c input out c' out' pe p pout p' pout' :
  crypto_ok C -> tp_wf c -> is_u64 (e_s e 0) -> t_step c = 6 -> tp_next C e c input out = Ok (0, c', out') ->
  p_step C p = 6 -> p_n C p = t_n c -> p_complaints C p = [] -> p_my C p = [] ->
  peer_next C pe p out' pout = Ok (0, p', pout') ->
  p_complaints C p' = t_complaints c' /\ t_complaints c' = complaints_in (t_n c) 0 input /\
  zlen (p_my C p') = accusations (p_index C p) (t_complaints c') /\
  p_step C p' = t_step c' /\ p_index C p' = p_index C p.
Proof.
  intros HC W Hu Hs H Hps Hpn Hpc Hpm HP. rewrite tp_next_6 in H by assumption. rewrite peer_next_6 in HP by assumption.
  apply bind_ok in H. destruct H as ([[ret c1] out1] & E & H). injection H as -> <- ->.
  pose proof (w_n c W) as Hn.
  destruct (step16_content C e c input out c1 out' HC (w_sid c W) Hu ltac:(lia) E) as (L1 & L2 & _ & _ & L5 & L6 & L7 & L8).
  destruct (complaints_shift (t_n c) out' input ltac:(lia) L2 L7) as (G1 & G2).
  apply pfinish_inv in HP. destruct HP as (p1 & HP & ->).
  assert (Hst : t_step c1 = 6) by (pose proof (ext_step16 C _ _ _ _ _ _ _ E) as X; rewrite (x_step _ _ X); exact Hs).
  pose proof (pext_step17 C _ _ _ _ _ _ _ HP) as (c2 & X & Hc2).
  apply peer17_content in HP; rewrite ?Hpn in *; [|lia|exact Hpc|exact Hpm| |rewrite G1, <- L5; exact L6].
  - destruct HP as (_ & _ & _ & B4 & B5 & _ & B7 & _). cbn [p_complaints p_my p_step p_index peer_step_set t_complaints t_step tp_step_set Z.eqb].
    rewrite B4, B5, B7, G1, Hst, Hps. rewrite <- L5. split; [reflexivity|]. split; [reflexivity|]. split; [apply my_of_zlen|].
    split; [destruct (zlen (t_complaints c1) =? 0); reflexivity|].
    destruct Hc2 as [->|(-> & _)]; [|cbn [p_index peer_step_set]]; apply (y_index C _ _ X); lia.
  - intros i Hi. cbn zeta. rewrite G2 by lia. apply (L8 i Hi).
Qed.

(** the reveal message of an accused peer has the length the trusted party expects *)
Theorem reveal_sizes e c input out c' out' pe p pout p' pout' :
  crypto_ok C -> tp_wf c -> is_u64 (e_s e 0) -> t_step c = 6 -> tp_next C e c input out = Ok (0, c', out') ->
  p_step C p = 6 -> p_n C p = t_n c -> p_complaints C p = [] -> p_my C p = [] -> 1 <= p_index C p <= t_n c ->
  peer_next C pe p out' pout = Ok (0, p', pout') -> t_complaints c' <> [] ->
  t_step c' = 7 /\ exists sizes, tp_input_sizes c' = Ok (0, sizes) /\ zlen sizes = t_n c /\
    getz sizes (p_index C p - 1) = Ok (peer_output_size C p') /\ tp_input_size c' = Ok (fold_left Z.add sizes 0).
Proof.
  intros HC W Hu Hs H Hps Hpn Hpc Hpm Hpi HP Hne.
  destruct (complaints_agree e c input out c' out' pe p pout p' pout' HC W Hu Hs H Hps Hpn Hpc Hpm HP) as (A1 & _ & A3 & A4 & A5).
  pose proof (w_n c W) as Hn. rewrite tp_next_6 in H by assumption. apply bind_ok in H. destruct H as ([[ret c1] out1] & E & H). injection H as -> <- ->.
  cbn [t_complaints tp_step_set] in *. pose proof (ext_step16 C _ _ _ _ _ _ _ E) as X.
  destruct (complaints_well_formed C e c input out 0 c1 out' Hn E ltac:(lia) ltac:(lia)) as ((G1 & G2) & _).
  assert (Hnz : zlen (t_complaints c1) <> 0) by (intros Z; apply zlen_0 in Z; contradiction).
  pose proof (x_step _ _ X) as Xs. pose proof (x_n _ _ X) as Xn.
  assert (H7 : t_step (tp_step_set c1 (t_step c1 + (if zlen (t_complaints c1) =? 0 then 2 else 1)) (t_step c1)) = 7).
  { cbn [t_step tp_step_set]. destruct (Z.eqb_spec (zlen (t_complaints c1)) 0); [contradiction|lia]. }
  split; [exact H7|]. destruct (count_val 256 (t_n c) (t_complaints c1) ltac:(lia) ltac:(lia) G1) as (ctr & F & Z & G).
  exists (map (fun k => if 0 <? k then hdr_SIZE + (1 + noise_key_SIZE) * k else 0) ctr).
  assert (S : tp_input_sizes (tp_step_set c1 (t_step c1 + (if zlen (t_complaints c1) =? 0 then 2 else 1)) (t_step c1)) =
    Ok (0, map (fun k => if 0 <? k then hdr_SIZE + (1 + noise_key_SIZE) * k else 0) ctr)).
  { unfold tp_input_sizes. rewrite H7. cbn [t_n t_complaints tp_step_set]. rewrite Xn, F. reflexivity. }
  split; [exact S|]. split; [rewrite zlen_map; exact Z|]. split.
  - rewrite (getz_map _ _ _ _ (G (p_index C p) Hpi)). f_equal.
    pose proof (accusations_bound (t_n c) (p_index C p) (t_complaints c1) ltac:(lia) G1 G2) as Hb. rewrite Z.mod_small by lia.
    unfold peer_output_size. rewrite A4, H7, A1, A3.
    pose proof (zlen_nonneg (t_complaints c1)). destruct (Z.ltb_spec 0 (zlen (t_complaints c1))); [|lia].
    destruct (Z.ltb_spec 0 (accusations (p_index C p) (t_complaints c1))); lia.
  - unfold tp_input_size. rewrite S. reflexivity.
Qed.

(** ** Agreement on keys and commitments *)
Theorem keys_agree e c input out c' out' pe p pout p' pout' :
  crypto_ok C -> tp_wf c -> is_u64 (e_s e 0) -> t_step c = 1 -> tp_next C e c input out = Ok (0, c', out') ->
  p_step C p = 1 -> p_n C p = t_n c -> zlen (p_pks C p) = t_n c ->
  peer_next C pe p out' pout = Ok (0, p', pout') -> p_pks C p' = t_pks c'.
Proof.
  intros HC W Hu Hs H Hps Hpn Hpk HP. rewrite tp_next_1 in H by assumption. rewrite peer_next_1 in HP by assumption.
  apply finish_inv in H. destruct H as (c1 & H & ->). apply pfinish_inv in HP. destruct HP as (p1 & HP & ->).
  pose proof (w_n c W) as Hn. pose proof (ext_step4 C _ _ _ _ _ _ _ H) as X. pose proof (pext_step5 C _ _ _ _ _ _ _ HP) as Y.
  destruct (step4_content C e c input out c1 out' HC (w_sid c W) Hu ltac:(lia) H) as (L1 & L2 & _ & _ & L5).
  apply peer5_content in HP; [|lia]. destruct HP as (_ & _ & _ & _ & _ & B6). cbn [p_pks peer_step_set t_pks tp_step_set].
  pose proof (y_pks C _ _ Y) as Zp. pose proof (x_pks _ _ X) as Zt. pose proof (w_pks c W) as Zw.
  apply getz_ext; [congruence|]. intros i Hi. rewrite Zp, Hpk in Hi. destruct (L5 i Hi) as (m & ltsig & lt & pk & Q1 & _ & _ & _ & Q5 & Q6 & _ & Q8).
  destruct (B6 i ltac:(lia)) as (m' & pk' & npk & K1 & K2 & K3 & _). rewrite Q8 in K1. injection K1 as <-. rewrite Q5 in K2. injection K2 as <-. congruence.
Qed.

Theorem commitments_agree e c input out c' out' pe p pout p' pout' :
  crypto_ok C -> tp_wf c -> is_u64 (e_s e 0) -> t_step c = 4 -> tp_next C e c input out = Ok (0, c', out') ->
  p_step C p = 4 -> p_n C p = t_n c -> p_t C p = t_t c -> zlen (p_com C p) = t_n c ->
  peer_next C pe p out' pout = Ok (0, p', pout') -> p_com C p' = t_com c'.
Proof.
  intros HC W Hu Hs H Hps Hpn Hpt Hpk HP. rewrite tp_next_4 in H by assumption. rewrite peer_next_4 in HP by assumption.
  apply finish_inv in H. destruct H as (c1 & H & ->). apply pfinish_inv in HP. destruct HP as (p1 & HP & ->).
  pose proof (w_n c W) as Hn. pose proof (w_t c W) as Ht. pose proof (ext_step12 C _ _ _ _ _ _ _ H) as X. pose proof (pext_step13 C _ _ _ _ _ _ _ HP) as Y.
  destruct (step12_content C e c input out c1 out' HC (w_sid c W) Hu ltac:(lia) ltac:(lia) H) as (L1 & L2 & _ & _ & L5).
  apply peer13_content in HP; [|lia|lia]. cbn zeta in HP. destruct HP as (_ & _ & _ & _ & _ & _ & B6). cbn [p_com peer_step_set t_com tp_step_set].
  pose proof (y_com C _ _ Y) as Zp. pose proof (x_com _ _ X) as Zt. pose proof (w_com c W) as Zw.
  apply getz_ext; [congruence|]. intros i Hi. rewrite Zp, Hpk in Hi. destruct (L5 i Hi) as (m & data & pk & Q1 & Q2 & Q3 & Q4 & Q5 & Q6).
  destruct (B6 i ltac:(lia)) as (m' & data' & pk' & K1 & K2 & K3 & _). rewrite Hpt in *. rewrite Q6 in K1. injection K1 as <-. rewrite Q2 in K2. injection K2 as <-. congruence.
Qed.

(** ** Well-formed states *)
Lemma tp_wf_step e c input out ret c' out' : tp_wf c -> tp_next C e c input out = Ok (ret, c', out') -> tp_wf c'.
Proof.
  intros W H. apply tp_next_moves in H. destruct H as [(_ & _ & -> & _)|(Hs & c1 & X & H)]; [exact W|].
  assert (E : exists s q, c' = tp_step_set c1 s q /\ 0 <= s).
  { destruct (ret =? 0); intuition; subst; do 2 eexists; (split; [reflexivity|]); try lia. all: try (pose proof (x_step _ _ X); destruct (zlen _ =? 0); lia). }
  destruct E as (s & q & -> & Hq). destruct W, X.
  constructor; cbn [t_step t_n t_t t_sid t_last t_pks t_lt t_com t_enc t_cmax t_chmax t_cheaters tp_step_set]; try congruence; try lia.
  rewrite x_t. apply x_rows; [lia|exact w_rows].
Qed.

Lemma tp_run_wf calls : forall c outs, tp_wf c -> tp_run C c calls = Ok outs -> tp_wf (final c outs).
Proof.
  induction calls as [|[[e input] out] calls IH]; intros c outs W H; cbn [tp_run] in H; [injection H as <-; exact W|].
  apply bind_ok in H. destruct H as ([[ret c1] out1] & E & H). apply bind_ok in H. destruct H as (rest & E0 & H). injection H as <-.
  rewrite final_cons. cbn [fst snd]. apply (IH _ _ (tp_wf_step _ _ _ _ _ _ _ W E) E0).
Qed.

Lemma start_tp_inv c0 eps n t name buf sid sk now c msg0 : start_tp C c0 eps n t name buf sid sk now = Ok (0, c, msg0) ->
  2 <= n <= 128 /\ t < n /\ zlen buf = msg0_SIZE /\ t_step c = 0 /\ t_n c = n /\ t_t c = t /\ t_sid c = sid /\ t_sk c = sk /\ t_eps c = eps /\
  t_pk c = sig_pk S sk /\ t_cheaters c = [] /\ t_complaints c = [] /\ t_transcript c = update_transcript str_transcript msg0 /\ 1 <= zlen name <= 1024.
Proof.
  unfold start_tp. destruct (Z.ltb_spec n 2); cbn [orb]; [discriminate|]. destruct (Z.leb_spec n t); cbn [orb]; [discriminate|].
  destruct (Z.ltb_spec 128 n); cbn [orb]; [discriminate|]. destruct (Z.ltb_spec (zlen name) 1); [discriminate|].
  destruct (Z.ltb_spec 1024 (zlen name)); [discriminate|]. destruct (Z.eqb_spec (zlen buf) msg0_SIZE); cbn [negb]; [|discriminate].
  intros HH. cbv zeta in HH. repeat (apply bind_ok in HH; destruct HH as (? & _ & HH)). injection HH as <- <-. cbn. intuition lia.
Qed.

(** the trusted party the caller sets up: threshold at least 1, buffers of the documented sizes *)
Lemma tp_wf_start c0 eps n t name buf sid sk now c msg0 com enc chmax pks lt now2 :
  start_tp C c0 eps n t name buf sid sk now = Ok (0, c, msg0) -> 1 <= t -> zlen sid = 32 ->
  zlen com = n -> Forall (fun row => zlen row = t) com -> zlen enc = n * n * msg8_SIZE -> 0 <= chmax -> zlen pks = n -> zlen lt = n ->
  tp_wf (tp_set_bufs c com (n * n) enc chmax pks lt now2).
Proof.
  intros H Ht Hsid Hcom Hrows Henc Hch Hpks Hlt. apply start_tp_inv in H. destruct H as (A1 & A2 & A3 & A4 & A5 & A6 & A7 & A8 & A9 & A10 & A11 & _).
  constructor; cbn [t_step t_n t_t t_sid t_last t_pks t_lt t_com t_enc t_cmax t_chmax t_cheaters tp_set_bufs]; rewrite ?A4, ?A5, ?A6, ?A7, ?A11; try lia; try assumption.
  unfold zlen. rewrite repeat_length. lia.
Qed.

(** ** Lengths of broadcast messages *)
Lemma send_zlen buf off len msgno from to sk sid now buf' : send_msg S buf off len msgno from to sk sid now = Ok buf' -> zlen buf' = zlen buf.
Proof.
  unfold send_msg. intros H. repeat match goal with H : bind (wr _ _ _) _ = Ok _ |- _ => apply bind_ok in H; let E := fresh "E" in destruct H as (? & E & H); apply wr_zlen in E end.
  apply bind_ok in H. destruct H as (? & _ & H). apply wr_zlen in H. lia.
Qed.

Lemma loop_zlen {X} (f : Z -> X * bytes * Z -> res (ctl (X * bytes * Z))) l s r :
  (forall i s r, f i s = Ok r -> zlen (snd (fst (ctl_state r))) = zlen (snd (fst s))) ->
  loopM f l s = Ok r -> zlen (snd (fst (ctl_state r))) = zlen (snd (fst s)).
Proof.
  intros Hf H. pose proof (loopM_inv f (fun s' => zlen (snd (fst s')) = zlen (snd (fst s))) (fun _ s' => zlen (snd (fst s')) = zlen (snd (fst s))) l s r) as L.
  assert (G : match r with Next s2 => zlen (snd (fst s2)) = zlen (snd (fst s)) | Return _ s2 => zlen (snd (fst s2)) = zlen (snd (fst s)) end).
  { apply L; [reflexivity| |exact H]. intros i s1 c1 _ H1 E. apply Hf in E. destruct c1; cbn in *; congruence. }
  destruct r; exact G.
Qed.

Lemma out4 e c input out c' out' : tp_step4 C e c input out = Ok (0, c', out') -> zlen out' = msg2_SIZE * t_n c + hdr_SIZE.
Proof.
  unfold tp_step4. intros H. destruct (_ =? zlen input); cbn [negb] in H; [|discriminate]. destruct (Z.eqb_spec (zlen out) (msg2_SIZE * t_n c + hdr_SIZE)) as [E|]; cbn [negb] in H; [|discriminate].
  apply bind_ok in H. destruct H as (r & L & H). apply loop_zlen in L.
  - destruct r as [[[c1 out1] w]|code [[c1 out1] w]]; cbn [ctl_state fst snd] in L; [|injection H as -> <- <-; lia].
    destruct (0 <? _); [discriminate|]. apply bind_ok in H. destruct H as (o2 & Sn & H). injection H as <- <-. apply send_zlen in Sn. lia.
  - intros i [[c1 out1] w1] r1 B. unfold tp_step4_body in B. inv B; try reflexivity. cbn. match goal with H : wr _ _ _ = Ok _ |- _ => apply wr_zlen in H; exact H end.
Qed.

Lemma out12 e c input out c' out' : tp_step12 C e c input out = Ok (0, c', out') -> zlen out' = hdr_SIZE + msg6_SIZE (t_t c) * t_n c.
Proof.
  unfold tp_step12. intros H. destruct (Z.eqb_spec (msg6_SIZE (t_t c) * t_n c) (zlen input)) as [E0|]; cbn [negb] in H; [|discriminate].
  destruct (Z.eqb_spec (zlen out) (hdr_SIZE + zlen input)) as [E|]; cbn [negb] in H; [|discriminate].
  apply bind_ok in H. destruct H as (r & L & H). apply loop_zlen in L.
  - destruct r as [[[c1 out1] w]|code [[c1 out1] w]]; cbn [ctl_state fst snd] in L; [|injection H as -> <- <-; lia].
    destruct (0 <? _); [discriminate|]. apply bind_ok in H. destruct H as (o2 & Sn & H). injection H as <- <-. apply send_zlen in Sn. lia.
  - intros i [[c1 out1] w1] r1 B. unfold tp_step12_body in B. inv B; try reflexivity. cbn. match goal with H : wr _ _ _ = Ok _ |- _ => apply wr_zlen in H; exact H end.
Qed.

Lemma out16 e c input out c' out' : tp_step16 C e c input out = Ok (0, c', out') -> zlen out' = msg10_SIZE (t_n c).
Proof.
  unfold tp_step16. intros H. destruct (_ =? zlen input); cbn [negb] in H; [|discriminate].
  destruct (Z.eqb_spec (zlen out) (msg10_SIZE (t_n c))) as [E|]; cbn [negb] in H; [|discriminate].
  apply bind_ok in H. destruct H as (r & L & H). apply loop_zlen in L.
  - destruct r as [[[c1 out1] w]|code [[c1 out1] w]]; cbn [ctl_state fst snd] in L; [|injection H as -> <- <-; lia].
    destruct (_ <=? _); [destruct (add_cheater _ _ _ _ _); discriminate|]. destruct (0 <? _); [discriminate|]. apply bind_ok in H. destruct H as (o2 & Sn & H). injection H as <- <-. apply send_zlen in Sn. lia.
  - intros i [[c1 out1] w1] r1 B. unfold tp_step16_body in B. inv B; try reflexivity. cbn. match goal with H : wr _ _ _ = Ok _ |- _ => apply wr_zlen in H; exact H end.
Qed.

Lemma msg_small n t : 0 <= n <= 128 -> 0 <= t <= 128 ->
  msg2_SIZE * n + hdr_SIZE < 2 ^ 32 /\ hdr_SIZE + msg6_SIZE t * n < 2 ^ 32 /\ msg10_SIZE n < 2 ^ 32.
Proof. intros Hn Ht. rewrite msg2_val, hdr_val, msg6_val. unfold msg10_SIZE. rewrite msg9_val, ?hdr_val. change (2 ^ 32) with 4294967296. nia. Qed.

Lemma tp_said_small calls : forall c outs, tp_wf c -> tp_run C c calls = Ok outs -> Forall (fun o => fst (fst o) = 0) outs ->
  Forall (fun m => zlen m < 2 ^ 32) (tp_said c outs).
Proof.
  induction calls as [|[[e input] out] calls IH]; intros c outs W H Hr; cbn [tp_run] in H; [injection H as <-; constructor|].
  apply bind_ok in H. destruct H as ([[ret c1] out1] & E & H). apply bind_ok in H. destruct H as (rest & E0 & H). injection H as <-.
  inversion Hr as [|? ? R1 R2]; subst. cbn [fst] in R1. subst ret. cbn [tp_said]. apply Forall_app. split; [|apply (IH _ _ (tp_wf_step _ _ _ _ _ _ _ W E) E0 R2)].
  unfold broadcast_step. destruct (_ || _) eqn:Hb; [|constructor]. constructor; [|constructor].
  pose proof (w_n c W) as Hn. pose proof (w_t c W) as Ht. destruct (msg_small (t_n c) (t_t c) ltac:(lia) ltac:(lia)) as (M1 & M2 & M3).
  apply orb_prop in Hb. destruct Hb as [Hb|Hb]; [apply orb_prop in Hb; destruct Hb as [Hb|Hb]|]; apply Z.eqb_eq in Hb.
  - rewrite tp_next_1 in E by assumption. apply finish_inv in E. destruct E as (c2 & E & _). apply out4 in E. lia.
  - rewrite tp_next_4 in E by assumption. apply finish_inv in E. destruct E as (c2 & E & _). apply out12 in E. lia.
  - rewrite tp_next_6 in E by assumption. apply bind_ok in E. destruct E as ([[r2 c2] o2] & E & E2). injection E2 as -> _ <-. apply out16 in E. lia.
Qed.

Lemma peer_nt_step e c input out ret c' out' : peer_next C e c input out = Ok (ret, c', out') -> p_n C c' = p_n C c /\ p_t C c' = p_t C c.
Proof.
  intros H. apply peer_next_moves in H. destruct H as [(_ & _ & -> & _)|(Hs & c1 & X & H)]; [split; reflexivity|].
  destruct X. intuition; subst; cbn [p_n p_t peer_step_set peer_share_set]; congruence.
Qed.

Lemma peer_heard_small calls : forall c outs, 0 <= p_n C c <= 128 -> 0 <= p_t C c <= 128 ->
  peer_run C c calls = Ok outs -> Forall (fun o => fst (fst o) = 0) outs ->
  Forall (fun m => zlen m < 2 ^ 32) (peer_heard C c calls outs).
Proof.
  induction calls as [|[[e input] out] calls IH]; intros c outs Hn Ht H Hr; cbn [peer_run] in H; [injection H as <-; constructor|].
  apply bind_ok in H. destruct H as ([[ret c1] out1] & E & H). apply bind_ok in H. destruct H as (rest & E0 & H). injection H as <-.
  inversion Hr as [|? ? R1 R2]; subst. cbn [fst] in R1. subst ret. cbn [peer_heard]. pose proof (peer_nt_step _ _ _ _ _ _ _ E) as (N1 & N2).
  apply Forall_app. split; [|apply (IH c1 rest); [lia|lia|exact E0|exact R2]].
  destruct (broadcast_step (p_step C c)) eqn:Hb; [|constructor]. constructor; [|constructor].
  destruct (msg_small (p_n C c) (p_t C c) Hn Ht) as (M1 & M2 & M3). unfold broadcast_step in Hb.
  assert (Hs : p_step C c = 1 \/ p_step C c = 4 \/ p_step C c = 6).
  { apply orb_prop in Hb. destruct Hb as [Hb|Hb]; [apply orb_prop in Hb; destruct Hb as [Hb|Hb]|]; apply Z.eqb_eq in Hb; auto. }
  destruct (Z.eq_dec (zlen input) (peer_input_size C c)) as [->|Hne].
  - unfold peer_input_size. destruct Hs as [->|[->| ->]]; assumption.
  - destruct (peer_demands C e c input out ltac:(lia)) as (D & _). destruct (D Hne) as (c'' & D'). rewrite D' in E. discriminate.
Qed.

(** ** C39 *)
Lemma peer19_content e c input out c' out' : crypto_ok C -> zlen (p_sid C c) = 32 -> is_u64 (pe_s e 0) -> 0 <= p_index C c < 256 ->
  peer_step19 C e c input out = Ok (0, c', out') -> zlen out' = msg19_SIZE /\
  rd out' hdr_SIZE 32 = Ok (blake2b (cH C) 32 (p_transcript C c)).
Proof.
  intros HC Hsid Hu Hi. unfold peer_step19. intros H. destruct (zlen input =? 0); cbn [negb] in H; [|discriminate].
  destruct (zlen out =? msg19_SIZE) eqn:E; cbn [negb] in H; [|discriminate]. apply Z.eqb_eq in E.
  apply bind_ok in H. destruct H as (o1 & W & H). apply bind_ok in H. destruct H as (o2 & Sn & H). injection H as <- <-.
  assert (Hl : zlen (blake2b (cH C) 32 (p_transcript C c)) = 32) by (unfold zlen; rewrite (ok_blake2b_len _ (ok_cH C HC)); reflexivity).
  pose proof (rd_wr_same _ _ _ _ W) as R. rewrite Hl in R. apply wr_zlen in W.
  assert (V : msg19_SIZE = 143) by reflexivity. assert (V2 : hdr_SIZE = 111) by reflexivity.
  assert (B : exists body, rd o1 (0 + 111) (msg19_SIZE - 111) = Ok body) by (eexists; apply rd_ok; lia). destruct B as (body & B).
  destruct (send_signed S o1 0 msg19_SIZE 20 (p_index C c) 0 (p_sk C c) (p_sid C c) (pe_s e 0) body) as (b' & m & Sn' & Z' & _ & _ & Q);
    try assumption; try (unfold is_byte; lia); [apply (ok_cS C HC)|].
  fold S in Sn. rewrite Sn' in Sn. injection Sn as <-. split; [lia|]. rewrite Q by lia. exact R.
Qed.

(** The trusted party accepted digests in step 8; peer p produced the one in position i. *)
Theorem digests_agree e c input out c' out' pe p pout p' m i :
  crypto_ok C -> tp_wf c -> is_u64 (e_s e 0) -> t_step c = 8 -> tp_next C e c input out = Ok (0, c', out') ->
  zlen (p_sid C p) = 32 -> is_u64 (pe_s pe 0) -> 0 <= p_index C p < 256 -> p_step C p = 8 -> peer_next C pe p [] pout = Ok (0, p', m) ->
  0 <= i < t_n c -> rd input (i * msg19_SIZE) msg19_SIZE = Ok m ->
  blake2b (cH C) 32 (p_transcript C p) = blake2b (cH C) 32 (t_transcript c).
Proof.
  intros HC W Hu Hs H Hsid Hpu Hi Hps HP Hin Hm. rewrite tp_next_8 in H by assumption. rewrite peer_next_8 in HP by assumption.
  apply finish_inv in H. destruct H as (c1 & H & ->). apply pfinish_inv in HP. destruct HP as (p1 & HP & ->).
  pose proof (w_n c W) as Hn. destruct (step20_content C e c input out c1 out' HC (w_sid c W) Hu ltac:(lia) H) as (_ & _ & _ & _ & L).
  destruct (L i Hin) as (L1 & _). apply peer19_content in HP; try assumption. destruct HP as (_ & HP).
  assert (V : msg19_SIZE = 143) by reflexivity. assert (V2 : hdr_SIZE = 111) by reflexivity.
  rewrite (rd_rd _ _ _ _ hdr_SIZE 32 Hm) in HP by lia. rewrite L1 in HP. congruence.
Qed.

Lemma start_peer_inv p0 eps lt msg0 now p : start_peer C p0 eps lt msg0 now = Ok (0, p) ->
  2 <= p_t C p < p_n C p /\ p_n C p <= 128 /\ p_step C p = 0 /\ zlen (p_sid C p) = 32 /\ p_complaints C p = [] /\ p_my C p = [] /\ p_eps C p = eps /\ p_lt_sk C p = lt /\
  exists m, rd msg0 0 msg0_SIZE = Ok m /\ zlen m = msg0_SIZE /\ p_transcript C p = update_transcript str_transcript m.
Proof.
  unfold start_peer. intros H. apply bind_ok in H. destruct H as (pk & _ & H). apply bind_ok in H. destruct H as (sid & Es & H).
  apply bind_ok in H. destruct H as ([ret last] & Rv & H). apply recv_codes in Rv. cbv zeta beta in H. destruct (Z.eqb_spec ret 0); cbn [negb] in H; [|injection H; intros; lia].
  apply bind_ok in H. destruct H as (bn & _ & H). apply bind_ok in H. destruct H as (bt & _ & H). cbv zeta beta in H.
  destruct (Z.ltb_spec (bz bt) 2); [discriminate|]. destruct (Z.leb_spec (bz bn) (bz bt)); [discriminate|]. destruct (Z.ltb_spec 128 (bz bn)); [discriminate|].
  apply bind_ok in H. destruct H as (m & Em & H). injection H as <-. cbn [p_t p_n p_step p_sid p_complaints p_my p_eps p_lt_sk p_transcript].
  apply rd_inv in Es. pose proof (rd_inv _ _ _ _ Em) as Em2. repeat split; try lia; try tauto. exists m. repeat split; [exact Em|tauto].
Qed.

Theorem same_broadcasts_or_collision
    c0 eps n t name buf sid sk now c1 msg0 com cmax enc chmax pks lt now2 calls outs
    p0 peps plt pmsg0 pnow p1 ppks pnpks pouts0 pins pshares pxshares pcom pcmax pmymax pcalls pouts :
  start_tp C c0 eps n t name buf sid sk now = Ok (0, c1, msg0) ->
  let c2 := tp_set_bufs c1 com cmax enc chmax pks lt now2 in
  tp_wf c2 -> tp_run C c2 calls = Ok outs -> Forall (fun o => fst (fst o) = 0) outs ->
  start_peer C p0 peps plt pmsg0 pnow = Ok (0, p1) -> zlen msg0 = msg0_SIZE -> zlen pmsg0 = msg0_SIZE ->
  let p2 := peer_set_bufs C p1 ppks pnpks pouts0 pins pshares pxshares pcom pcmax pmymax in
  peer_run C p2 pcalls = Ok pouts -> Forall (fun o => fst (fst o) = 0) pouts ->
  blake2b (cH C) 32 (p_transcript C (final p2 pouts)) = blake2b (cH C) 32 (t_transcript (final c2 outs)) ->
  (pmsg0 = msg0 /\ peer_heard C p2 pcalls pouts = tp_said c2 outs) \/
  p_transcript C (final p2 pouts) <> t_transcript (final c2 outs).
Proof.
  intros Hst c2 W Hr Hz Hps Hm0 Hpm0 p2 Hpr Hpz Hb.
  destruct (list_eq_dec Byte.byte_eq_dec (p_transcript C (final p2 pouts)) (t_transcript (final c2 outs))) as [E|E]; [left|right; exact E].
  rewrite (tp_transcript_history calls c2 outs Hr Hz), (peer_transcript_history pcalls p2 pouts Hpr Hpz) in E.
  apply start_tp_inv in Hst. apply start_peer_inv in Hps. destruct Hps as (A1 & A2 & A3 & A4 & A5 & A6 & _ & _ & m & M1 & M2 & M3).
  change (t_transcript c2) with (t_transcript c1) in E. change (p_transcript C p2) with (p_transcript C p1) in E.
  assert (Hm : m = pmsg0). { rewrite (rd_all pmsg0 _ Hpm0) in M1. congruence. } subst m.
  replace (t_transcript c1) with (update_transcript str_transcript msg0) in E by (symmetry; tauto). rewrite M3 in E.
  change (fold_left update_transcript (pmsg0 :: peer_heard C p2 pcalls pouts) str_transcript = fold_left update_transcript (msg0 :: tp_said c2 outs) str_transcript) in E.
  apply transcript_unambiguous in E.
  - injection E as -> ->. auto.
  - constructor; [rewrite Hpm0; reflexivity|]. apply peer_heard_small; try assumption; unfold p2; cbn [p_n p_t peer_set_bufs]; lia.
  - constructor; [rewrite Hm0; reflexivity|]. eapply tp_said_small; eassumption.
Qed.

(** ** C41 *)
(** the size of a peer-to-peer message in a relay step *)
Theorem relay_unchanged e c input out c' out' i j : 1 <= t_n c -> In (t_step c) [2; 3; 5] -> tp_next C e c input out = Ok (0, c', out') ->
  0 <= i < t_n c -> 0 <= j < t_n c ->
  let sz := relay_size (t_step c) in
  exists off, tp_peer_msg c' (zlen out') i = (0, Some (off, t_n c * sz)) /\
    rd out' (off + j * sz) sz = rd input (j * (t_n c * sz) + i * sz) sz /\ is_ok (rd out' (off + j * sz) sz).
Proof.
  intros Hn Hs H Hi Hj. cbv zeta.
  assert (V4 : msg4_SIZE = 159) by reflexivity. assert (V5 : msg5_SIZE = 159) by reflexivity. assert (V8 : msg8_SIZE = 256) by reflexivity.
  destruct Hs as [Hs|[Hs|[Hs|[]]]]; symmetry in Hs.
  - rewrite tp_next_2 in H by assumption. apply finish_inv in H. destruct H as (c1 & H & ->). pose proof (ext_step68 C _ _ _ _ _ _ _ H) as X.
    apply step68_content in H; [|assumption]. destruct H as (L1 & L2 & L3). destruct (L3 i j Hi Hj) as (R & _).
    unfold relay_size. rewrite Hs. cbn [Z.eqb Pos.eqb]. exists (i * msg4_SIZE * t_n c). unfold tp_peer_msg. cbn [t_n t_prev tp_step_set Z.eqb].
    rewrite (x_n _ _ X), (x_step _ _ X), Hs. destruct (Z.leb_spec (t_n c) i); [lia|].
    destruct (Z.ltb_spec (zlen out') (i * msg4_SIZE * t_n c + msg4_SIZE * t_n c)); [nia|].
    split; [do 2 f_equal; f_equal; lia|]. replace (i * msg4_SIZE * t_n c + j * msg4_SIZE) with ((i * t_n c + j) * msg4_SIZE) by lia.
    replace (j * (t_n c * msg4_SIZE) + i * msg4_SIZE) with ((j * t_n c + i) * msg4_SIZE) by lia. split; [exact R|]. rewrite rd_ok; [eexists; reflexivity|nia|lia|nia].
  - rewrite tp_next_3 in H by assumption. apply finish_inv in H. destruct H as (c1 & H & ->). pose proof (ext_step68 C _ _ _ _ _ _ _ H) as X.
    apply step68_content in H; [|assumption]. destruct H as (L1 & L2 & L3). destruct (L3 i j Hi Hj) as (R & _).
    unfold relay_size. rewrite Hs. cbn [Z.eqb Pos.eqb]. exists (i * msg5_SIZE * t_n c). unfold tp_peer_msg. cbn [t_n t_prev tp_step_set Z.eqb].
    rewrite (x_n _ _ X), (x_step _ _ X), Hs. destruct (Z.leb_spec (t_n c) i); [lia|].
    destruct (Z.ltb_spec (zlen out') (i * msg5_SIZE * t_n c + msg5_SIZE * t_n c)); [nia|].
    split; [do 2 f_equal; f_equal; lia|]. replace (i * msg5_SIZE * t_n c + j * msg4_SIZE) with ((i * t_n c + j) * msg4_SIZE) by lia.
    replace (j * (t_n c * msg4_SIZE) + i * msg4_SIZE) with ((j * t_n c + i) * msg4_SIZE) by lia. split; [exact R|]. rewrite rd_ok; [eexists; reflexivity|nia|lia|nia].
  - rewrite tp_next_5 in H by assumption. apply finish_inv in H. destruct H as (c1 & H & ->). pose proof (ext_step14 C _ _ _ _ _ _ _ H) as X.
    apply step14_content in H; [|assumption]. destruct H as (L1 & L2 & _ & L3). destruct (L3 i j Hi Hj) as (R & _).
    unfold relay_size. rewrite Hs. cbn [Z.eqb Pos.eqb]. exists (i * t_n c * msg8_SIZE). unfold tp_peer_msg. cbn [t_n t_prev tp_step_set Z.eqb].
    rewrite (x_n _ _ X), (x_step _ _ X), Hs. destruct (Z.leb_spec (t_n c) i); [lia|].
    destruct (Z.ltb_spec (zlen out') (i * t_n c * msg8_SIZE + t_n c * msg8_SIZE)); [nia|].
    split; [do 2 f_equal; f_equal; lia|]. replace (i * t_n c * msg8_SIZE + j * msg8_SIZE) with ((i * t_n c + j) * msg8_SIZE) by lia.
    replace (j * (t_n c * msg8_SIZE) + i * msg8_SIZE) with ((j * t_n c + i) * msg8_SIZE) by lia. split; [exact R|]. rewrite rd_ok; [eexists; reflexivity|nia|lia|nia].
Qed.

(** every relayed message was signed by its sender for its addressee *)
Theorem relay_authentic e c input out c' out' i j : 1 <= t_n c -> In (t_step c) [2; 3; 5] -> tp_next C e c input out = Ok (0, c', out') ->
  0 <= i < t_n c -> 0 <= j < t_n c ->
  let sz := relay_size (t_step c) in
  exists pk, getz (t_pks c) j = Ok pk /\
    delivered input (j * (t_n c * sz) + i * sz) sz pk (t_sid c) (relay_msgno (t_step c)) (j + 1) (i + 1).
Proof.
  intros Hn Hs H Hi Hj. cbv zeta. destruct Hs as [Hs|[Hs|[Hs|[]]]]; symmetry in Hs; unfold relay_size, relay_msgno; rewrite Hs; cbn [Z.eqb Pos.eqb].
  - rewrite tp_next_2 in H by assumption. apply finish_inv in H. destruct H as (c1 & H & ->).
    apply step68_content in H; [|assumption]. destruct H as (L1 & L2 & L3). destruct (L3 i j Hi Hj) as (_ & pk & P1 & P2). rewrite Hs in P2.
    exists pk. split; [exact P1|]. replace (j * (t_n c * msg4_SIZE) + i * msg4_SIZE) with ((j * t_n c + i) * msg4_SIZE) by lia. exact P2.
  - rewrite tp_next_3 in H by assumption. apply finish_inv in H. destruct H as (c1 & H & ->).
    apply step68_content in H; [|assumption]. destruct H as (L1 & L2 & L3). destruct (L3 i j Hi Hj) as (_ & pk & P1 & P2). rewrite Hs in P2.
    exists pk. split; [exact P1|]. replace (j * (t_n c * msg4_SIZE) + i * msg4_SIZE) with ((j * t_n c + i) * msg4_SIZE) by lia. exact P2.
  - rewrite tp_next_5 in H by assumption. apply finish_inv in H. destruct H as (c1 & H & ->).
    apply step14_content in H; [|assumption]. destruct H as (L1 & L2 & _ & L3). destruct (L3 i j Hi Hj) as (_ & pk & P1 & P2).
    exists pk. split; [exact P1|]. replace (j * (t_n c * msg8_SIZE) + i * msg8_SIZE) with ((j * t_n c + i) * msg8_SIZE) by lia. exact P2.
Qed.

(** ** C35 *)
Theorem complaints_recorded e c input out ret c' out' : tp_wf c -> t_step c = 6 -> tp_next C e c input out = Ok (ret, c', out') ->
  tp_input_size c = Ok (zlen input) -> zlen out = tp_output_size c ->
  Forall (complaint_ok (t_n c)) (t_complaints c') /\ NoDup (t_complaints c') /\ zlen (t_complaints c') <= t_n c * t_n c /\
  (ret = 0 -> zlen (t_complaints c') < t_t c * t_t c /\ t_cheaters c' = t_cheaters c).
Proof.
  intros W Hs H Hin Hout. pose proof (w_n c W) as Hn.
  destruct (tp_demands C e c input out (zlen input) ltac:(lia) ltac:(lia) Hin) as (_ & _ & D). destruct (D eq_refl Hout _ _ _ H) as (D1 & D2).
  rewrite tp_next_6 in H by assumption. apply bind_ok in H. destruct H as ([[ret1 c1] out1] & E & H). injection H as -> <- ->.
  destruct (complaints_well_formed C e c input out ret c1 out' Hn E D1 D2) as ((G1 & G2) & G3). cbn [t_complaints t_cheaters tp_step_set].
  split; [exact G1|]. split; [exact G2|]. split; [exact G3|]. intros ->. pose proof (ext_step16 C _ _ _ _ _ _ _ E) as X.
  apply complaints_success in E. destruct E as (E1 & E2). split; [exact E1|]. destruct (x_cheaters _ _ X) as (l & El). rewrite E2 in El.
  symmetry in El. apply app_eq_nil in El. destruct El as (El & _). congruence.
Qed.

(** ** C51 *)
Theorem keys_signed e c input out c' out' : crypto_ok C -> tp_wf c -> is_u64 (e_s e 0) -> t_step c = 1 ->
  tp_next C e c input out = Ok (0, c', out') ->
  forall i, 0 <= i < t_n c -> exists m ltsig lt pk,
    rd input (i * (msg2_SIZE + sign_BYTES)) msg2_SIZE = Ok m /\ rd input (i * (msg2_SIZE + sign_BYTES) + msg2_SIZE) sign_BYTES = Ok ltsig /\
    getz (t_lt c) i = Ok lt /\ sig_verify S lt m ltsig = true /\
    rd m 111 32 = Ok pk /\ getz (t_pks c') i = Ok pk /\
    delivered input (i * (msg2_SIZE + sign_BYTES)) msg2_SIZE pk (t_sid c) 2 (i + 1) 255.
Proof.
  intros HC W Hu Hs H i Hi. pose proof (w_n c W) as Hn. rewrite tp_next_1 in H by assumption. apply finish_inv in H. destruct H as (c1 & H & ->).
  destruct (step4_content C e c input out c1 out' HC (w_sid c W) Hu ltac:(lia) H) as (_ & _ & _ & _ & L).
  destruct (L i Hi) as (m & ltsig & lt & pk & Q1 & Q2 & Q3 & Q4 & Q5 & Q6 & Q7 & _). exists m, ltsig, lt, pk. cbn [t_pks tp_step_set].
  repeat (split; [assumption|]). exact Q7.
Qed.

(** ** C46 *)
Theorem acks_signed e c input out c' out' : tp_wf c -> t_step c = 9 -> tp_next C e c input out = Ok (0, c', out') ->
  forall i, 0 <= i < t_n c -> exists pk, getz (t_pks c) i = Ok pk /\ delivered input (i * msg21_SIZE) msg21_SIZE pk (t_sid c) 22 (i + 1) 0.
Proof.
  intros W Hs H. pose proof (w_n c W) as Hn. rewrite tp_next_9 in H by assumption. apply finish_inv in H. destruct H as (c1 & H & ->).
  apply step22_content in H; [|lia]. apply H.
Qed.

(** the other half of C46: the honest peer's acknowledgement is the OK it received *)
Theorem ack_says_ok e p input out p' out' : crypto_ok C -> zlen (p_sid C p) = 32 -> is_u64 (pe_s e 0) -> 0 <= p_index C p < 256 -> p_step C p = 9 ->
  peer_next C e p input out = Ok (0, p', out') -> rd out' 111 2 = Ok str_OK /\
  signed S (sig_pk S (p_sk C p)) (p_sid C p) 22 (p_index C p) 0 (pe_s e 0) str_OK out'.
Proof.
  intros HC Hsid Hu Hi Hs H. rewrite peer_next_9 in H by assumption. apply pfinish_inv in H. destruct H as (p1 & H & _).
  unfold peer_step21 in H. destruct (_ =? msg20_SIZE); cbn [negb] in H; [|discriminate].
  destruct (Z.eqb_spec (zlen out) msg21_SIZE) as [E|]; cbn [negb] in H; [|discriminate].
  apply bind_ok in H. destruct H as ([ret c1] & R & H). unfold peer_recv_tp in R. apply bind_ok in R. destruct R as ([r2 l2] & R & R2). injection R2 as -> <-.
  apply recv_codes in R. destruct (Z.eqb_spec ret 0); cbn [negb] in H; [|injection H; intros; lia].
  apply bind_ok in H. destruct H as (d & _ & H). destruct (bytes_eqb d str_OK) eqn:Ed; cbn [negb] in H; [|discriminate]. apply bytes_eqb_eq in Ed. subst d.
  cbv zeta in H. apply bind_ok in H. destruct H as (o1 & W & H). apply bind_ok in H. destruct H as (o2 & Sn & H). injection H as _ <-.
  cbn [p_index p_sk p_sid peer_share_set peer_tp_last_set] in Sn.
  pose proof (rd_wr_same _ _ _ _ W) as B. change (zlen str_OK) with 2 in B. apply wr_zlen in W.
  assert (V : msg21_SIZE = 113) by reflexivity. assert (V2 : hdr_SIZE = 111) by reflexivity.
  destruct (send_signed S o1 0 msg21_SIZE 22 (p_index C p) 0 (p_sk C p) (p_sid C p) (pe_s e 0) str_OK) as (b' & m & Sn' & Z' & M & G & Q);
    try assumption; try (unfold is_byte; lia); [apply (ok_cS C HC)|].
  fold S in Sn. rewrite Sn' in Sn. injection Sn as <-. rewrite (rd_all b' msg21_SIZE) in M by lia. injection M as <-. split; [|exact G]. rewrite Q by lia. exact B.
Qed.
End AGREE.
