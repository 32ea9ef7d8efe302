(** What the peer's step functions leave unchanged. *)
From Coq Require Import ZArith Lia List Bool.
From Coq.Strings Require Import Byte.
From Verif Require Import Bytes Res Mem Sodium ToprfModel DkgModel WireModel TpCrypto TpModel PeerModel TpFrame.
Import ListNotations.
Open Scope list_scope.
Open Scope Z_scope.

Arguments dkg_verify_commitments : simpl never.
Arguments dkg_verify_commitment : simpl never.
Arguments dkg_start : simpl never.

Lemma loop_u8_inv {X} (P : X -> Prop) (body : Z -> X -> res X) n fuel : forall j s s',
  P s -> (forall i s1 s2, P s1 -> body i s1 = Ok s2 -> P s2) -> loop_u8_le fuel j n body s = Ok s' -> P s'.
Proof.
  induction fuel as [|fuel IH]; intros j s s' Hs Hb H; cbn [loop_u8_le] in H; [discriminate|].
  inv H; [|assumption]. eapply IH; [|exact Hb|exact H]. eapply Hb; eassumption.
Qed.

Lemma recv_codes S buf off len msgno from to pk sid eps last now r last' :
  recv_msg S buf off len msgno from to pk sid eps last now = Ok (r, last') -> 0 <= r <= 7.
Proof. unfold recv_msg. intros H. inv H; lia. Qed.

Section PEER.
Variable C : crypto.
Notation peer := (peer C).

Record p_ext (c c' : peer) : Prop := mkPext {
  y_step : p_step C c' = p_step C c; y_prev : p_prev C c' = p_prev C c; y_sid : p_sid C c' = p_sid C c;
  y_n : p_n C c' = p_n C c; y_t : p_t C c' = p_t C c; y_tp_pk : p_tp_pk C c' = p_tp_pk C c; y_eps : p_eps C c' = p_eps C c;
  y_cmax : p_cmax C c' = p_cmax C c; y_mymax : p_mymax C c' = p_mymax C c; y_share : p_share C c' = p_share C c;
  y_last : zlen (p_last C c') = zlen (p_last C c); y_pks : zlen (p_pks C c') = zlen (p_pks C c);
  y_npks : zlen (p_npks C c') = zlen (p_npks C c); y_outs : zlen (p_outs C c') = zlen (p_outs C c);
  y_ins : zlen (p_ins C c') = zlen (p_ins C c); y_com : zlen (p_com C c') = zlen (p_com C c);
  y_shares : zlen (p_shares C c') = zlen (p_shares C c); y_xshares : zlen (p_xshares C c') = zlen (p_xshares C c);
  y_index : p_step C c <> 0 -> p_index C c' = p_index C c; y_sk : p_step C c <> 0 -> p_sk C c' = p_sk C c
}.

Lemma pext_refl c : p_ext c c.
Proof. constructor; auto. Qed.
Lemma pext_trans a b c : p_ext a b -> p_ext b c -> p_ext a c.
Proof.
  intros [] []. constructor; try congruence.
  - intros H. rewrite y_index1 by congruence. auto.
  - intros H. rewrite y_sk1 by congruence. auto.
Qed.
Ltac pset := intros; constructor; auto.
Lemma pext_tp_last c x : p_ext c (peer_tp_last_set C c x). Proof. pset. Qed.
Lemma pext_last c x : zlen x = zlen (p_last C c) -> p_ext c (peer_last_set C c x). Proof. pset. Qed.
Lemma pext_dev c x : p_ext c (peer_dev_set C c x). Proof. pset. Qed.
Lemma pext_pk c x y : zlen x = zlen (p_pks C c) -> zlen y = zlen (p_npks C c) -> p_ext c (peer_pk_set C c x y). Proof. pset. Qed.
Lemma pext_outs c x : zlen x = zlen (p_outs C c) -> p_ext c (peer_outs_set C c x). Proof. pset. Qed.
Lemma pext_ins c x : zlen x = zlen (p_ins C c) -> p_ext c (peer_ins_set C c x). Proof. pset. Qed.
Lemma pext_com c x : zlen x = zlen (p_com C c) -> p_ext c (peer_com_set C c x). Proof. pset. Qed.
Lemma pext_shares c x : zlen x = zlen (p_shares C c) -> p_ext c (peer_shares_set C c x). Proof. pset. Qed.
Lemma pext_xshares c x : zlen x = zlen (p_xshares C c) -> p_ext c (peer_xshares_set C c x). Proof. pset. Qed.
Lemma pext_complaints c x : p_ext c (peer_complaints_set C c x). Proof. pset. Qed.
Lemma pext_my c x : p_ext c (peer_my_set C c x). Proof. pset. Qed.
Lemma pext_transcript c x : p_ext c (peer_transcript_set C c x). Proof. pset. Qed.
Lemma pext_keys c a b d e : p_step C c = 0 -> p_ext c (peer_keys_set C c a b d e).
Proof. intros H. constructor; auto; intros H'; contradiction. Qed.

Lemma peer_recv_inv c buf off len msgno from to pk i now ret c' :
  peer_recv C c buf off len msgno from to pk i now = Ok (ret, c') ->
  exists last last' l, getz (p_last C c) i = Ok last /\
    recv_msg (cS C) buf off len msgno from to pk (p_sid C c) (p_eps C c) last now = Ok (ret, last') /\
    updz (p_last C c) i last' = Ok l /\ c' = peer_last_set C c l.
Proof. unfold peer_recv. intros H. inv H. do 3 eexists. repeat split; eassumption. Qed.

Lemma peer_recv_tp_inv c buf off len msgno to now ret c' :
  peer_recv_tp C c buf off len msgno to now = Ok (ret, c') ->
  exists last', recv_msg (cS C) buf off len msgno 0 to (p_tp_pk C c) (p_sid C c) (p_eps C c) (p_tp_last C c) now = Ok (ret, last') /\
    c' = peer_tp_last_set C c last'.
Proof. unfold peer_recv_tp. intros H. inv H. eexists. split; [eassumption|reflexivity]. Qed.

Lemma pext_recv c buf off len msgno from to pk i now ret c' :
  peer_recv C c buf off len msgno from to pk i now = Ok (ret, c') -> p_ext c c'.
Proof.
  intros H. apply peer_recv_inv in H. destruct H as (last & last' & l & _ & _ & H & ->).
  apply pext_last. eapply updz_zlen; exact H.
Qed.
Lemma pext_recv_tp c buf off len msgno to now ret c' :
  peer_recv_tp C c buf off len msgno to now = Ok (ret, c') -> p_ext c c'.
Proof. intros H. apply peer_recv_tp_inv in H. destruct H as (last & _ & ->). apply pext_tp_last. Qed.

Lemma ploop_ext {I X} (proj : X -> peer) (f : I -> X -> res (ctl X)) l s r :
  (forall i s r, f i s = Ok r -> p_ext (proj s) (proj (ctl_state r))) ->
  loopM f l s = Ok r -> p_ext (proj s) (proj (ctl_state r)).
Proof.
  intros Hf H.
  pose proof (loopM_inv f (fun s' => p_ext (proj s) (proj s')) (fun _ s' => p_ext (proj s) (proj s')) l s r) as L.
  assert (HH : match r with Next s2 => p_ext (proj s) (proj s2) | Return _ s2 => p_ext (proj s) (proj s2) end).
  { apply L; [apply pext_refl| |assumption]. intros i s1 c1 _ H1 E. pose proof (Hf _ _ _ E) as H2.
    destruct c1; cbn in *; eapply pext_trans; eassumption. }
  destruct r; assumption.
Qed.

(** use every update found in the context, oldest first *)
Ltac lens := repeat match goal with H : updz _ _ _ = Ok _ |- _ => apply updz_zlen in H end; cbn in *; congruence.
Ltac pchain :=
  cbn [ctl_state fst snd] in *;
  repeat match goal with
  | H : peer_recv C ?c _ _ _ _ _ _ _ _ _ = Ok (_, ?c') |- p_ext ?c ?x => eapply pext_trans; [exact (pext_recv _ _ _ _ _ _ _ _ _ _ _ _ H)|]; clear H
  | H : peer_recv_tp C ?c _ _ _ _ _ _ = Ok (_, ?c') |- p_ext ?c ?x => eapply pext_trans; [exact (pext_recv_tp _ _ _ _ _ _ _ _ _ H)|]; clear H
  end;
  first [ apply pext_refl | constructor; intros; lens ].

Lemma pext_step5_body e input i s r : peer_step5_body C e input i s = Ok r -> p_ext (fst s) (fst (ctl_state r)).
Proof. destruct s as [c out]. unfold peer_step5_body. intros H. inv H; pchain. Qed.
Lemma pext_step7_body e input i s r : peer_step7_body C e input i s = Ok r -> p_ext (fst s) (fst (ctl_state r)).
Proof. destruct s as [c out]. unfold peer_step7_body. intros H. inv H; pchain. Qed.
Lemma pext_step911_body e input i c r : peer_step911_body C e input i c = Ok r -> p_ext c (ctl_state r).
Proof. unfold peer_step911_body. intros H. inv H; pchain. Qed.
Lemma pext_step13_body e input i s r : peer_step13_body C e input i s = Ok r -> p_ext (fst s) (fst (ctl_state r)).
Proof. destruct s as [c out]. unfold peer_step13_body. intros H. inv H; pchain. Qed.
Lemma pext_step15_body e input i c r : peer_step15_body C e input i c = Ok r -> p_ext c (ctl_state r).
Proof. unfold peer_step15_body. intros H. inv H; pchain. Qed.
Lemma pext_step17_complaint input p i lim k c r : peer_step17_complaint C input p i lim k c = Ok r -> p_ext c (ctl_state r).
Proof. unfold peer_step17_complaint. intros H. inv H; pchain. Qed.
Lemma pext_step17_body e input i c r : peer_step17_body C e input i c = Ok r -> p_ext c (ctl_state r).
Proof.
  unfold peer_step17_body. intros H. inv H; try solve [pchain].
  eapply (ploop_ext (fun c => c)) in H; [|intros; eapply pext_step17_complaint; eassumption].
  eapply pext_trans; [|exact H]. pchain.
Qed.

Lemma dkg_start_zlen R lk n t a cbuf sbuf ret cs ss : dkg_start R lk n t a cbuf sbuf = Ok (ret, cs, ss) ->
  zlen cs = zlen cbuf /\ zlen ss = zlen sbuf.
Proof.
  unfold dkg_start. intros H. inv H; [auto|]. split.
  - eapply (foldM_inv _ (fun l => zlen l = zlen cbuf)); [reflexivity| |exact E0].
    intros i s1 s2 _ H1 H2. cbv beta in H2. inv H2. apply updz_zlen in H2. congruence.
  - eapply (loop_u8_inv (fun l => zlen l = zlen sbuf)); [reflexivity| |exact E1].
    intros i s1 s2 H1 H2. cbv beta in H2. inv H2. apply updz_zlen in H2. congruence.
Qed.

Ltac uloop proj lem :=
  match goal with H : loopM _ _ _ = Ok _ |- _ =>
    eapply (ploop_ext proj) in H; [|intros; eapply lem; eassumption]; cbn [ctl_state fst snd] in H end.

Lemma done_inv {A} (r : ctl (A * bytes)) ret (c : A) out : done r = Ok (ret, c, out) ->
  fst (ctl_state r) = c /\ snd (ctl_state r) = out /\ (r = Next (c, out) /\ ret = 0 \/ r = Return ret (c, out)).
Proof. destruct r as [[a b]|k [a b]]; cbn; intros E; injection E as <- <- <-; auto. Qed.

Lemma pext_step23 e c input out ret c' out' : p_step C c = 0 -> peer_step23 C e c input out = Ok (ret, c', out') -> p_ext c c'.
Proof.
  unfold peer_step23. intros H0 H. inv H; try solve [pchain].
  match goal with H : peer_recv_tp _ _ _ _ _ _ _ _ = _ |- _ => apply pext_recv_tp in H end.
  eapply pext_trans; [eassumption|]. apply pext_keys. destruct E2. congruence.
Qed.
Lemma pext_step5 e c input out ret c' out' : peer_step5 C e c input out = Ok (ret, c', out') -> p_ext c c'.
Proof.
  unfold peer_step5. intros H. inv H; try solve [pchain]. apply done_inv in H. destruct H as (H & _). subst c'.
  uloop (fun s : peer * bytes => fst s) pext_step5_body. eapply pext_trans; [|eassumption]. pchain.
Qed.
Lemma pext_step7 e c input out ret c' out' : peer_step7 C e c input out = Ok (ret, c', out') -> p_ext c c'.
Proof.
  unfold peer_step7. intros H. inv H; try solve [pchain]. apply done_inv in H. destruct H as (H & _). subst c'.
  uloop (fun s : peer * bytes => fst s) pext_step7_body. assumption.
Qed.
Lemma pext_step911 e c input out ret c' out' : peer_step911 C e c input out = Ok (ret, c', out') -> p_ext c c'.
Proof.
  unfold peer_step911. intros H. inv H; try solve [pchain]; uloop (fun s : peer => s) pext_step911_body; try assumption.
  eapply pext_trans; [eassumption|]. apply pext_shares. eapply dkg_start_zlen; eassumption.
Qed.
Lemma pext_step13 e c input out ret c' out' : peer_step13 C e c input out = Ok (ret, c', out') -> p_ext c c'.
Proof.
  unfold peer_step13. intros H. inv H; try solve [pchain]. apply done_inv in H. destruct H as (H & _). subst c'.
  uloop (fun s : peer * bytes => fst s) pext_step13_body. eapply pext_trans; [|eassumption]. pchain.
Qed.
Lemma pext_step15 e c input out ret c' out' : peer_step15 C e c input out = Ok (ret, c', out') -> p_ext c c'.
Proof.
  unfold peer_step15. intros H. inv H; try solve [pchain]; uloop (fun s : peer => s) pext_step15_body; assumption.
Qed.
Lemma pext_step17 e c input out ret c' out' : peer_step17 C e c input out = Ok (ret, c', out') ->
  exists c1, p_ext c c1 /\ (c' = c1 \/ c' = peer_step_set C c1 (p_step C c1 + 1) (p_step C c1) /\ ret = 0 /\ p_complaints C c1 = []).
Proof.
  unfold peer_step17. intros H. inv H; try solve [eexists; split; [|left; reflexivity]; pchain];
    uloop (fun s : peer => s) pext_step17_body;
    (eexists; split; [eapply pext_trans; [|eassumption]; pchain|]); auto.
  right. repeat split. match goal with H : (zlen _ =? 0) = true |- _ => apply Z.eqb_eq in H; apply zlen_0 in H; exact H end.
Qed.
Lemma pext_step17a e c input out ret c' out' : peer_step17a C e c input out = Ok (ret, c', out') ->
  c' = c \/ c' = peer_step_set C c 99 (p_prev C c) /\ ret = 0.
Proof. unfold peer_step17a. intros H. inv H; auto. Qed.
Lemma pext_step19 e c input out ret c' out' : peer_step19 C e c input out = Ok (ret, c', out') -> c' = c.
Proof. unfold peer_step19. intros H. inv H; auto. Qed.
Lemma pext_step21 e c input out ret c' out' : peer_step21 C e c input out = Ok (ret, c', out') ->
  exists c1, p_ext c c1 /\ p_xshares C c1 = p_xshares C c /\
    (c' = c1 /\ ret <> 0 \/
     ret = 0 /\ c' = peer_share_set C c1 (mkShare (p_index C c1) (dkg_finish (firstn (Z.to_nat (p_n C c1)) (p_xshares C c1)))) /\
     exists last', recv_msg (cS C) input 0 (zlen input) 21 0 255 (p_tp_pk C c) (p_sid C c) (p_eps C c) (p_tp_last C c) (pe_r e 0) = Ok (0, last') /\
       rd input hdr_SIZE 2 = Ok str_OK).
Proof.
  unfold peer_step21. intros H. inv H.
  - eexists. split; [apply pext_refl|]. split; [reflexivity|]. left. split; [reflexivity|lia].
  - eexists. split; [apply pext_refl|]. split; [reflexivity|]. left. split; [reflexivity|lia].
  - match goal with H : peer_recv_tp _ _ _ _ _ _ _ _ = _ |- _ => apply peer_recv_tp_inv in H; destruct H as (l & Hr & ->) end.
    eexists. split; [apply pext_tp_last|]. split; [reflexivity|]. left. split; [reflexivity|].
    apply recv_codes in Hr. lia.
  - match goal with H : peer_recv_tp _ _ _ _ _ _ _ _ = _ |- _ => apply peer_recv_tp_inv in H; destruct H as (l & _ & ->) end.
    eexists. split; [apply pext_tp_last|]. split; [reflexivity|]. left. split; [reflexivity|lia].
  - match goal with H : peer_recv_tp _ _ _ _ _ _ _ _ = _ |- _ => apply peer_recv_tp_inv in H; destruct H as (l & Hr & ->) end.
    eexists. split; [apply pext_tp_last|]. split; [reflexivity|]. right. split; [reflexivity|]. split; [reflexivity|].
    match goal with H : negb (_ =? 0) = false |- _ => apply negb_false_iff, Z.eqb_eq in H; subst end.
    match goal with H : negb (bytes_eqb _ _) = false |- _ => apply negb_false_iff, bytes_eqb_eq in H; subst end.
    eexists. split; eassumption.
Qed.
End PEER.
