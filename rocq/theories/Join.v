(** C103: which sessions a peer joins. *)
From Coq Require Import ZArith Lia List Bool.
From Coq.Strings Require Import Byte.
From Verif Require Import Bytes Res Mem Sodium WireModel WireSpec WireProofs TpCrypto TpModel PeerModel.
From Verif Require Import TpFrame PeerFrame TpSpec TpMsg TpContent TpComplaints PeerContent TpControl TpAgree BlameSpec TpBlame TpStart JoinSpec.
Import ListNotations.
Open Scope list_scope.
Open Scope Z_scope.

Section JOIN.
Variable C : crypto.
Notation S := (cS C).

Lemma split_body (b : bytes) : zlen b = 66 -> exists pk dst x y, b = pk ++ dst ++ [x; y] /\ zlen pk = 32 /\ zlen dst = 32.
Proof.
  intros H. unfold zlen in H. assert (Hl : length b = 66%nat) by lia. clear H.
  assert (E1 : b = firstn 32 b ++ skipn 32 b) by (symmetry; apply firstn_skipn).
  assert (L1 : length (firstn 32 b) = 32%nat) by (rewrite firstn_length; lia).
  assert (L2 : length (skipn 32 b) = 34%nat) by (rewrite skipn_length; lia).
  assert (E2 : skipn 32 b = firstn 32 (skipn 32 b) ++ skipn 32 (skipn 32 b)) by (symmetry; apply firstn_skipn).
  assert (L3 : length (firstn 32 (skipn 32 b)) = 32%nat) by (rewrite firstn_length; lia).
  assert (L4 : length (skipn 32 (skipn 32 b)) = 2%nat) by (rewrite skipn_length; lia).
  destruct (skipn 32 (skipn 32 b)) as [|x [|y [|z l]]] eqn:E3; cbn [length] in L4; try lia.
  exists (firstn 32 b), (firstn 32 (skipn 32 b)), x, y. split; [rewrite <- E2; exact E1|]. unfold zlen. rewrite L1, L3. split; reflexivity.
Qed.

(** what a peer has taken when it joins *)
Lemma joined p eps lt msg0 now p' : zlen msg0 = 177 -> start_peer C p eps lt msg0 now = Ok (0, p') ->
  announces C msg0 (p_tp_pk C p') (p_sid C p') (p_tp_last C p') (p_n C p') (p_t C p') /\
  fresh eps 0 (p_tp_last C p') now /\ 2 <= p_t C p' < p_n C p' /\ p_n C p' <= 128.
Proof.
  intros Hl. unfold start_peer. assert (V : msg0_SIZE = 177) by reflexivity. assert (Vh : hdr_SIZE = 111) by reflexivity. rewrite V, Vh.
  assert (Rm : rd msg0 0 177 = Ok msg0) by (apply rd_all; exact Hl).
  intros H. apply bind_ok in H. destruct H as (pk & Ep & H). apply bind_ok in H. destruct H as (sid & Es & H).
  apply bind_ok in H. destruct H as ([ret last] & Rv & H). cbv zeta beta in H.
  destruct (Z.eqb_spec ret 0); cbn [negb] in H; [|apply recv_codes in Rv; injection H; intros; lia]. subst ret.
  apply bind_ok in H. destruct H as (bn & En & H). apply bind_ok in H. destruct H as (bt & Et & H). cbv zeta beta in H.
  destruct (Z.ltb_spec (bz bt) 2); [discriminate|]. destruct (Z.leb_spec (bz bn) (bz bt)); [discriminate|]. destruct (Z.ltb_spec 128 (bz bn)); [discriminate|].
  rewrite Rm in H. cbn [bind] in H. injection H as <-. cbn [p_tp_pk p_sid p_tp_last p_n p_t].
  destruct (recv_accepted S msg0 0 177 msg0 0 0 255 pk sid eps 0 now last Rm ltac:(lia) Rv) as (Hs & Hf & body & Hg).
  pose proof (signed_zlen _ _ _ _ _ _ _ _ _ Hs Hg) as Lb. assert (Lb2 : zlen body = 66) by lia.
  pose proof (signed_body _ _ _ _ _ _ _ _ _ Hs Hg) as RB. rewrite Lb2 in RB.
  destruct (split_body body Lb2) as (pk' & dst & x & y & Eb & Lpk & Ldst).
  assert (P1 : pk' = pk).
  { change 111 with (111 + 0) in Ep. rewrite <- (rd_rd _ _ _ _ 0 32 RB) in Ep by lia. rewrite Eb in Ep.
    pose proof (rd_mid [] pk' (dst ++ [x; y]) 0 32 eq_refl Lpk) as Q. cbn [app] in Q. rewrite Q in Ep. injection Ep as <-. reflexivity. }
  assert (P2 : x = bn).
  { apply (getz_rd _ _ _ _ 64 _ RB ltac:(lia)) in En. rewrite Eb, app_assoc in En.
    rewrite (getz_mid (pk' ++ dst) x [y] 64) in En by (rewrite zlen_app; lia). injection En as <-. reflexivity. }
  assert (P3 : y = bt).
  { apply (getz_rd _ _ _ _ 65 _ RB ltac:(lia)) in Et. rewrite Eb in Et. change [x; y] with ([x] ++ [y]) in Et. rewrite !app_assoc in Et.
    rewrite (getz_mid ((pk' ++ dst) ++ [x]) y [] 65) in Et by (rewrite !zlen_app, Lpk, Ldst; reflexivity). injection Et as <-. reflexivity. }
  subst pk' x y. pose proof (bz_range bn). pose proof (bz_range bt).
  split; [|split; [exact Hf|lia]]. unfold announces. split; [exact Hl|]. split; [exact Lpk|]. split; [exact Hs|]. split; [lia|]. split; [lia|].
  exists dst. split; [exact Ldst|]. unfold announcement. rewrite !zb_bz. rewrite <- Eb. exact Hg.
Qed.

Lemma join_announced p eps lt msg0 now pk sid ts n t : announces C msg0 pk sid ts n t -> fresh eps 0 ts now -> 2 <= t < n -> n <= 128 ->
  exists p', start_peer C p eps lt msg0 now = Ok (0, p') /\
    p_n C p' = n /\ p_t C p' = t /\ p_sid C p' = sid /\ p_tp_pk C p' = pk /\ p_tp_last C p' = ts.
Proof.
  intros (H1 & H2 & H3 & H4 & H5 & dst & H6 & H7) Hf Ht Hn.
  destruct (start_peer_forward C p eps lt msg0 now pk sid ts dst n t H1 H2 H6 H3 H4 H5 H7 Hf) as (p' & P).
  rewrite (proj2 (Z.ltb_ge t 2)), (proj2 (Z.leb_gt n t)), (proj2 (Z.ltb_ge 128 n)) in P by lia. exists p'. exact P.
Qed.

Theorem joins_iff p eps lt msg0 now : zlen msg0 = 177 ->
  ((exists p', start_peer C p eps lt msg0 now = Ok (0, p')) <->
   (exists pk sid ts n t, announces C msg0 pk sid ts n t /\ fresh eps 0 ts now /\ 2 <= t < n /\ n <= 128)).
Proof.
  intros Hl. split.
  - intros (p' & H). destruct (joined _ _ _ _ _ _ Hl H) as (A & B & D & E). eexists _, _, _, _, _. split; [exact A|]. auto.
  - intros (pk & sid & ts & n & t & A & B & D & E). destruct (join_announced p eps lt msg0 now _ _ _ _ _ A B D E) as (p' & P & _). exists p'. exact P.
Qed.

(** nothing a peer remembers plays a role *)
Theorem join_forgets p q eps lt lt2 msg0 now r p' : start_peer C p eps lt msg0 now = Ok (r, p') ->
  exists q', start_peer C q eps lt2 msg0 now = Ok (r, q') /\
    (r = 0 -> p_sid C q' = p_sid C p' /\ p_tp_pk C q' = p_tp_pk C p' /\ p_n C q' = p_n C p' /\ p_t C q' = p_t C p' /\ p_step C q' = 0 /\
      p_transcript C q' = p_transcript C p').
Proof.
  unfold start_peer. intros H. apply bind_ok in H. destruct H as (pk & -> & H). apply bind_ok in H. destruct H as (sid & -> & H).
  apply bind_ok in H. destruct H as ([ret last] & Rv & H). cbn [bind]. rewrite Rv. cbn [bind]. cbv zeta beta in *.
  destruct (Z.eqb_spec ret 0); cbn [negb] in *.
  2:{ pose proof (recv_codes _ _ _ _ _ _ _ _ _ _ _ _ _ _ Rv). injection H as <- <-. eexists. split; [reflexivity|]. lia. }
  apply bind_ok in H. destruct H as (bn & -> & H). apply bind_ok in H. destruct H as (bt & -> & H). cbn [bind]. cbv zeta beta in *.
  destruct (bz bt <? 2); [injection H as <- <-; eexists; split; [reflexivity|lia]|].
  destruct (bz bn <=? bz bt); [injection H as <- <-; eexists; split; [reflexivity|lia]|].
  destruct (128 <? bz bn); [injection H as <- <-; eexists; split; [reflexivity|lia]|].
  apply bind_ok in H. destruct H as (m & -> & H). cbn [bind]. injection H as <- <-. eexists. split; [reflexivity|]. intros _. cbn. auto 8.
Qed.

(** the same announcement again, while it is fresh *)
Theorem join_again p eps lt msg0 now p' now2 : zlen msg0 = 177 -> start_peer C p eps lt msg0 now = Ok (0, p') ->
  (exists p2, start_peer C p' eps lt msg0 now2 = Ok (0, p2) /\ p_sid C p2 = p_sid C p' /\ p_tp_pk C p2 = p_tp_pk C p' /\ p_n C p2 = p_n C p' /\ p_t C p2 = p_t C p') <->
  fresh eps 0 (p_tp_last C p') now2.
Proof.
  intros Hl H. destruct (joined _ _ _ _ _ _ Hl H) as (A & B & D & E). split.
  - intros (p2 & P & _). destruct (joined _ _ _ _ _ _ Hl P) as (A2 & B2 & _).
    assert (T : p_tp_last C p2 = p_tp_last C p'); [|rewrite <- T; exact B2].
    destruct A as (_ & L1 & L2 & _ & _ & d1 & G1 & G2). destruct A2 as (_ & M1 & M2 & _ & _ & d2 & K1 & K2).
    pose proof (signed_inj _ _ _ _ _ _ _ _ _ _ _ _ _ _ _ _ M2 L2 K2 G2) as (_ & T & _). exact T.
  - intros F. destruct (join_announced p' eps lt msg0 now2 _ _ _ _ _ A F D E) as (p2 & P1 & P2 & P3 & P4 & P5 & _). exists p2. auto.
Qed.

(** ... which is not for long *)
Theorem join_window p q eps lt lt2 msg0 now now2 p' q' : zlen msg0 = 177 ->
  0 <= eps <= now -> now + eps < 2 ^ 64 -> eps <= now2 -> now2 + eps < 2 ^ 64 ->
  start_peer C p eps lt msg0 now = Ok (0, p') -> start_peer C q eps lt2 msg0 now2 = Ok (0, q') -> Z.abs (now2 - now) <= 2 * eps.
Proof.
  intros Hl H1 H2 H3 H4 P Q. destruct (joined _ _ _ _ _ _ Hl P) as (A & B & _). destruct (joined _ _ _ _ _ _ Hl Q) as (A2 & B2 & _).
  assert (T : p_tp_last C q' = p_tp_last C p').
  { destruct A as (_ & L1 & L2 & _ & _ & d1 & G1 & G2). destruct A2 as (_ & M1 & M2 & _ & _ & d2 & K1 & K2).
    pose proof (signed_inj _ _ _ _ _ _ _ _ _ _ _ _ _ _ _ _ M2 L2 K2 G2) as (_ & T & _). exact T. }
  rewrite T in B2. unfold fresh in B, B2. rewrite Z.eqb_refl in B, B2. rewrite !Z.mod_small in B, B2 by lia. lia.
Qed.

(** anybody on the way can choose the numbers *)
Theorem join_renumbered c eps n t name buf sid sk now c' msg0 p peps lt pnow n' t' :
  crypto_ok C -> start_tp C c eps n t name buf sid sk now = Ok (0, c', msg0) -> zlen sid = 32 -> is_u64 now -> fresh peps 0 now pnow ->
  2 <= t' < n' -> n' <= 128 ->
  exists p', start_peer C p peps lt (renumbered msg0 n' t') pnow = Ok (0, p') /\
    p_n C p' = n' /\ p_t C p' = t' /\ p_sid C p' = t_sid c' /\ p_tp_pk C p' = t_pk c'.
Proof.
  intros HC H Hsid Hnow Hf Ht Hn. pose proof (start_tp_inv C _ _ _ _ _ _ _ _ _ _ _ H) as (A1 & A2 & A3 & A4 & A5 & A6 & A7 & A8 & A9 & A10 & A11 & A12 & A13 & A14).
  destruct (start_forward C c eps n t name buf sid sk now (ok_cS C HC) (ok_cH C HC) A1 A2 A14 A3 Hsid Hnow) as (c1 & m1 & dst & F1 & F2 & F3 & F4).
  rewrite H in F1. injection F1 as <- <-.
  assert (Lpk : zlen (sig_pk S sk) = 32) by (apply (zlen_len _ 32), (ok_sig_pk_len S (ok_cS C HC))).
  assert (Lb : forall a b, zlen (body0 (sig_pk S sk) dst a b) = 66) by (intros; unfold body0; rewrite !zlen_app, Lpk, F3; reflexivity).
  assert (G : announces C (renumbered msg0 n' t') (sig_pk S sk) sid now n' t').
  { destruct F4 as (sig & G1 & G2 & G3 & G4). rewrite Lb in G3, G4.
    assert (E : renumbered msg0 n' t' = message sig (header 0 (111 + 66) 0 255 now sid) (announcement (sig_pk S sk) dst n' t')).
    { unfold renumbered, message, announcement. rewrite G3. unfold message, body0.
      assert (Lh : zlen (header 0 (111 + 66) 0 255 now sid) = 47) by (rewrite zlen_header; [reflexivity|exact Hsid]).
      set (h := header _ _ _ _ _ _) in *.
      replace (sig ++ h ++ sig_pk S sk ++ dst ++ [zb n; zb t]) with ((sig ++ h ++ sig_pk S sk ++ dst) ++ [zb n; zb t]) by (rewrite <- !app_assoc; reflexivity).
      rewrite firstn_app, firstn_all2 by (unfold zlen in *; rewrite !app_length; lia).
      replace (175 - length (sig ++ h ++ sig_pk S sk ++ dst))%nat with 0%nat by (unfold zlen in *; rewrite !app_length; lia).
      cbn [firstn]. rewrite app_nil_r, <- !app_assoc. reflexivity. }
    unfold announces. split; [|split; [exact Lpk|split; [exact Hsid|split; [lia|split; [lia|]]]]].
    { rewrite E. unfold message, announcement. rewrite !zlen_app, G1, zlen_header, Lpk, F3 by exact Hsid. reflexivity. }
    exists dst. split; [exact F3|]. exists sig. split; [exact G1|]. split; [exact G2|]. unfold announcement in *. pose proof (Lb n' t') as Lb2. unfold body0 in Lb2. rewrite Lb2.
    split; [exact E|exact G4]. }
  destruct (join_announced p peps lt _ pnow _ _ _ _ _ G Hf Ht Hn) as (p' & P1 & P2 & P3 & P4 & P5 & _). exists p'. rewrite A7, A10. auto.
Qed.
End JOIN.
