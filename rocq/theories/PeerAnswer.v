(** C77, the side of the accused: what a peer that follows the protocol sent (commitments, encrypted
    shares) and what it reveals later (the keys of those shares). *)
From Coq Require Import ZArith Lia List Bool.
From Coq.Strings Require Import Byte.
From Verif Require Import PrimeL Bytes Res Mem Sodium ToprfModel ToprfSpec DkgModel DkgSpec DkgProofs WireModel WireSpec WireProofs TpCrypto TpModel PeerModel.
From Verif Require Import TpFrame PeerFrame TpSpec TpMsg TpContent TpComplaints PeerContent TpControl TpAgree SafeSpec TpSafe PeerSafe HonestMsg HonestPeer.
Import ListNotations.
Open Scope list_scope.
Open Scope Z_scope.

(** a message whose body was written in three parts *)
Lemma send3 S (HS : sigs_ok S) sid (Hsid : zlen sid = 32) out w o1 o2 o3 o4 b1 b2 b3 p2 p3 sz msgno from to sk now :
  wr out (w + 111) b1 = Ok o1 -> wr o1 p2 b2 = Ok o2 -> wr o2 p3 b3 = Ok o3 -> send_msg S o3 w sz msgno from to sk sid now = Ok o4 ->
  0 <= w -> p2 = w + 111 + zlen b1 -> p3 = w + 111 + zlen b1 + zlen b2 -> sz = 111 + zlen b1 + zlen b2 + zlen b3 -> is_u64 now ->
  wr out w (mk_msg S sid sk msgno from to now (b1 ++ b2 ++ b3)) = Ok o4.
Proof.
  intros W1 W2 W3 Hs Hw -> -> -> Hnow.
  pose proof (wr_zlen _ _ _ _ W1) as Z1. pose proof (wr_zlen _ _ _ _ W2) as Z2. pose proof (wr_inv _ _ _ _ W3) as (_ & B3 & _).
  pose proof (zlen_nonneg b1) as N1. pose proof (zlen_nonneg b2) as N2. pose proof (zlen_nonneg b3) as N3.
  assert (Eo : exists pre j0 j1 j2 j3 post, out = pre ++ j0 ++ j1 ++ j2 ++ j3 ++ post /\ zlen pre = w /\ zlen j0 = 111 /\ zlen j1 = zlen b1 /\ zlen j2 = zlen b2 /\ zlen j3 = zlen b3).
  { exists (firstn (Z.to_nat w) out). set (r := skipn (Z.to_nat w) out).
    exists (firstn 111 r), (firstn (length b1) (skipn 111 r)), (firstn (length b2) (skipn (length b1) (skipn 111 r))),
      (firstn (length b3) (skipn (length b2) (skipn (length b1) (skipn 111 r)))), (skipn (length b3) (skipn (length b2) (skipn (length b1) (skipn 111 r)))).
    split; [unfold r; rewrite !firstn_skipn; reflexivity|]. unfold r, zlen in *. rewrite !firstn_length, !skipn_length. lia. }
  destruct Eo as (pre & j0 & j1 & j2 & j3 & post & -> & L0 & L1 & L2 & L3 & L4).
  rewrite (app_assoc pre j0), (wr_mid (pre ++ j0) j1) in W1 by (rewrite ?zlen_app; lia). injection W1 as <-.
  replace ((pre ++ j0) ++ b1 ++ j2 ++ j3 ++ post) with ((pre ++ j0 ++ b1) ++ j2 ++ j3 ++ post) in W2 by (rewrite <- !app_assoc; reflexivity).
  rewrite wr_mid in W2 by (rewrite ?zlen_app; lia). injection W2 as <-.
  replace ((pre ++ j0 ++ b1) ++ b2 ++ j3 ++ post) with ((pre ++ j0 ++ b1 ++ b2) ++ j3 ++ post) in W3 by (rewrite <- !app_assoc; reflexivity).
  rewrite wr_mid in W3 by (rewrite ?zlen_app; lia). injection W3 as <-.
  replace ((pre ++ j0 ++ b1 ++ b2) ++ b3 ++ post) with (pre ++ j0 ++ (b1 ++ b2 ++ b3) ++ post) in Hs by (rewrite <- !app_assoc; reflexivity).
  rewrite (send_mk S HS sid Hsid) in Hs by (rewrite ?zlen_app; try assumption; lia). injection Hs as <-.
  replace (pre ++ j0 ++ j1 ++ j2 ++ j3 ++ post) with (pre ++ (j0 ++ j1 ++ j2 ++ j3) ++ post) by (rewrite <- !app_assoc; reflexivity).
  apply wr_mid; [exact L0|]. rewrite (zlen_mk S HS sid Hsid), !zlen_app. lia.
Qed.
Lemma send1 S (HS : sigs_ok S) sid (Hsid : zlen sid = 32) out o1 o2 b1 sz msgno from to sk now :
  zlen out = sz -> wr out 111 b1 = Ok o1 -> send_msg S o1 0 sz msgno from to sk sid now = Ok o2 ->
  sz = 111 + zlen b1 -> is_u64 now -> o2 = mk_msg S sid sk msgno from to now b1.
Proof.
  intros Zo W1 Hs -> Hnow. pose proof (zlen_nonneg b1) as N1.
  pose proof (put_mk S HS sid Hsid [] out [] 0 (111 + zlen b1) msgno from to sk now b1 eq_refl Zo eq_refl Hnow) as E.
  rewrite !app_nil_r in E. cbn [app] in E. change (0 + 111) with 111 in E. rewrite W1 in E. cbn [bind] in E. congruence.
Qed.
Lemma send0 S (HS : sigs_ok S) sid (Hsid : zlen sid = 32) out o2 sz msgno from to sk now :
  zlen out = sz -> send_msg S out 0 sz msgno from to sk sid now = Ok o2 ->
  111 <= sz -> is_u64 now -> o2 = mk_msg S sid sk msgno from to now (skipn 111 out).
Proof.
  intros Zo Hs Hz Hnow.
  assert (A : zlen (skipn 111 out) = sz - 111) by (unfold zlen in *; rewrite skipn_length; lia).
  pose proof (send_mk S HS sid Hsid [] (firstn 111 out) (skipn 111 out) [] 0 sz msgno from to sk now eq_refl) as E.
  rewrite !app_nil_r in E. cbn [app] in E. rewrite firstn_skipn in E.
  rewrite E in Hs; [congruence|unfold zlen in *; rewrite firstn_length; lia|lia|assumption].
Qed.

Ltac recvs := repeat match goal with
  | H : peer_recv _ _ _ _ _ _ _ _ _ _ _ = Ok (_, ?c') |- _ => apply peer_recv_inv in H; destruct H as (? & ? & ? & ? & ? & ? & H); subst c'
  | H : peer_recv_tp _ _ _ _ _ _ _ _ = Ok (_, ?c') |- _ => apply peer_recv_tp_inv in H; destruct H as (? & ? & H); subst c'
  end.

Section ANSWER.
Variable C : crypto.
Hypothesis HC : crypto_ok C.
Notation peer := (peer C).
Notation N := (cN C).
Notation S := (cS C).
Let HN : noise_ok N := ok_cN C HC.
Let HS : sigs_ok S := ok_cS C HC.

(** message j of the [out] is the share [sh] for peer j+1, encrypted and authenticated with the key of
    session j of [outs] *)
Definition sent_share (sk sid : bytes) (idx ts : Z) (outs : list (slot (nz_sess N))) (sh : share) (out : bytes) (j : Z) : Prop :=
  exists s k ct m3, getz outs j = Ok (Live s) /\ nz_key N s = Some k /\ zlen k = 32 /\ zlen m3 = 64 /\ zlen ct = 49 /\
    nz_aead_decrypt N k ct = Some (share_bytes sh) /\
    rd out (j * 256) 256 = Ok (mk_msg S sid sk 8 idx (j + 1) ts (m3 ++ ct ++ c_auth C k ct)).

Lemma key_opens s1 s2 s3 m c p : finished C s1 -> nz_write N s1 [] = (s2, Some m) -> nz_write N s2 p = (s3, Some c) ->
  exists k, nz_key N s3 = Some k /\ zlen k = 32 /\ nz_aead_decrypt N k c = Some p.
Proof.
  intros (s0 & m2 & p2 & (d & id & r & s & m1 & A1 & A2) & A3) W1 W2. exact (ok_nz_key_initiator N HN _ _ _ _ _ _ _ _ _ _ _ _ _ _ A1 A2 A3 W1 W2).
Qed.

Lemma b13_out e input i c out c' out' : peer_step13_body C e input i (c, out) = Ok (Next (c', out')) ->
  0 <= i -> made C (keyed C) (finished C) i (p_outs C c) -> zlen (p_sid C c) = 32 -> is_u64 (pe_s e i) ->
  p_shares C c' = p_shares C c /\ p_sk C c' = p_sk C c /\ p_sid C c' = p_sid C c /\ p_index C c' = p_index C c /\
  (forall j, j <> i -> getz (p_outs C c') j = getz (p_outs C c) j /\ rd out' (j * 256) 256 = rd out (j * 256) 256) /\
  exists sh, getz (p_shares C c) i = Ok sh /\ sent_share (p_sk C c) (p_sid C c) (p_index C c) (pe_s e i) (p_outs C c') sh out' i.
Proof.
  unfold peer_step13_body. intros H Hi U Hsid Hts. inv H. recvs.
  cbn [p_outs peer_last_set peer_outs_set p_com peer_com_set p_shares p_index p_sk p_sid] in *.
  repeat match goal with Q : negb (_ =? 0) = false |- _ => apply negb_false_iff, Z.eqb_eq in Q; subst end.
  repeat match goal with Q : noise_encrypt _ _ _ _ = _ |- _ => apply encrypt_ok in Q; destruct Q as (? & ? & ? & ? & ? & ?); subst end.
  match goal with Q : Live _ = Live _ |- _ => injection Q as Q; subst end.
  match goal with G : getz (p_outs C c) i = Ok (Live ?s) |- _ => pose proof (U i _ G) as F end. destruct (Z.ltb_spec i i); [lia|].
  match goal with A : nz_write N _ [] = (?s, Some _), B : nz_write N ?s _ = (_, Some _) |- _ => destruct (key_opens _ _ _ _ _ _ (F _ eq_refl) A B) as (k & K1 & K2 & K3) end.
  match goal with Q : session_key C (Live ?s) = Ok _ |- _ => unfold session_key in Q; rewrite K1 in Q; cbn [of_opt] in Q; injection Q as <- end.
  change msg8_SIZE with 256 in *. change hdr_SIZE with 111 in *. change hs3_SIZE with 64 in *. change (share_SIZE + mac_SIZE) with 49 in *. change share_SIZE with 33 in *. change mac_SIZE with 16 in *.
  match goal with W1 : wr out _ ?b1 = Ok _, W2 : wr _ _ ?b2 = Ok _, W3 : wr _ _ (c_auth C k ?b2) = Ok _, Q : send_msg _ _ _ _ _ _ _ _ _ _ = Ok out' |- _ =>
    pose proof (send3 S HS _ Hsid out (i * 256) _ _ _ _ b1 b2 (c_auth C k b2) _ _ _ _ _ _ _ _ W1 W2 W3 Q) as Wm end.
  specialize (Wm ltac:(lia) ltac:(lia) ltac:(lia) ltac:(rewrite (ok_auth_len C HC); lia) Hts).
  repeat match goal with Q : updz _ i _ = Ok _ |- _ => apply updz_inv in Q; destruct Q as (? & ? & Q) end.
  split; [reflexivity|]. split; [reflexivity|]. split; [reflexivity|]. split; [reflexivity|]. split.
  - intros j Hj. split.
    + match goal with Q1 : forall _, getz ?l _ = _ |- getz ?l j = _ => rewrite Q1 end. destruct (Z.eqb_spec j i); [contradiction|].
      match goal with Q1 : forall _, getz ?l _ = _ |- getz ?l j = _ => rewrite Q1 end. destruct (Z.eqb_spec j i); [contradiction|reflexivity].
    + assert (Zm : forall b, zlen b = 145 -> zlen (mk_msg S (p_sid C c) (p_sk C c) 8 (p_index C c) (i + 1) (pe_s e i) b) = 256) by (intros b Hb; rewrite (zlen_mk S HS _ Hsid), Hb; reflexivity).
      destruct (Z.lt_ge_cases j i).
      * apply (rd_wr_before _ _ _ _ _ _ Wm). lia.
      * apply (rd_wr_after _ _ _ _ _ _ Wm). rewrite Zm; [lia|]. rewrite !zlen_app, (ok_auth_len C HC). lia.
  - eexists. split; [eassumption|]. do 4 eexists. split.
    { match goal with Q1 : forall _, getz ?l _ = _ |- getz ?l i = _ => rewrite Q1 end. rewrite Z.eqb_refl. reflexivity. }
    split; [exact K1|]. split; [exact K2|]. split; [eassumption|]. split; [eassumption|]. split; [exact K3|].
    apply rd_wr_same in Wm. rewrite (zlen_mk S HS _ Hsid) in Wm. rewrite !zlen_app, (ok_auth_len C HC) in Wm.
    match type of Wm with rd _ _ ?n = _ => replace n with 256 in Wm by lia end. exact Wm.
Qed.

Lemma sent_share_same sk sid idx ts outs outs' sh out out' j : sent_share sk sid idx ts outs sh out j ->
  getz outs' j = getz outs j -> rd out' (j * 256) 256 = rd out (j * 256) 256 -> sent_share sk sid idx ts outs' sh out' j.
Proof. intros (s & k & ct & m3 & A) E1 E2. exists s, k, ct, m3. rewrite E1, E2. exact A. Qed.

Definition all_sent (c : peer) (e : penv) (out : bytes) : Prop := forall j, 0 <= j < p_n C c ->
  exists sh, getz (p_shares C c) j = Ok sh /\ sent_share (p_sk C c) (p_sid C c) (p_index C c) (pe_s e j) (p_outs C c) sh out j.

Lemma s13_out e c input out p out' : zlen (p_outs C c) = p_n C c -> slots C (finished C) (p_outs C c) -> zlen (p_sid C c) = 32 -> (forall j, is_u64 (pe_s e j)) ->
  peer_step13 C e c input out = Ok (0, p, out') -> p_shares C p = p_shares C c /\ p_sk C p = p_sk C c /\ p_index C p = p_index C c /\ all_sent p e out'.
Proof.
  intros Lo Hi Hsid Hts H. pose proof (pext_step13 C _ _ _ _ _ _ _ H) as X. unfold peer_step13 in H.
  destruct (zlen input =? _); cbn [negb] in H; [|discriminate]. destruct (zlen out =? _); cbn [negb] in H; [|discriminate].
  apply bind_ok in H. destruct H as ((rt & c1) & E1 & H). apply peer_recv_tp_inv in E1. destruct E1 as (last & Hr & ->).
  destruct (rt =? 0) eqn:Er; cbn [negb] in H.
  2:{ apply Z.eqb_neq in Er. apply recv_codes in Hr. injection H as E _ _. lia. }
  apply bind_ok in H. destruct H as (r & L & H). apply done_inv in H. destruct H as (D1 & D2 & D3).
  destruct D3 as [(-> & _)| ->].
  2:{ exfalso. assert (HH : (fun r => r <> 0) 0); [|apply HH; reflexivity]. refine (loopM_code (fun r => r <> 0) _ _ _ _ _ _ L). intros x [a b] r1 s2 E'. eapply code13; exact E'. }
  cbn [p_n peer_transcript_set peer_tp_last_set] in L.
  pose (J := fun (i : Z) (s : peer * bytes) => let q := fst s in
    made C (keyed C) (finished C) i (p_outs C q) /\ p_shares C q = p_shares C c /\ p_sk C q = p_sk C c /\ p_sid C q = p_sid C c /\ p_index C q = p_index C c /\
    forall j, 0 <= j < i -> exists sh, getz (p_shares C c) j = Ok sh /\ sent_share (p_sk C c) (p_sid C c) (p_index C c) (pe_s e j) (p_outs C q) sh (snd s) j).
  assert (HP : J (Z.of_nat (Z.to_nat (p_n C c))) (p, out')).
  { refine (next_loop (peer_step13_body C e input) J _ _ _ _ _ L).
    - unfold J. cbn. split; [apply made_0; exact Hi|]. repeat (split; [reflexivity|]). intros; lia.
    - intros i [c1 o1] [c2 o2] Hik (J1 & J2 & J3 & J4 & J5 & J6) E. cbn [fst snd] in *.
      assert (Hsid1 : zlen (p_sid C c1) = 32) by (rewrite J4; exact Hsid).
      pose proof (b13_next C HN _ _ _ _ _ _ _ E J1) as M1.
      destruct (b13_out _ _ _ _ _ _ _ E ltac:(lia) J1 Hsid1 (Hts i)) as (B1 & B2 & B3 & B4 & B5 & sh & B6 & B7).
      unfold J. cbn [fst snd]. split; [exact M1|]. split; [congruence|]. split; [congruence|]. split; [congruence|]. split; [congruence|].
      intros j Hj. destruct (Z.eq_dec j i) as [->|Ne].
      + exists sh. rewrite J2 in B6. rewrite J3, J4, J5 in B7. auto.
      + destruct (J6 j ltac:(lia)) as (sh' & S1 & S2). exists sh'. split; [exact S1|]. destruct (B5 j Ne). eapply sent_share_same; eassumption. }
  pose proof (zlen_nonneg (p_outs C c)). rewrite Z2Nat.id in HP by lia. destruct HP as (J1 & J2 & J3 & J4 & J5 & J6). cbn [fst snd] in *.
  split; [exact J2|]. split; [exact J3|]. split; [exact J5|]. intros j Hj. rewrite (y_n C _ _ X) in Hj. destruct (J6 j Hj) as (sh & S1 & S2).
  exists sh. rewrite J2, J3, J4, J5. auto.
Qed.

(** the commitments and shares of step 9-11 *)
Lemma s911_out e c input out p out' : peer_wf C c -> is_u64 (pe_s e 0) -> Z.of_nat (length (pe_a e)) = p_t C c -> Forall random_scalar (pe_a e) ->
  peer_step911 C e c input out = Ok (0, p, out') ->
  p_shares C p = shares_of (pe_a e) (p_n C c) /\ skipn 111 out' = concat (commitments_of (cR C) (pe_a e)).
Proof.
  intros W Hts Ha Fa H. pose proof (v_n C c W) as Hn. pose proof (v_t C c W) as Ht. pose proof (v_sid C c W) as Hsid. unfold peer_step911 in H.
  destruct (zlen input =? _); cbn [negb] in H; [|discriminate]. destruct (Z.eqb_spec (zlen out) (msg6_SIZE (p_t C c))) as [Zo|]; cbn [negb] in H; [|discriminate].
  apply bind_ok in H. destruct H as (r & L & H).
  pose proof (ploop_ext C (fun c => c) _ _ _ _ (pext_step911_body C e input) L) as X. cbn beta in X.
  destruct r as [c1|code c1]; cbn [ctl_state] in *.
  2:{ exfalso. injection H as -> _ _. assert (HH : (fun r => r <> 0) 0); [|apply HH; reflexivity]. refine (loopM_code (fun r => r <> 0) _ _ _ _ _ _ L). intros x s r1 s2 E'. eapply code911; exact E'. }
  apply bind_ok in H. destruct H as (data & Hd & H). apply bind_ok in H. destruct H as (((ret & coms) & shares) & Hk & H).
  destruct (pe_lock e) eqn:Hlock.
  2:{ unfold dkg_start in Hk. cbn [negb] in Hk. injection Hk as <- _ _. discriminate. }
  rewrite (y_n C _ _ X), (y_t C _ _ X) in *.
  assert (Zc : forall d, Z.of_nat (length (rows (p_t C c) d)) = p_t C c) by (intros d; apply (rows_zlen (p_t C c) d); lia).
  rewrite dkg_start_eq in Hk; [|lia|lia|exact Ha|eapply Forall_impl; [|exact Fa]; unfold random_scalar; intros; lia|apply Zc|].
  2:{ pose proof (v_shares C c W) as Q. pose proof (y_shares C _ _ X) as Q2. unfold zlen in *. lia. }
  injection Hk as <- <- <-. cbn [Z.eqb negb] in H. apply bind_ok in H. destruct H as (o1 & W1 & H). apply bind_ok in H. destruct H as (o2 & W2 & H).
  injection H as <- <-. split; [reflexivity|]. cbn [p_t p_index p_sk p_sid peer_shares_set] in W2. rewrite (y_t C _ _ X), (y_sid C _ _ X) in W2.
  assert (Zcm : zlen (concat (commitments_of (cR C) (pe_a e))) = 32 * p_t C c).
  { unfold commitments_of. rewrite <- Ha. clear - HC. induction (pe_a e) as [|x l IH]; [reflexivity|]. cbn [map concat length]. rewrite zlen_app, IH.
    unfold zlen. rewrite (ok_enc_len (cR C) (ok_cR C HC)). lia. }
  change hdr_SIZE with 111 in *.
  apply (send1 S HS _ Hsid out o1 o2 (concat (commitments_of (cR C) (pe_a e)))) in W2; [|exact Zo|exact W1|unfold msg6_SIZE; change hdr_SIZE with 111; lia|exact Hts].
  subst o2. unfold mk_msg, message. cbn zeta. set (h := header _ _ _ _ _ _). rewrite app_assoc, skipn_app.
  assert (Zh : length (sig_sign S (p_sk C c1) h ++ h) = 111%nat).
  { pose proof (zlen_app (sig_sign S (p_sk C c1) h) h) as Q. rewrite (sig_zlen S HS) in Q. assert (Zq : zlen h = 47) by (unfold h; apply zlen_header; exact Hsid). unfold zlen in *. lia. }
  rewrite Zh, Nat.sub_diag, skipn_all2 by lia. reflexivity.
Qed.

(** steps 15 and 17 leave the shares and the sessions alone; step 17 collects the complaints *)
Definition keeps (c c' : peer) : Prop := p_shares C c' = p_shares C c /\ p_outs C c' = p_outs C c.
Lemma keeps_refl c : keeps c c. Proof. split; reflexivity. Qed.
Lemma keeps_trans a b c : keeps a b -> keeps b c -> keeps a c. Proof. unfold keeps. intuition congruence. Qed.
Lemma b15_keeps e input i c r : peer_step15_body C e input i c = Ok r -> keeps c (ctl_state r).
Proof. unfold peer_step15_body, keeps. intros H. inv H; recvs; cbn [ctl_state p_shares p_outs peer_last_set peer_ins_set peer_xshares_set]; auto. Qed.
Lemma s15_keeps e c input out ret p out' : peer_step15 C e c input out = Ok (ret, p, out') -> keeps c p.
Proof.
  unfold peer_step15. intros H. destruct (zlen input =? _); cbn [negb] in H; [|injection H as <- <- <-; apply keeps_refl].
  destruct (zlen out =? _); cbn [negb] in H; [|injection H as <- <- <-; apply keeps_refl].
  apply bind_ok in H. destruct H as (r & L & H).
  pose proof (loop_rel keeps _ _ _ _ keeps_refl keeps_trans (b15_keeps e input) L) as RR.
  destruct r as [c1|code c1]; cbn [ctl_state] in *; inv H; exact RR.
Qed.

(** complaints against the peer are those the peer collected *)
Definition keeps17 (c c' : peer) : Prop := keeps c c' /\ p_index C c' = p_index C c /\
  (p_my C c = my_of (p_index C c) (p_complaints C c) -> p_my C c' = my_of (p_index C c) (p_complaints C c')).
Lemma keeps17_refl c : keeps17 c c. Proof. split; [apply keeps_refl|auto]. Qed.
Lemma keeps17_trans a b c : keeps17 a b -> keeps17 b c -> keeps17 a c.
Proof.
  intros (A1 & A2 & A3) (B1 & B2 & B3). split; [eapply keeps_trans; eassumption|]. split; [congruence|].
  intros H. rewrite A2 in B3. auto.
Qed.
Lemma b17c_keeps input p i lim k c r : 0 <= i < 255 -> peer_step17_complaint C input p i lim k c = Ok r -> keeps17 c (ctl_state r).
Proof.
  intros Hi H. unfold peer_step17_complaint in H. destruct (k + 1 <? lim); cbn [negb] in H; [|injection H as <-; apply keeps17_refl].
  apply bind_ok in H. destruct H as (d & _ & H). cbn zeta in H. pose proof (bz_range d) as Hd. rewrite pair16_val in H by lia.
  destruct (existsb _ _); [injection H as <-; apply keeps17_refl|].
  destruct (_ <? p_cmax C c); cbn [negb] in H; [|discriminate]. cbn [p_index p_my p_mymax peer_complaints_set] in H.
  assert (M : my_of (p_index C c) [(i + 1) * 256 + bz d] = if bz d =? p_index C c then [i + 1] else []).
  { unfold my_of. cbn [filter]. unfold accused_of, complainer_of.
    replace (((i + 1) * 256 + bz d) mod 256) with (bz d) by (rewrite Z.add_comm, Z_mod_plus_full, Z.mod_small by lia; reflexivity).
    destruct (bz d =? p_index C c); [|reflexivity]. cbn [map]. f_equal. symmetry. apply (Z.div_unique _ _ _ (bz d)); lia. }
  destruct (bz d =? p_index C c).
  - destruct (_ <? p_mymax C c) in H; [|discriminate]. injection H as <-. split; [split; reflexivity|]. split; [reflexivity|].
    cbn [ctl_state p_my p_complaints peer_my_set peer_complaints_set]. intros E. rewrite my_of_app, M, E. reflexivity.
  - injection H as <-. split; [split; reflexivity|]. split; [reflexivity|].
    cbn [ctl_state p_my p_complaints peer_my_set peer_complaints_set]. intros E. rewrite my_of_app, M, app_nil_r. exact E.
Qed.
Lemma b17_keeps e input i c r : 0 <= i < 255 -> peer_step17_body C e input i c = Ok r -> keeps17 c (ctl_state r).
Proof.
  intros Hi H. unfold peer_step17_body in H. inv H; recvs; try solve [split; [split; reflexivity|auto]].
  eapply (loop_rel keeps17) in H; [|apply keeps17_refl|apply keeps17_trans|intros; eapply b17c_keeps; eassumption].
  exact H.
Qed.
Lemma s17_keeps e c input out ret p out' : p_n C c <= 128 -> peer_step17 C e c input out = Ok (ret, p, out') -> keeps17 c p.
Proof.
  intros Hn H. unfold peer_step17 in H. destruct (zlen input =? _); cbn [negb] in H; [|injection H as <- <- <-; apply keeps17_refl].
  destruct (zlen out =? _); cbn [negb] in H; [|injection H as <- <- <-; apply keeps17_refl].
  apply bind_ok in H. destruct H as ((rt & c1) & E1 & H). apply peer_recv_tp_inv in E1. destruct E1 as (last & Hr & ->).
  destruct (rt =? 0); cbn [negb] in H; [|injection H as <- <- <-; split; [split; reflexivity|auto]].
  apply bind_ok in H. destruct H as (r & L & H). cbn [p_n peer_transcript_set peer_tp_last_set] in L.
  set (c0 := peer_transcript_set C _ _) in L. assert (K0 : keeps17 c c0) by (split; [split; reflexivity|auto]).
  assert (RR : keeps17 c (ctl_state r)).
  { pose proof (loopM_inv (peer_step17_body C e input) (keeps17 c) (fun _ => keeps17 c) (zrange 0 (Z.to_nat (p_n C c))) c0 r) as Q.
    assert (HH : match r with Next s2 => keeps17 c s2 | Return _ s2 => keeps17 c s2 end).
    { apply Q; [exact K0| |exact L]. intros i s1 c1 Hi H1 E. apply zrange_In in Hi. apply b17_keeps in E; [|lia]. destruct c1; cbn in *; eapply keeps17_trans; eassumption. }
    destruct r; exact HH. }
  destruct r as [c1|code c1]; cbn [ctl_state] in *; [|injection H as <- <- <-; exact RR].
  destruct (zlen (p_complaints C c1) =? 0); injection H as <- <- <-; exact RR.
Qed.

(** the message with the keys *)
Definition revealed (c : peer) (out : bytes) (k : Z) : Prop :=
  exists x s key, getz (p_my C c) k = Ok x /\ getz (p_outs C c) (x - 1) = Ok (Live s) /\ nz_key N s = Some key /\ zlen key = 32 /\
    rd out (111 + 33 * k) 33 = Ok (zb x :: key).
Lemma s17a_out e c input out p out' : pinv C c -> p_step C c = 7 -> is_u64 (pe_s e 0) -> peer_step17a C e c input out = Ok (0, p, out') ->
  (p_complaints C c <> [] -> p_my C c = [] -> out' = []) /\
  (p_my C c <> [] -> exists body, out' = mk_msg S (p_sid C c) (p_sk C c) 11 (p_index C c) 0 (pe_s e 0) body /\ zlen body = 33 * zlen (p_my C c) /\
    forall k, 0 <= k < zlen (p_my C c) -> revealed c out' k).
Proof.
  intros I Hst Hts H. pose proof (i_wf C c I) as W. destruct (i_my C c I Hst) as (F & Z0). pose proof (i_key C c I ltac:(lia)) as K. pose proof (v_sid C c W) as Hsid.
  unfold peer_step17a in H. destruct (zlen input =? 0); cbn [negb] in H; [|discriminate].
  destruct (zlen out =? _) eqn:E2; cbn [negb] in H; [|discriminate]. apply Z.eqb_eq in E2.
  unfold peer_output_size in H, E2. rewrite Hst in H, E2. change noise_key_SIZE with 32 in *. change (1 + 32) with 33 in *. rewrite hdr_val in H, E2.
  split.
  - intros Hc Hm. rewrite Hm in E2. change (0 <? zlen (@nil BinNums.Z)) with false in E2. pose proof (zlen_nonneg (p_complaints C c)).
    destruct (Z.ltb_spec 0 (zlen (p_complaints C c))) as [|Hz]; [|exfalso; apply Hc; apply zlen_0; lia].
    rewrite (proj2 (Z.eqb_eq _ _) E2) in H. injection H as <- <-. apply zlen_0. exact E2.
  - intros Hm. assert (Zm : 0 < zlen (p_my C c)). { pose proof (zlen_nonneg (p_my C c)). destruct (Z.eq_dec (zlen (p_my C c)) 0) as [Q|]; [apply zlen_0 in Q; contradiction|lia]. }
    assert (Zc : 0 < zlen (p_complaints C c)). { pose proof (zlen_nonneg (p_complaints C c)). destruct (Z.eq_dec (zlen (p_complaints C c)) 0) as [Q|]; [apply zlen_0 in Q; elim Hm; auto|lia]. }
    rewrite !(proj2 (Z.ltb_lt _ _)) in H, E2 by assumption. destruct (Z.eqb_spec (zlen out) 0); [lia|].
    apply bind_ok in H. destruct H as (r & L & H). destruct r as [o|code o].
    2:{ exfalso. assert (HH : (fun _ : BinNums.Z => False) code); [|exact HH]. refine (loopM_code (fun _ => False) _ _ _ _ _ _ L). intros x s r1 s2 E'. unfold peer_step17a_body in E'. inv E'. }
    assert (HP : zlen o = zlen out /\ forall k, 0 <= k < zlen (p_my C c) -> revealed c o k).
    { pose proof (next_loop (peer_step17a_body C c) (fun i o => zlen o = zlen out /\ forall k, 0 <= k < i -> revealed c o k) (Z.to_nat (zlen (p_my C c))) out o) as Q. rewrite Z2Nat.id in Q by lia. apply Q; [split; [reflexivity|intros; lia]| |exact L].
      clear Q L H. intros i o1 o2 Hi (Lo & J) E. unfold peer_step17a_body in E. change noise_key_SIZE with 32 in E. change (1 + 32) with 33 in E. rewrite hdr_val in E.
      apply bind_ok in E. destruct E as (x & G & E). apply bind_ok in E. destruct E as (o3 & W1 & E). apply bind_ok in E. destruct E as (sl & Gs & E).
      apply bind_ok in E. destruct E as (key & Gk & E). apply bind_ok in E. destruct E as (o4 & W2 & E). injection E as <-.
      pose proof (proj1 (Forall_forall _ _) F _ (getz_In _ _ _ G)) as Hx. cbv beta in Hx.
      destruct (K (x - 1) ltac:(lia)) as (s & Gl & k0 & Hk0 & Lk). rewrite Gs in Gl. injection Gl as ->. cbn [session_key] in Gk. rewrite Hk0 in Gk. cbn [of_opt] in Gk. injection Gk as <-.
      split; [rewrite (wr_zlen _ _ _ _ W2), (wr_zlen _ _ _ _ W1); exact Lo|].
      intros k Hk. destruct (Z.eq_dec k i) as [->|Ne].
      - exists x, s, k0. repeat (split; [assumption|]). change (zb x :: k0) with ([zb x] ++ k0). change 33 with (1 + 32) at 2. replace (111 + 33 * i) with (111 + i * 33) by lia. apply rd_join.
        + rewrite (rd_wr_before _ _ _ _ _ _ W2) by lia. apply (rd_wr_same _ _ _ _ W1).
        + rewrite <- Lk. apply (rd_wr_same _ _ _ _ W2).
      - destruct (J k ltac:(lia)) as (x' & s' & key' & A1 & A2 & A3 & A4 & A5). exists x', s', key'. repeat (split; [assumption|]).
        rewrite (rd_wr_before _ _ _ _ _ _ W2), (rd_wr_before _ _ _ _ _ _ W1) by lia. exact A5. }
    destruct HP as (Lo & J). apply bind_ok in H. destruct H as (o2 & Hs & H). injection H as <- <-.
    apply (send0 S HS _ Hsid) in Hs; [|lia|lia|exact Hts]. subst o2. exists (skipn 111 o).
    assert (Zb : zlen (skipn 111 o) = 33 * zlen (p_my C c)) by (unfold zlen in *; rewrite skipn_length; lia).
    split; [reflexivity|]. split; [exact Zb|].
    intros k Hk. destruct (J k Hk) as (x & s & key & A1 & A2 & A3 & A4 & A5). exists x, s, key. repeat (split; [assumption|]).
    set (m := mk_msg _ _ _ _ _ _ _ _).
    assert (Rm : rd m (0 + 111) (zlen (skipn 111 o)) = Ok (skipn 111 o)).
    { eapply (body_mk S HS _ Hsid). apply rd_all. rewrite (zlen_mk S HS _ Hsid). reflexivity. }
    assert (Ro : rd o 111 (zlen (skipn 111 o)) = Ok (skipn 111 o)).
    { rewrite rd_ok by (unfold zlen in *; lia). f_equal. change (Z.to_nat 111) with 111%nat. apply firstn_all2. unfold zlen. lia. }
    change (0 + 111) with 111 in Rm. rewrite <- (rd_rd _ _ _ _ (33 * k) 33 Rm) by lia. rewrite (rd_rd _ _ _ _ (33 * k) 33 Ro) by lia. exact A5.
Qed.
End ANSWER.
