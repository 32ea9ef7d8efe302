(** C80, the channel of a peer with itself: every peer also runs a handshake with itself and sends
    itself a share, relayed by the trusted party like all others.  What one slot of the session arrays
    goes through. *)
From Coq Require Import ZArith Lia List Bool.
From Coq.Strings Require Import Byte.
From Verif Require Import PrimeL Bytes Res Mem Sodium ToprfModel ToprfSpec DkgModel DkgSpec DkgProofs WireModel WireSpec WireProofs TpCrypto TpModel PeerModel.
From Verif Require Import TpFrame PeerFrame TpSpec TpMsg TpContent TpComplaints PeerContent TpControl TpAgree SafeSpec TpSafe PeerSafe HonestMsg HonestPeer PeerAnswer.
Import ListNotations.
Open Scope list_scope.
Open Scope Z_scope.

(** one iteration of a loop, the others related by a preorder *)
Lemma loop_at {X} (R : X -> X -> Prop) (f : Z -> X -> res (ctl X)) k : (forall s, R s s) -> (forall a b c, R a b -> R b c -> R a c) ->
  forall l s s', NoDup l -> In k l -> (forall i s1 s2, In i l -> i <> k -> f i s1 = Ok (Next s2) -> R s1 s2) -> loopM f l s = Ok (Next s') ->
  exists s1 s2, R s s1 /\ f k s1 = Ok (Next s2) /\ R s2 s'.
Proof.
  intros Rr Rt. assert (Rest : forall l s s', ~ In k l -> (forall i s1 s2, In i l -> i <> k -> f i s1 = Ok (Next s2) -> R s1 s2) -> loopM f l s = Ok (Next s') -> R s s').
  { induction l as [|i l IH]; intros s s' Nk Hf H; cbn [loopM] in H; [injection H as <-; apply Rr|].
    apply bind_ok in H. destruct H as (c & E & H). destruct c as [s1|]; [|discriminate].
    eapply Rt; [eapply Hf; [left; reflexivity| |exact E]; intros ->; apply Nk; left; reflexivity|]. apply IH; [intros I; apply Nk; right; exact I| |exact H].
    intros j a b I. apply Hf. right. exact I. }
  induction l as [|i l IH]; intros s s' Nd Ik Hf H; [contradiction|]. inversion Nd as [|? ? Ni Nl]; subst. cbn [loopM] in H.
  apply bind_ok in H. destruct H as (c & E & H). destruct c as [s1|]; [|discriminate]. destruct (Z.eq_dec i k) as [->|Ne].
  - exists s, s1. split; [apply Rr|]. split; [exact E|]. apply (Rest l); [exact Ni| |exact H]. intros j a b I. apply Hf. right. exact I.
  - destruct Ik as [Q|Ik]; [contradiction|]. destruct (IH s1 s' Nl Ik) as (a & b & A & B & D); [|exact H|].
    + intros j x y I. apply Hf. right. exact I.
    + exists a, b. split; [|auto]. eapply Rt; [|exact A]. eapply Hf; [left; reflexivity|exact Ne|exact E].
Qed.

Section SELF.
Variable C : crypto.
Hypothesis HC : crypto_ok C.
Notation peer := (peer C).
Notation N := (cN C).
Notation S := (cS C).
Let HN : noise_ok N := ok_cN C HC.
Let HS : sigs_ok S := ok_cS C HC.

Lemma zrange_k n k : 0 <= k < n -> In k (zrange 0 (Z.to_nat n)).
Proof. intros H. apply zrange_In. lia. Qed.

(** send_msg writes the first 111 bytes of its message only *)
Lemma send_rd sid (Hsid : zlen sid = 32) buf w len msgno from to sk now buf' : send_msg S buf w len msgno from to sk sid now = Ok buf' -> 0 <= w -> w + 111 <= zlen buf -> 0 <= len -> is_u64 now ->
  zlen buf' = zlen buf /\ forall o k, o + k <= w \/ w + 111 <= o -> rd buf' o k = rd buf o k.
Proof.
  intros H Hw Hz Hl Hnow.
  assert (Hsig : forall k m, zlen (sig_sign S k m) = 64) by (intros k m; unfold zlen; rewrite (ok_sig_len S HS); reflexivity).
  pose proof (send_spec S buf w len msgno from to sk sid now Hsig Hw Hz Hsid Hnow Hl) as E. cbn zeta in E.
  rewrite E in H. injection H as H. set (hd := header msgno len from to now sid) in *.
  assert (H111 : zlen (sig_sign S sk hd ++ hd) = 111) by (rewrite zlen_app, Hsig; unfold hd; rewrite zlen_header by assumption; reflexivity).
  assert (Hwr : wr buf w (sig_sign S sk hd ++ hd) = Ok buf').
  { rewrite wr_ok by lia. rewrite H111, <- app_assoc. f_equal. exact H. }
  split; [eapply wr_zlen; exact Hwr|]. intros o k [Ho|Ho]; [eapply rd_wr_before; eassumption|eapply rd_wr_after; [exact Hwr|lia]].
Qed.

(** ** Step 2-3: the keys *)
Lemma s23_out e c input out p out' : zlen (p_sid C c) = 32 -> is_u64 (pe_s e 0) -> peer_step23 C e c input out = Ok (0, p, out') ->
  p_noise_sk C p = pe_nsk e /\ p_outs C p = p_outs C c /\ p_ins C p = p_ins C c /\ p_xshares C p = p_xshares C c /\ 1 <= p_index C p <= 128 /\ p_sid C p = p_sid C c /\ zlen out' = 239 /\
  rd out' 0 175 = Ok (mk_msg S (p_sid C c) (p_sk C p) 2 (p_index C p) 255 (pe_s e 0) (sig_pk S (p_sk C p) ++ nz_pk N (p_noise_sk C p))).
Proof.
  unfold peer_step23. intros Hsid Hts H. change msg2_SIZE with 175 in *. change hdr_SIZE with 111 in *.
  destruct (zlen input =? _); cbn [negb] in H; [|discriminate]. destruct (zlen out =? _) eqn:Zo; cbn [negb] in H; [|discriminate].
  apply bind_ok in H. destruct H as (b & _ & H). apply bind_ok in H. destruct H as ((rt & c1) & E1 & H). apply peer_recv_tp_inv in E1. destruct E1 as (last & Hr & ->).
  destruct (rt =? 0) eqn:Er; cbn [negb] in H.
  2:{ apply Z.eqb_neq in Er. apply recv_codes in Hr. injection H as E _ _. lia. }
  destruct ((128 <? bz b) || (bz b <? 1)) eqn:Eb; [discriminate|]. apply orb_false_iff in Eb. destruct Eb as (B1 & B2). apply Z.ltb_ge in B1, B2.
  apply bind_ok in H. destruct H as (o1 & W1 & H). apply bind_ok in H. destruct H as (o2 & W2 & H). apply bind_ok in H. destruct H as (o3 & Hs & H).
  apply bind_ok in H. destruct H as (m & Hm & H). apply bind_ok in H. destruct H as (o4 & W4 & H). injection H as <- <-.
  cbn [p_sid p_noise_sk p_outs p_ins p_xshares p_index p_sk peer_keys_set peer_tp_last_set p_lt_sk] in *.
  assert (Z4 : zlen o4 = 239).
  { apply Z.eqb_eq in Zo. change sign_BYTES with 64 in Zo. rewrite (wr_zlen _ _ _ _ W4), (send_zlen C _ _ _ _ _ _ _ _ _ _ Hs), (wr_zlen _ _ _ _ W2), (wr_zlen _ _ _ _ W1). exact Zo. }
  repeat (split; [first [reflexivity|lia]|]).
  pose proof (ok_sig_pk_len S HS (pe_sk e)) as Lp. pose proof (ok_nz_pk_len N HN (pe_nsk e)) as Ln.
  pose proof (wr_zlen _ _ _ _ W1) as Z1. pose proof (wr_zlen _ _ _ _ W2) as Z2.
  assert (W3 : wr o2 (0 + 111 + zlen (sig_pk S (pe_sk e)) + zlen (nz_pk N (pe_nsk e))) [] = Ok o2).
  { apply wr_nil; pose proof (zlen_nonneg (sig_pk S (pe_sk e))); apply Z.eqb_eq in Zo; change sign_BYTES with 64 in Zo; unfold zlen in *; lia. }
  change 111 with (0 + 111) in W1.
  pose proof (send3 S HS _ Hsid out 0 o1 o2 o2 o3 _ _ [] _ _ _ _ _ _ _ _ W1 W2 W3 Hs ltac:(lia) ltac:(unfold zlen in *; lia) eq_refl ltac:(change (zlen (@nil byte)) with 0; unfold zlen in *; lia) Hts) as Wm.
  rewrite app_nil_r in Wm. apply rd_wr_same in Wm. rewrite (rd_wr_before _ _ _ _ _ _ W4) by lia.
  rewrite (zlen_mk S HS _ Hsid) in Wm. replace (111 + zlen _) with 175 in Wm by (rewrite zlen_app; unfold zlen in *; lia). exact Wm.
Qed.

(** ** Step 5: the peer starts a handshake with everyone *)
Lemma init_inv d sl name rpk rand d' sl' m : init_noise C d sl name rpk rand = (d', sl', m) ->
  (d' = d /\ sl' = sl /\ m = None) \/ (exists id, nz_add_peer N d name rpk = Some (d', id) /\ (forall x, m = Some x -> zlen x = 48) /\
    forall s, sl' = Live s -> exists s0 m1, nz_initiator N d' id rand = Some s0 /\ nz_write N s0 [] = (s, Some m1) /\ m = Some m1 /\ zlen m1 = 48).
Proof.
  unfold init_noise. destruct (nz_add_peer _ _ _ _) as [[d1 id]|]; [|intros E; injection E as <- <- <-; left; auto].
  destruct (nz_initiator _ _ _ _) as [s|] eqn:Ei; [|intros E; injection E as <- <- <-; right; exists id; split; [reflexivity|split; discriminate]].
  destruct (nz_write _ _ _) as [s' [m0|]] eqn:Ew; [|intros E; injection E as <- <- <-; right; exists id; split; [reflexivity|split; discriminate]].
  destruct (zlen m0 =? hs1_SIZE) eqn:El; intros E; injection E as <- <- <-; right; exists id; (split; [reflexivity|]); [|split; discriminate].
  apply Z.eqb_eq in El. split; [intros x Ex; injection Ex as <-; exact El|]. intros s1 E1. injection E1 as <-. exists s, m0. auto.
Qed.

(** devices: reachable, of this peer, names of its peers unique *)
Definition dev_ok (nsk : bytes) (d : nz_dev N) : Prop := nz_reach N d /\ nz_static N d = nsk /\ NoDup (map fst (nz_peers N d)).
Lemma dev_ok_add nsk d name pk d' id : dev_ok nsk d -> zlen pk = 32 -> nz_add_peer N d name pk = Some (d', id) ->
  dev_ok nsk d' /\ nz_peers N d' = nz_peers N d ++ [(id, pk)].
Proof.
  intros (R & St & Nd) Lp E. destruct (ok_nz_added N HN _ _ _ _ _ R E) as (E1 & E2). pose proof (ok_nz_ids N HN _ _ _ _ _ R E) as Ni.
  split; [|exact E2]. split; [econstructor; eassumption|]. split; [congruence|]. rewrite E2, map_app. cbn [map fst].
  clear - Nd Ni. induction (map fst (nz_peers N d)) as [|x l IH]; cbn [app]; [repeat constructor; auto|].
  inversion Nd; subst. constructor.
  - rewrite in_app_iff. intros [I|[I|[]]]; [contradiction|]. apply Ni. left. congruence.
  - apply IH; [assumption|]. intros I. apply Ni. right. exact I.
Qed.

(** [s], the session in slot [k], is the start of a handshake with the holder of the key [rpk] *)
Definition started_to (nsk rpk : bytes) (d : nz_dev N) (out : bytes) (k : Z) (s : nz_sess N) : Prop :=
  exists da id r s0 m1, dev_ok nsk da /\ In (id, rpk) (nz_peers N da) /\ nz_initiator N da id r = Some s0 /\ nz_write N s0 [] = (s, Some m1) /\
    rd out (k * 159 + 111) 48 = Ok m1 /\ In rpk (map snd (nz_peers N d)).
(** with the peer's own key *)
Definition started (nsk : bytes) (d : nz_dev N) (out : bytes) (k : Z) (s : nz_sess N) : Prop := started_to nsk (nz_pk N nsk) d out k s.

Definition R5 (nsk : bytes) (k : Z) (s s' : peer * bytes) : Prop :=
  p_n C (fst s') = p_n C (fst s) /\ p_sid C (fst s') = p_sid C (fst s) /\ p_ins C (fst s') = p_ins C (fst s) /\ zlen (snd s') = zlen (snd s) /\
  getz (p_outs C (fst s')) k = getz (p_outs C (fst s)) k /\ rd (snd s') (k * 159 + 111) 48 = rd (snd s) (k * 159 + 111) 48 /\
  (forall d, p_dev C (fst s) = Some d -> dev_ok nsk d -> exists d', p_dev C (fst s') = Some d' /\ dev_ok nsk d' /\ incl (nz_peers N d) (nz_peers N d')).

Lemma b5_to nsk rpk k e input i c out c' out' : peer_step5_body C e input i (c, out) = Ok (Next (c', out')) ->
  0 <= i < p_n C c -> 0 <= k -> zlen (p_sid C c) = 32 -> is_u64 (pe_s e i) -> zlen out = 159 * p_n C c ->
  (i <> k -> R5 nsk k (c, out) (c', out')) /\
  (i = k -> p_n C c' = p_n C c /\ p_sid C c' = p_sid C c /\ p_ins C c' = p_ins C c /\ zlen out' = zlen out /\
     forall d, p_dev C c = Some d -> dev_ok nsk d -> (forall s, getz (p_outs C c) k <> Ok (Live s)) -> rd input (111 + k * 175 + 111 + 32) 32 = Ok rpk ->
     exists d', p_dev C c' = Some d' /\ dev_ok nsk d' /\ forall s, getz (p_outs C c') k = Ok (Live s) -> started_to nsk rpk d' out' k s).
Proof.
  unfold peer_step5_body. change hdr_SIZE with 111. change msg2_SIZE with 175. change msg4_SIZE with 159. intros H Hi Hk Hsid Hts Hz. inv H. recvs.
  cbn [p_outs peer_last_set peer_outs_set p_index p_sk p_sid peer_pk_set peer_dev_set p_dev p_n p_ins] in *.
  match goal with Q : of_opt (p_dev C c) = Ok ?d |- _ => destruct (p_dev C c) as [d0|] eqn:Ed; cbn [of_opt] in Q; [injection Q as <-|discriminate] end.
  match goal with Q : init_noise _ _ _ _ _ _ = _ |- _ => apply init_inv in Q; rename Q into HI end.
  match goal with Q : rd input (111 + i * 175 + 111 + 32) 32 = Ok _ |- _ => pose proof (rd_inv _ _ _ _ Q) as (_ & _ & _ & Lnpk & _); rename Q into Rnpk end.
  match goal with Q : updz (p_outs C c) i _ = Ok _ |- _ => apply updz_inv in Q; destruct Q as (_ & _ & UO) end.
  match goal with Q : send_msg _ ?o1 _ _ _ _ _ _ _ _ = Ok out' |- _ => rename Q into Sd; rename o1 into om end.
  match goal with Q : match ?m with Some _ => _ | None => _ end = Ok om |- _ => rename Q into Wm end.
  assert (Zm : zlen om = zlen out /\ (forall o x, o + x <= i * 159 + 111 \/ i * 159 + 159 <= o -> rd om o x = rd out o x)).
  { destruct HI as [(_ & _ & ->)|(id & _ & Lm & _)]; [injection Wm as <-; split; auto|].
    match type of Wm with match ?m with Some _ => _ | None => _ end = _ => destruct m as [m1|] end; [|injection Wm as <-; split; auto].
    pose proof (Lm _ eq_refl). split; [eapply wr_zlen; exact Wm|]. intros oo xx [Q|Q]; [eapply rd_wr_before; [exact Wm|lia]|eapply rd_wr_after; [exact Wm|lia]]. }
  destruct Zm as (Zm & Rm).
  destruct (send_rd _ Hsid _ _ _ _ _ _ _ _ _ Sd ltac:(lia) ltac:(rewrite Zm, Hz; nia) ltac:(lia) Hts) as (Zs & Rs).
  split.
  - intros Ne. unfold R5. cbn [fst snd p_n p_sid p_ins p_outs p_dev peer_outs_set peer_dev_set peer_pk_set peer_last_set]. do 3 (split; [reflexivity|]). split; [congruence|].
    split; [rewrite UO; destruct (Z.eqb_spec k i); [congruence|reflexivity]|]. split; [rewrite Rs, Rm by lia; reflexivity|].
    intros d1 E1 Dk. rewrite Ed in E1. injection E1 as <-. eexists. split; [reflexivity|].
    destruct HI as [(-> & _)|(id & Ea & _)]; [split; [exact Dk|apply incl_refl]|].
    destruct (dev_ok_add _ _ _ _ _ _ Dk Lnpk Ea) as (D1 & D2). split; [exact D1|]. rewrite D2. apply incl_appl, incl_refl.
  - intros ->. cbn [fst snd p_n p_sid p_ins p_outs p_dev peer_outs_set peer_dev_set peer_pk_set peer_last_set]. do 3 (split; [reflexivity|]). split; [congruence|].
    intros d1 E1 Dk Nl Rk. injection E1 as <-. eexists. split; [reflexivity|]. rewrite Rk in Rnpk. injection Rnpk as <-.
    destruct HI as [(-> & -> & ->)|(id & Ea & Lm & HI)].
    + split; [exact Dk|]. intros s0. rewrite UO, Z.eqb_refl. intros Q. injection Q as ->. exfalso. eapply Nl. eassumption.
    + destruct (dev_ok_add _ _ _ _ _ _ Dk Lnpk Ea) as (D1 & D2). split; [exact D1|]. intros s0. rewrite UO, Z.eqb_refl. intros Q. injection Q as ->.
      destruct (HI _ eq_refl) as (si & m1 & A1 & A2 & -> & A4). do 5 eexists. split; [exact D1|]. split; [rewrite D2; apply in_app_iff; right; left; reflexivity|].
      split; [exact A1|]. split; [exact A2|]. split.
      * rewrite Rs by lia. apply rd_wr_same in Wm. rewrite A4 in Wm. exact Wm.
      * rewrite D2, map_app. apply in_app_iff. right. left. reflexivity.
Qed.

Lemma zrange_NoDup a k : NoDup (zrange a k).
Proof.
  revert a. induction k as [|k IH]; intros a; [constructor|]. rewrite zrange_S. constructor; [|apply IH]. intros I. apply zrange_In in I. lia.
Qed.
Lemma code5 e input i s r s' : peer_step5_body C e input i s = Ok (Return r s') -> r <> 0.
Proof. destruct s as [c out]. unfold peer_step5_body. intros H. inv H; recvs. match goal with Q : recv_msg _ _ _ _ _ _ _ _ _ _ _ _ = _ |- _ => apply recv_codes in Q end. lia. Qed.
Lemma code7 e input i s r s' : peer_step7_body C e input i s = Ok (Return r s') -> r <> 0.
Proof. destruct s as [c out]. unfold peer_step7_body. intros H. inv H; recvs. match goal with Q : recv_msg _ _ _ _ _ _ _ _ _ _ _ _ = _ |- _ => apply recv_codes in Q end. lia. Qed.

(** what the other iterations need, carried along *)
Definition sized (n : Z) (sid : bytes) (len : Z) (s : peer * bytes) : Prop := p_n C (fst s) = n /\ p_sid C (fst s) = sid /\ zlen (snd s) = len.

Lemma s5_to nsk rpk k e c input out p out' : peer_wf C c -> (forall j, is_u64 (pe_s e j)) -> 0 <= k < p_n C c -> p_noise_sk C c = nsk ->
  (forall s, getz (p_outs C c) k <> Ok (Live s)) -> rd input (111 + k * 175 + 111 + 32) 32 = Ok rpk ->
  peer_step5 C e c input out = Ok (0, p, out') ->
  zlen out' = 159 * p_n C c /\ p_ins C p = p_ins C c /\ exists d, p_dev C p = Some d /\ dev_ok nsk d /\ forall s, getz (p_outs C p) k = Ok (Live s) -> started_to nsk rpk d out' k s.
Proof.
  intros W Hts Hk Hn Nl Rk H. pose proof (v_sid C c W) as Hsid. unfold peer_step5 in H.
  destruct (zlen input =? _); cbn [negb] in H; [|discriminate]. destruct (Z.eqb_spec (zlen out) (msg4_SIZE * p_n C c)) as [Zo|]; cbn [negb] in H; [|discriminate].
  apply bind_ok in H. destruct H as ((rt & c1) & E1 & H). apply peer_recv_tp_inv in E1. destruct E1 as (last & Hr & ->).
  destruct (rt =? 0) eqn:Er; cbn [negb] in H.
  2:{ apply Z.eqb_neq in Er. apply recv_codes in Hr. injection H as E _ _. lia. }
  apply bind_ok in H. destruct H as (r & L & H). apply done_inv in H. destruct H as (_ & _ & [(-> & _)| ->]).
  2:{ exfalso. assert (HH : (fun r => r <> 0) 0); [|apply HH; reflexivity]. refine (loopM_code (fun r => r <> 0) _ _ _ _ _ _ L). intros x s r1 s2 E'. eapply code5; exact E'. }
  set (c0 := peer_dev_set C _ _) in L. change (p_n C c0) with (p_n C c) in L. change msg4_SIZE with 159 in Zo.
  destruct (ok_nz_create N HN (p_index C c) (p_noise_sk C c)) as (d0 & Ec & Es & Ep).
  assert (D0 : dev_ok nsk d0) by (split; [econstructor; exact Ec|split; [congruence|rewrite Ep; constructor]]).
  pose (Z0 := sized (p_n C c) (p_sid C c) (159 * p_n C c)).
  pose (R := fun s s' : peer * bytes => Z0 s -> Z0 s' /\ R5 nsk k s s').
  assert (Rr : forall s, R s s).
  { intros s Hz. split; [exact Hz|]. unfold R5. do 6 (split; [reflexivity|]). intros d Q1 Q2. exists d. split; [exact Q1|]. split; [exact Q2|apply incl_refl]. }
  assert (Rt : forall a b x, R a b -> R b x -> R a x).
  { intros a b x H1 H2 Hz. destruct (H1 Hz) as (Hb & A1 & A2 & A3 & A4 & A5 & A6 & A7). destruct (H2 Hb) as (Hx & B1 & B2 & B3 & B4 & B5 & B6 & B7). split; [exact Hx|].
    unfold R5. do 6 (split; [congruence|]). intros d Q1 Q2. destruct (A7 d Q1 Q2) as (d1 & D1 & D2 & D3). destruct (B7 d1 D1 D2) as (d2 & D4 & D5 & D6). exists d2. split; [exact D4|]. split; [exact D5|]. eapply incl_tran; eassumption. }
  assert (Body : forall i s1 s2, In i (zrange 0 (Z.to_nat (p_n C c))) -> i <> k -> peer_step5_body C e input i s1 = Ok (Next s2) -> R s1 s2).
  { intros i [a oa] [b ob] Hi Ne E (Z1 & Z2 & Z3). cbn [fst snd] in *. apply zrange_In in Hi.
    destruct (b5_to nsk rpk k _ _ _ _ _ _ _ E ltac:(lia) ltac:(lia) ltac:(congruence) (Hts i) ltac:(congruence)) as (B & _). specialize (B Ne).
    split; [|exact B]. destruct B as (B1 & B2 & _ & B4 & _). unfold Z0, sized in *. cbn [fst snd] in *. split; [congruence|split; congruence]. }
  destruct (loop_at R (peer_step5_body C e input) k Rr Rt _ _ _ (zrange_NoDup _ _) (zrange_k _ _ Hk) Body L) as ([a oa] & [b ob] & H1 & E & H2).
  assert (Za : Z0 (c0, out)) by (split; [reflexivity|split; [reflexivity|exact Zo]]).
  destruct (H1 Za) as ((Z1 & Z2 & Z3) & _ & _ & A3 & _ & A5 & _ & A7). cbn [fst snd] in *.
  destruct (A7 d0 ltac:(exact Ec) D0) as (da & Da1 & Da2 & _).
  destruct (b5_to nsk rpk k _ _ _ _ _ _ _ E ltac:(lia) ltac:(lia) ltac:(congruence) (Hts k) ltac:(congruence)) as (_ & B). destruct (B eq_refl) as (B1 & B2 & B3 & B4 & B5).
  destruct (B5 da Da1 Da2 ltac:(rewrite A5; exact Nl) Rk) as (db & Db1 & Db2 & Db3).
  destruct (H2 ltac:(split; [cbn [fst snd]; congruence|split; cbn [fst snd]; congruence])) as ((_ & _ & Xz) & _ & _ & X3 & _ & X5 & X6 & X7). cbn [fst snd] in *.
  split; [exact Xz|]. split; [rewrite X3, B3, A3; reflexivity|]. destruct (X7 db Db1 Db2) as (d & Dd1 & Dd2 & Dd3). exists d. split; [exact Dd1|]. split; [exact Dd2|].
  intros s Gs. rewrite X5 in Gs. destruct (Db3 s Gs) as (dx & id & r & s0 & m1 & S1 & S2 & S3 & S4 & S5 & S6). exists dx, id, r, s0, m1.
  split; [exact S1|]. split; [exact S2|]. split; [exact S3|]. split; [exact S4|]. split; [rewrite X6; exact S5|].
  apply in_map_iff in S6. destruct S6 as (y & Y1 & Y2). apply in_map_iff. exists y. split; [exact Y1|]. apply Dd3. exact Y2.
Qed.

Lemma s5_self nsk k e c input out p out' : peer_wf C c -> (forall j, is_u64 (pe_s e j)) -> 0 <= k < p_n C c -> p_noise_sk C c = nsk ->
  (forall s, getz (p_outs C c) k <> Ok (Live s)) -> rd input (111 + k * 175 + 111 + 32) 32 = Ok (nz_pk N nsk) ->
  peer_step5 C e c input out = Ok (0, p, out') ->
  zlen out' = 159 * p_n C c /\ p_ins C p = p_ins C c /\ exists d, p_dev C p = Some d /\ dev_ok nsk d /\ forall s, getz (p_outs C p) k = Ok (Live s) -> started nsk d out' k s.
Proof. apply s5_to. Qed.

(** ** Step 7: it answers everyone's handshake *)
Definition R7 (k : Z) (s s' : peer * bytes) : Prop :=
  p_n C (fst s') = p_n C (fst s) /\ p_sid C (fst s') = p_sid C (fst s) /\ p_outs C (fst s') = p_outs C (fst s) /\ zlen (snd s') = zlen (snd s) /\
  getz (p_ins C (fst s')) k = getz (p_ins C (fst s)) k /\ rd (snd s') (k * 159 + 111) 48 = rd (snd s) (k * 159 + 111) 48 /\ p_dev C (fst s') = p_dev C (fst s).
Definition answered (d : nz_dev N) (input out : bytes) (k : Z) (s : nz_sess N) : Prop :=
  exists r s0 m1 s1 p1 m2, rd input (k * 159 + 111) 48 = Ok m1 /\ nz_responder N d r = Some s0 /\ nz_read N s0 m1 = (s1, Some p1) /\
    nz_write N s1 [] = (s, Some m2) /\ rd out (k * 159 + 111) 48 = Ok m2.

Lemma respond_inv d inmsg rand sl m : respond_noise C d inmsg rand = (sl, m) ->
  (forall x, m = Some x -> zlen x = 48) /\ forall s, sl = Live s -> exists s0 s1 p1 m2, nz_responder N d rand = Some s0 /\ nz_read N s0 inmsg = (s1, Some p1) /\ nz_write N s1 [] = (s, Some m2) /\ m = Some m2.
Proof.
  unfold respond_noise. intros E. destruct (nz_responder _ _ _) as [s|] eqn:Er; [|injection E as <- <-; split; discriminate].
  destruct (nz_read _ _ _) as [s1 [p1|]] eqn:Ed; [|injection E as <- <-; split; discriminate].
  destruct (nz_write _ _ _) as [s2 [m0|]] eqn:Ew; [|injection E as <- <-; split; discriminate].
  destruct (zlen m0 =? hs2_SIZE) eqn:El; injection E as <- <-; [|split; discriminate].
  apply Z.eqb_eq in El. split; [intros x Ex; injection Ex as <-; exact El|]. intros s3 E3. injection E3 as <-. exists s, s1, p1, m0. auto.
Qed.

Lemma b7_self k e input i c out c' out' : peer_step7_body C e input i (c, out) = Ok (Next (c', out')) ->
  0 <= i < p_n C c -> 0 <= k -> zlen (p_sid C c) = 32 -> is_u64 (pe_s e i) -> zlen out = 159 * p_n C c ->
  (i <> k -> R7 k (c, out) (c', out')) /\
  (i = k -> p_n C c' = p_n C c /\ p_sid C c' = p_sid C c /\ p_outs C c' = p_outs C c /\ zlen out' = zlen out /\ p_dev C c' = p_dev C c /\
     exists d, p_dev C c = Some d /\ forall s, getz (p_ins C c') k = Ok (Live s) -> answered d input out' k s).
Proof.
  unfold peer_step7_body. change hdr_SIZE with 111. change msg5_SIZE with 159. change msg4_SIZE with 159. intros H Hi Hk Hsid Hts Hz. inv H. recvs.
  cbn [p_outs peer_last_set peer_outs_set p_index p_sk p_sid peer_ins_set p_dev p_n p_ins] in *.
  match goal with Q : of_opt (p_dev C c) = Ok ?d |- _ => destruct (p_dev C c) as [d0|] eqn:Ed; cbn [of_opt] in Q; [injection Q as <-|discriminate] end.
  match goal with Q : respond_noise _ _ _ _ = _ |- _ => apply respond_inv in Q; destruct Q as (Lm & HI) end.
  match goal with Q : updz (p_ins C c) i _ = Ok _ |- _ => apply updz_inv in Q; destruct Q as (_ & _ & UO) end.
  match goal with Q : send_msg _ ?o1 _ _ _ _ _ _ _ _ = Ok out' |- _ => rename Q into Sd; rename o1 into om end.
  match goal with Q : match ?m with Some _ => _ | None => _ end = Ok om |- _ => rename Q into Wm end.
  assert (Zm : zlen om = zlen out /\ (forall oo xx, oo + xx <= i * 159 + 111 \/ i * 159 + 159 <= oo -> rd om oo xx = rd out oo xx)).
  { match type of Wm with match ?m with Some _ => _ | None => _ end = _ => destruct m as [m1|] end; [|injection Wm as <-; split; auto].
    pose proof (Lm _ eq_refl). split; [eapply wr_zlen; exact Wm|]. intros oo xx [Q|Q]; [eapply rd_wr_before; [exact Wm|lia]|eapply rd_wr_after; [exact Wm|lia]]. }
  destruct Zm as (Zm & Rm).
  destruct (send_rd _ Hsid _ _ _ _ _ _ _ _ _ Sd ltac:(lia) ltac:(rewrite Zm, Hz; nia) ltac:(lia) Hts) as (Zs & Rs).
  split.
  - intros Ne. unfold R7. cbn [fst snd p_n p_sid p_ins p_outs p_dev peer_ins_set peer_last_set]. do 3 (split; [reflexivity|]). split; [congruence|].
    split; [rewrite UO; destruct (Z.eqb_spec k i); [congruence|reflexivity]|]. split; [rewrite Rs, Rm by lia; reflexivity|reflexivity].
  - intros ->. cbn [fst snd p_n p_sid p_ins p_outs p_dev peer_ins_set peer_last_set]. do 3 (split; [reflexivity|]). split; [congruence|]. split; [reflexivity|].
    exists d0. split; [reflexivity|]. intros s0. rewrite UO, Z.eqb_refl. intros Q. injection Q as ->.
    destruct (HI _ eq_refl) as (sr & s1 & p1 & m2 & A1 & A2 & A3 & ->). do 6 eexists. split; [eassumption|]. split; [exact A1|]. split; [exact A2|]. split; [exact A3|].
    rewrite Rs by lia. apply rd_wr_same in Wm. rewrite (Lm _ eq_refl) in Wm. exact Wm.
Qed.

Lemma s7_self k e c input out p out' : peer_wf C c -> (forall j, is_u64 (pe_s e j)) -> 0 <= k < p_n C c ->
  peer_step7 C e c input out = Ok (0, p, out') ->
  zlen out' = 159 * p_n C c /\ p_outs C p = p_outs C c /\ exists d, p_dev C c = Some d /\ forall s, getz (p_ins C p) k = Ok (Live s) -> answered d input out' k s.
Proof.
  intros W Hts Hk H. pose proof (v_sid C c W) as Hsid. unfold peer_step7 in H.
  destruct (zlen input =? _); cbn [negb] in H; [|discriminate]. destruct (Z.eqb_spec (zlen out) (msg5_SIZE * p_n C c)) as [Zo|]; cbn [negb] in H; [|discriminate].
  apply bind_ok in H. destruct H as (r & L & H). apply done_inv in H. destruct H as (_ & _ & [(-> & _)| ->]).
  2:{ exfalso. assert (HH : (fun r => r <> 0) 0); [|apply HH; reflexivity]. refine (loopM_code (fun r => r <> 0) _ _ _ _ _ _ L). intros x s r1 s2 E'. eapply code7; exact E'. }
  change msg5_SIZE with 159 in Zo.
  pose (Z0 := sized (p_n C c) (p_sid C c) (159 * p_n C c)).
  pose (R := fun s s' : peer * bytes => Z0 s -> Z0 s' /\ R7 k s s').
  assert (Rr : forall s, R s s) by (intros s Hz; split; [exact Hz|unfold R7; tauto]).
  assert (Rt : forall a b x, R a b -> R b x -> R a x).
  { intros a b x H1 H2 Hz. destruct (H1 Hz) as (Hb & A). destruct (H2 Hb) as (Hx & B). split; [exact Hx|]. unfold R7 in *. intuition congruence. }
  assert (Body : forall i s1 s2, In i (zrange 0 (Z.to_nat (p_n C c))) -> i <> k -> peer_step7_body C e input i s1 = Ok (Next s2) -> R s1 s2).
  { intros i [a oa] [b ob] Hi Ne E (Z1 & Z2 & Z3). cbn [fst snd] in *. apply zrange_In in Hi.
    destruct (b7_self k _ _ _ _ _ _ _ E ltac:(lia) ltac:(lia) ltac:(congruence) (Hts i) ltac:(congruence)) as (B & _). specialize (B Ne).
    split; [|exact B]. destruct B as (B1 & B2 & _ & B4 & _). unfold Z0, sized in *. cbn [fst snd] in *. split; [congruence|split; congruence]. }
  destruct (loop_at R (peer_step7_body C e input) k Rr Rt _ _ _ (zrange_NoDup _ _) (zrange_k _ _ Hk) Body L) as ([a oa] & [b ob] & H1 & E & H2).
  assert (Za : Z0 (c, out)) by (split; [reflexivity|split; [reflexivity|exact Zo]]).
  destruct (H1 Za) as ((Z1 & Z2 & Z3) & _ & _ & A3 & _ & A5 & _ & A7). cbn [fst snd] in *.
  destruct (b7_self k _ _ _ _ _ _ _ E ltac:(lia) ltac:(lia) ltac:(congruence) (Hts k) ltac:(congruence)) as (_ & B). destruct (B eq_refl) as (B1 & B2 & B3 & B4 & B5 & d & B6 & B7).
  destruct (H2 ltac:(split; [cbn [fst snd]; congruence|split; cbn [fst snd]; congruence])) as ((_ & _ & Xz) & _ & _ & X3 & _ & X5 & X6 & X7). cbn [fst snd] in *.
  split; [exact Xz|]. split; [congruence|]. exists d. split; [congruence|]. intros s Gs. rewrite X5 in Gs. destruct (B7 s Gs) as (r & s0 & m1 & s1 & p1 & m2 & S1 & S2 & S3 & S4 & S5).
  exists r, s0, m1, s1, p1, m2. rewrite X6. auto.
Qed.

(** ** Step 9-11: it finishes the handshakes it started *)
Definition R911 (k : Z) (c c' : peer) : Prop := p_ins C c' = p_ins C c /\ getz (p_outs C c') k = getz (p_outs C c) k.
Lemma b911_self k e input i c c' : peer_step911_body C e input i c = Ok (Next c') ->
  (i <> k -> R911 k c c') /\
  (i = k -> p_ins C c' = p_ins C c /\ forall s', getz (p_outs C c') k = Ok (Live s') ->
     exists s m2 p2, getz (p_outs C c) k = Ok (Live s) /\ rd input (k * 159 + 111) 48 = Ok m2 /\ nz_read N s m2 = (s', Some p2)).
Proof.
  unfold peer_step911_body. change hdr_SIZE with 111. change msg5_SIZE with 159. intros H. inv H. recvs.
  cbn [p_outs peer_last_set peer_outs_set p_ins p_dev] in *.
  match goal with Q : updz (p_outs C c) i _ = Ok _ |- _ => apply updz_inv in Q; destruct Q as (_ & _ & UO) end.
  split.
  - intros Ne. split; [reflexivity|]. cbn [p_outs peer_last_set peer_outs_set]. rewrite UO. destruct (Z.eqb_spec k i); [congruence|reflexivity].
  - intros ->. split; [reflexivity|]. cbn [p_outs peer_last_set peer_outs_set]. intros s'. rewrite UO, Z.eqb_refl. intros Q. injection Q as ->.
    match goal with Q : finish_noise _ _ _ ?sl _ = Ok (Live _) |- _ => unfold finish_noise in Q; destruct sl as [| |s|]; try discriminate; rename Q into Fn end.
    destruct (_ && _); [discriminate|]. destruct (nz_read N s _) as [s2 [p2|]] eqn:Er; [|discriminate]. injection Fn as ->.
    exists s. do 2 eexists. split; [assumption|]. split; [eassumption|exact Er].
Qed.
Lemma s911_self k e c input out p out' : 0 <= k < p_n C c -> peer_step911 C e c input out = Ok (0, p, out') ->
  zlen out' = msg6_SIZE (p_t C c) /\ p_ins C p = p_ins C c /\ forall s', getz (p_outs C p) k = Ok (Live s') ->
     exists s m2 p2, getz (p_outs C c) k = Ok (Live s) /\ rd input (k * 159 + 111) 48 = Ok m2 /\ nz_read N s m2 = (s', Some p2).
Proof.
  intros Hk H. unfold peer_step911 in H.
  destruct (zlen input =? _); cbn [negb] in H; [|discriminate]. destruct (Z.eqb_spec (zlen out) (msg6_SIZE (p_t C c))) as [Zo|]; cbn [negb] in H; [|discriminate].
  apply bind_ok in H. destruct H as (r & L & H). destruct r as [c1|code c1].
  2:{ exfalso. injection H as -> _ _. assert (HH : (fun r => r <> 0) 0); [|apply HH; reflexivity]. refine (loopM_code (fun r => r <> 0) _ _ _ _ _ _ L). intros x s r1 s2 E'. eapply code911; exact E'. }
  assert (E : zlen out' = zlen out /\ p_ins C p = p_ins C c1 /\ p_outs C p = p_outs C c1).
  { inv H. split; [|auto]. rewrite (send_zlen C _ _ _ _ _ _ _ _ _ _ E5), (wr_zlen _ _ _ _ E4). reflexivity. }
  destruct E as (-> & -> & ->). split; [exact Zo|]. clear H.
  destruct (loop_at (R911 k) (peer_step911_body C e input) k) with (l := zrange 0 (Z.to_nat (p_n C c))) (s := c) (s' := c1) as (a & b & A & E & B); unfold R911 in *; try assumption.
  - auto.
  - intuition congruence.
  - apply zrange_NoDup.
  - apply zrange_k; exact Hk.
  - intros i s1 s2 _ Ne E. apply (b911_self k) in E. apply E. exact Ne.
  - apply (b911_self k) in E. destruct E as (_ & E). destruct (E eq_refl) as (E1 & E2). destruct A as (A1 & A2), B as (B1 & B2).
    split; [congruence|]. intros s'. rewrite B2, <- A2. apply E2.
Qed.

(** ** Step 13: it sends the shares *)
Definition R13 (k : Z) (s s' : peer * bytes) : Prop :=
  p_n C (fst s') = p_n C (fst s) /\ p_sid C (fst s') = p_sid C (fst s) /\ p_ins C (fst s') = p_ins C (fst s) /\ p_shares C (fst s') = p_shares C (fst s) /\ zlen (snd s') = zlen (snd s) /\
  getz (p_outs C (fst s')) k = getz (p_outs C (fst s)) k /\ rd (snd s') (k * 256 + 111) 113 = rd (snd s) (k * 256 + 111) 113.
Definition handed (outs : list (slot (nz_sess N))) (shares : list share) (out : bytes) (k : Z) : Prop :=
  exists s s2 s3 sh m3 ct, getz outs k = Ok (Live s) /\ getz shares k = Ok sh /\ nz_write N s [] = (s2, Some m3) /\ nz_write N s2 (share_bytes sh) = (s3, Some ct) /\
    rd out (k * 256 + 111) 64 = Ok m3 /\ rd out (k * 256 + 175) 49 = Ok ct.

Lemma b13_self k e input i c out c' out' : peer_step13_body C e input i (c, out) = Ok (Next (c', out')) ->
  0 <= i < p_n C c -> 0 <= k -> zlen (p_sid C c) = 32 -> is_u64 (pe_s e i) -> zlen out = p_n C c * 256 ->
  (i <> k -> R13 k (c, out) (c', out')) /\
  (i = k -> p_n C c' = p_n C c /\ p_sid C c' = p_sid C c /\ p_ins C c' = p_ins C c /\ zlen out' = zlen out /\ handed (p_outs C c) (p_shares C c) out' k).
Proof.
  unfold peer_step13_body. intros H Hi Hk Hsid Hts Hz. inv H. recvs.
  cbn [p_outs peer_last_set peer_outs_set p_com peer_com_set p_shares p_index p_sk p_sid p_n p_ins] in *.
  repeat match goal with Q : negb (_ =? 0) = false |- _ => apply negb_false_iff, Z.eqb_eq in Q; subst end.
  repeat match goal with Q : noise_encrypt _ _ _ _ = _ |- _ => apply encrypt_ok in Q; destruct Q as (? & ? & ? & ? & ? & ?); subst end.
  match goal with Q : Live _ = Live _ |- _ => injection Q as Q; subst end.
  change msg8_SIZE with 256 in *. change hdr_SIZE with 111 in *. change hs3_SIZE with 64 in *. change (share_SIZE + mac_SIZE) with 49 in *. change share_SIZE with 33 in *. change mac_SIZE with 16 in *.
  match goal with Q : wr out (i * 256 + 111) _ = Ok _ |- _ => rename Q into W1 end.
  match goal with Q : wr _ (i * 256 + 111 + 64) _ = Ok _ |- _ => rename Q into W2 end.
  match goal with Q : wr _ (i * 256 + 111 + 64 + 33 + 16) _ = Ok _ |- _ => rename Q into W3 end.
  match goal with Q : send_msg _ _ _ _ _ _ _ _ _ _ = Ok out' |- _ => rename Q into Sd end.
  pose proof (wr_zlen _ _ _ _ W1) as Z1. pose proof (wr_zlen _ _ _ _ W2) as Z2. pose proof (wr_zlen _ _ _ _ W3) as Z3.
  match type of W3 with wr _ _ ?m = _ => assert (Lm : zlen m = 32) by apply (ok_auth_len C HC) end.
  destruct (send_rd _ Hsid _ _ _ _ _ _ _ _ _ Sd ltac:(lia) ltac:(nia) ltac:(lia) Hts) as (Zs & Rs).
  repeat match goal with Q : updz _ i _ = Ok _ |- _ => apply updz_inv in Q; destruct Q as (? & ? & Q) end.
  split.
  - intros Ne. unfold R13. cbn [fst snd p_n p_sid p_ins p_outs p_shares peer_outs_set peer_com_set peer_last_set]. do 4 (split; [reflexivity|]). split; [congruence|]. split.
    + match goal with Q1 : forall _, getz ?l _ = _ |- getz ?l k = _ => rewrite Q1 end. destruct (Z.eqb_spec k i); [congruence|].
      match goal with Q1 : forall _, getz ?l _ = _ |- getz ?l k = _ => rewrite Q1 end. destruct (Z.eqb_spec k i); [congruence|reflexivity].
    + rewrite Rs by lia. destruct (Z.lt_ge_cases k i).
      * rewrite (rd_wr_before _ _ _ _ _ _ W3), (rd_wr_before _ _ _ _ _ _ W2), (rd_wr_before _ _ _ _ _ _ W1) by lia. reflexivity.
      * rewrite (rd_wr_after _ _ _ _ _ _ W3), (rd_wr_after _ _ _ _ _ _ W2), (rd_wr_after _ _ _ _ _ _ W1) by lia. reflexivity.
  - intros ->. cbn [fst snd p_n p_sid p_ins p_outs p_shares peer_outs_set peer_com_set peer_last_set]. do 3 (split; [reflexivity|]). split; [congruence|].
    do 6 eexists. split; [eassumption|]. split; [eassumption|]. split; [eassumption|]. split; [eassumption|]. split.
    + rewrite Rs by lia. rewrite (rd_wr_before _ _ _ _ _ _ W3), (rd_wr_before _ _ _ _ _ _ W2) by lia. apply rd_wr_same in W1.
      match goal with Q : zlen ?m = 64 |- _ => rewrite Q in W1 end. exact W1.
    + rewrite Rs by lia. rewrite (rd_wr_before _ _ _ _ _ _ W3) by lia. apply rd_wr_same in W2.
      match goal with Q : zlen ?m = 49 |- _ => rewrite Q in W2 end. replace (k * 256 + 175) with (k * 256 + 111 + 64) by lia. exact W2.
Qed.

Lemma s13_self k e c input out p out' : peer_wf C c -> (forall j, is_u64 (pe_s e j)) -> 0 <= k < p_n C c ->
  peer_step13 C e c input out = Ok (0, p, out') -> zlen out' = p_n C c * 256 /\ p_ins C p = p_ins C c /\ handed (p_outs C c) (p_shares C c) out' k.
Proof.
  intros W Hts Hk H. pose proof (v_sid C c W) as Hsid. unfold peer_step13 in H.
  destruct (zlen input =? _); cbn [negb] in H; [|discriminate]. destruct (Z.eqb_spec (zlen out) (p_n C c * msg8_SIZE)) as [Zo|]; cbn [negb] in H; [|discriminate].
  apply bind_ok in H. destruct H as ((rt & c1) & E1 & H). apply peer_recv_tp_inv in E1. destruct E1 as (last & Hr & ->).
  destruct (rt =? 0) eqn:Er; cbn [negb] in H.
  2:{ apply Z.eqb_neq in Er. apply recv_codes in Hr. injection H as E _ _. lia. }
  apply bind_ok in H. destruct H as (r & L & H). apply done_inv in H. destruct H as (_ & _ & [(-> & _)| ->]).
  2:{ exfalso. assert (HH : (fun r => r <> 0) 0); [|apply HH; reflexivity]. refine (loopM_code (fun r => r <> 0) _ _ _ _ _ _ L). intros x [u v] r1 s2 E'. eapply code13; exact E'. }
  set (c0 := peer_transcript_set C _ _) in L. change (p_n C c0) with (p_n C c) in L. change msg8_SIZE with 256 in Zo.
  pose (Z0 := sized (p_n C c) (p_sid C c) (p_n C c * 256)).
  pose (R := fun s s' : peer * bytes => Z0 s -> Z0 s' /\ R13 k s s').
  assert (Rr : forall s, R s s) by (intros s Hz; split; [exact Hz|unfold R13; tauto]).
  assert (Rt : forall a b x, R a b -> R b x -> R a x).
  { intros a b x H1 H2 Hz. destruct (H1 Hz) as (Hb & A). destruct (H2 Hb) as (Hx & B). split; [exact Hx|]. unfold R13 in *. intuition congruence. }
  assert (Body : forall i s1 s2, In i (zrange 0 (Z.to_nat (p_n C c))) -> i <> k -> peer_step13_body C e input i s1 = Ok (Next s2) -> R s1 s2).
  { intros i [a oa] [b ob] Hi Ne E (Z1 & Z2 & Z3). cbn [fst snd] in *. apply zrange_In in Hi.
    destruct (b13_self k _ _ _ _ _ _ _ E ltac:(lia) ltac:(lia) ltac:(congruence) (Hts i) ltac:(congruence)) as (B & _). specialize (B Ne).
    split; [|exact B]. destruct B as (B1 & B2 & _ & _ & B4 & _). unfold Z0, sized in *. cbn [fst snd] in *. split; [congruence|split; congruence]. }
  destruct (loop_at R (peer_step13_body C e input) k Rr Rt _ _ _ (zrange_NoDup _ _) (zrange_k _ _ Hk) Body L) as ([a oa] & [b ob] & H1 & E & H2).
  assert (Za : Z0 (c0, out)) by (split; [reflexivity|split; [reflexivity|exact Zo]]).
  destruct (H1 Za) as ((Z1 & Z2 & Z3) & _ & _ & A3 & A4 & _ & A5 & _). cbn [fst snd] in *.
  destruct (b13_self k _ _ _ _ _ _ _ E ltac:(lia) ltac:(lia) ltac:(congruence) (Hts k) ltac:(congruence)) as (_ & B). destruct (B eq_refl) as (B1 & B2 & B3 & B4 & B5).
  destruct (H2 ltac:(split; [cbn [fst snd]; congruence|split; cbn [fst snd]; congruence])) as ((_ & _ & Xz) & _ & _ & X3 & _ & _ & _ & X6). cbn [fst snd] in *.
  split; [exact Xz|]. split; [rewrite X3, B3, A3; reflexivity|]. destruct B5 as (s & s2 & s3 & sh & m3 & ct & S1 & S2 & S3 & S4 & S5 & S6). rewrite A5 in S1. rewrite A4 in S2.
  exists s, s2, s3, sh, m3, ct. do 4 (split; [assumption|]).
  pose proof (rd_join _ _ _ _ _ _ S5 ltac:(replace (k * 256 + 111 + 64) with (k * 256 + 175) by lia; exact S6)) as Rj. change (64 + 49) with 113 in Rj.
  rewrite <- X6 in Rj.
  pose proof (rd_inv _ _ _ _ S5) as (_ & _ & _ & L5 & _). pose proof (rd_inv _ _ _ _ S6) as (_ & _ & _ & L6 & _). split.
  - rewrite <- (Z.add_0_r (k * 256 + 111)). rewrite <- (rd_rd _ _ _ _ 0 64 Rj) by lia. change (m3 ++ ct) with ([] ++ m3 ++ ct). apply rd_mid; [reflexivity|exact L5].
  - replace (k * 256 + 175) with (k * 256 + 111 + 64) by lia. rewrite <- (rd_rd _ _ _ _ 64 49 Rj) by lia. rewrite <- (app_nil_r (m3 ++ ct)), <- app_assoc. apply rd_mid; assumption.
Qed.

(** ** Step 15: it receives the shares *)
Definition R15 (k : Z) (c c' : peer) : Prop := getz (p_ins C c') k = getz (p_ins C c) k /\ getz (p_xshares C c') k = getz (p_xshares C c) k.
Definition got (ins : list (slot (nz_sess N))) (input : bytes) (k : Z) (sh : share) : Prop :=
  exists s s2 s3 m3 p3 ct pt, getz ins k = Ok (Live s) /\ rd input (k * 256 + 111) 64 = Ok m3 /\ rd input (k * 256 + 175) 49 = Ok ct /\
    nz_read N s m3 = (s2, Some p3) /\ nz_read N s2 ct = (s3, Some pt) /\ sh = share_of pt.
Lemma b15_self k e input i c c' : peer_step15_body C e input i c = Ok (Next c') ->
  (i <> k -> R15 k c c') /\ (i = k -> exists sh, getz (p_xshares C c') k = Ok sh /\ got (p_ins C c) input k sh).
Proof.
  unfold peer_step15_body. intros H. inv H. recvs.
  cbn [p_ins peer_last_set peer_ins_set p_xshares] in *.
  repeat match goal with Q : negb (_ =? 0) = false |- _ => apply negb_false_iff, Z.eqb_eq in Q; subst end.
  repeat match goal with Q : noise_decrypt _ _ _ _ = _ |- _ => apply decrypt_ok in Q; destruct Q as (? & ? & ? & ? & ? & ?); subst end.
  match goal with Q : Live _ = Live _ |- _ => injection Q as Q; subst end.
  change msg8_SIZE with 256 in *. change hdr_SIZE with 111 in *. change hs3_SIZE with 64 in *. change (share_SIZE + mac_SIZE) with 49 in *.
  repeat match goal with Q : updz _ i _ = Ok _ |- _ => apply updz_inv in Q; destruct Q as (? & ? & Q) end.
  split.
  - intros Ne. unfold R15. cbn [p_ins p_xshares peer_ins_set peer_last_set peer_xshares_set]. split.
    + match goal with Q1 : forall _, getz ?l _ = _ |- getz ?l k = _ => rewrite Q1 end. destruct (Z.eqb_spec k i); [congruence|].
      match goal with Q1 : forall _, getz ?l _ = _ |- getz ?l k = _ => rewrite Q1 end. destruct (Z.eqb_spec k i); [congruence|reflexivity].
    + match goal with Q1 : forall _, getz ?l _ = _ |- getz ?l k = _ => rewrite Q1 end. destruct (Z.eqb_spec k i); [congruence|reflexivity].
  - intros ->. cbn [p_ins p_xshares peer_ins_set peer_last_set peer_xshares_set]. eexists. split.
    + match goal with Q1 : forall _, getz ?l _ = _ |- getz ?l k = _ => rewrite Q1 end. rewrite Z.eqb_refl. reflexivity.
    + do 7 eexists. split; [eassumption|]. split; [eassumption|]. split; [replace (k * 256 + 175) with (k * 256 + 111 + 64) by lia; eassumption|].
      split; [eassumption|]. split; [eassumption|reflexivity].
Qed.
Lemma s15_self k e c input out p out' : 0 <= k < p_n C c -> peer_step15 C e c input out = Ok (0, p, out') ->
  exists sh, getz (p_xshares C p) k = Ok sh /\ got (p_ins C c) input k sh.
Proof.
  intros Hk H. unfold peer_step15 in H.
  destruct (zlen input =? _); cbn [negb] in H; [|discriminate]. destruct (zlen out =? _); cbn [negb] in H; [|discriminate].
  apply bind_ok in H. destruct H as (r & L & H). destruct r as [c1|code c1].
  2:{ exfalso. injection H as -> _ _. assert (HH : (fun r => r <> 0) 0); [|apply HH; reflexivity]. refine (loopM_code (fun r => r <> 0) _ _ _ _ _ _ L). intros x s r1 s2 E'. eapply code15; exact E'. }
  assert (E : p_xshares C p = p_xshares C c1) by (inv H; auto). rewrite E. clear H E.
  destruct (loop_at (R15 k) (peer_step15_body C e input) k) with (l := zrange 0 (Z.to_nat (p_n C c))) (s := c) (s' := c1) as (a & b & A & E & B); unfold R15 in *; try assumption.
  - auto.
  - intuition congruence.
  - apply zrange_NoDup.
  - apply zrange_k; exact Hk.
  - intros i s1 s2 _ Ne E. apply (b15_self k) in E. apply E. exact Ne.
  - apply (b15_self k) in E. destruct E as (_ & E). destruct (E eq_refl) as (sh & E1 & s & s2 & s3 & m3 & p3 & ct & pt & E2 & E3). destruct A as (A1 & A2), B as (B1 & B2).
    exists sh. split; [congruence|]. exists s, s2, s3, m3, p3, ct, pt. rewrite <- A1. split; [exact E2|exact E3].
Qed.

(** ** The channel works *)
Lemma self_channel nsk d out1 k s1 r s0 m1 t1 p1 t2 m2 s2 p2 s3 m3 sh s4 ct t3 p3 t4 pt : started nsk d out1 k s1 -> dev_ok nsk d -> rd out1 (k * 159 + 111) 48 = Ok m1 ->
  nz_responder N d r = Some s0 -> nz_read N s0 m1 = (t1, Some p1) -> nz_write N t1 [] = (t2, Some m2) -> nz_read N s1 m2 = (s2, Some p2) ->
  nz_write N s2 [] = (s3, Some m3) -> nz_write N s3 (share_bytes sh) = (s4, Some ct) -> nz_read N t2 m3 = (t3, Some p3) -> nz_read N t3 ct = (t4, Some pt) -> pt = share_bytes sh.
Proof.
  intros (da & id & ri & si & m1' & (Ra & Sa & Na) & Ia & A1 & A2 & A3 & A4) (Rd & Sd & Nd) E1 B1 B2 B3 B4 B5 B6 B7 B8.
  rewrite A3 in E1. injection E1 as ->.
  assert (Ls : zlen (share_bytes sh) <= 1024).
  { unfold share_bytes. unfold zlen. cbn [length]. rewrite le_bytes_length. lia. }
  destruct (ok_nz_chain N HN da d id ri r (share_bytes sh) Ra Rd Ls) as (q1 & q2 & q3 & q4 & q5 & u1 & u2 & u3 & u4 & u5 & n1 & n2 & n3 & c & key & G1 & G2 & G3 & G4 & G5 & G6 & G7 & G8 & G9 & G10 & G11 & G12 & G13 & G14 & G15 & G16 & G17 & _).
  - rewrite Sd. exact Ia.
  - exact Na.
  - rewrite Sa. exact A4.
  - rewrite A1 in G1. injection G1 as <-. rewrite A2 in G2. injection G2 as <- <-. rewrite B1 in G4. injection G4 as <-.
    rewrite B2 in G5. injection G5 as <- _. rewrite B3 in G6. injection G6 as <- <-. rewrite B4 in G8. injection G8 as <- _.
    rewrite B5 in G9. injection G9 as <- <-. rewrite B6 in G11. injection G11 as <- <-. rewrite B7 in G15. injection G15 as <- _.
    rewrite B8 in G17. injection G17 as _ <-. reflexivity.
Qed.
End SELF.
