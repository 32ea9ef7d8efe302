(** What a peer step that reports success did: every message was accepted, and what the messages
    say is in the state. *)
From Coq Require Import ZArith Lia List Bool.
From Coq.Strings Require Import Byte.
From Verif Require Import Bytes Res Mem Sodium ToprfModel DkgModel WireModel WireSpec WireProofs TpCrypto TpModel PeerModel.
From Verif Require Import TpFrame PeerFrame TpSpec TpMsg TpContent TpComplaints.
Import ListNotations.
Open Scope list_scope.
Open Scope Z_scope.

Section PEER.
Variable C : crypto.
Notation S := (cS C).
Notation peer := (peer C).
Notation delivered := (delivered C).

Lemma next_loop {X} (f : Z -> X -> res (ctl X)) (P : Z -> X -> Prop) k s s' : P 0 s ->
  (forall i s1 s2, 0 <= i < Z.of_nat k -> P i s1 -> f i s1 = Ok (Next s2) -> P (i + 1) s2) ->
  loopM f (zrange 0 k) s = Ok (Next s') -> P (Z.of_nat k) s'.
Proof.
  intros H0 Hs H. pose proof (loopM_seq_inv f P (fun _ _ => True) 0 k s (Next s')) as L. cbn beta iota in L.
  apply L; [exact H0| |exact H]. intros i s1 c1 Hi HP E. destruct c1; [|exact I]. eapply Hs; [lia|exact HP|exact E].
Qed.

(** ** step 5: the session keys of all peers *)
Lemma peer5_body e input i c out c' out' : peer_step5_body C e input i (c, out) = Ok (Next (c', out')) ->
  let p := hdr_SIZE + i * msg2_SIZE in
  exists pk npk last last' l pks npks, rd input (p + hdr_SIZE) 32 = Ok pk /\ rd input (p + hdr_SIZE + 32) 32 = Ok npk /\
    getz (p_last C c) i = Ok last /\
    recv_msg S input p msg2_SIZE 2 (i + 1) 255 pk (p_sid C c) (p_eps C c) last (pe_r e (1 + i)) = Ok (0, last') /\
    updz (p_last C c) i last' = Ok l /\ updz (p_pks C c) i pk = Ok pks /\ updz (p_npks C c) i npk = Ok npks /\
    c' = peer_outs_set C (peer_dev_set C (peer_pk_set C (peer_last_set C c l) pks npks) (p_dev C c')) (p_outs C c').
Proof.
  cbn zeta. unfold peer_step5_body. intros H. apply bind_ok in H. destruct H as (pk & E1 & H).
  apply bind_ok in H. destruct H as ((ret & c1) & E2 & H). apply peer_recv_inv in E2. destruct E2 as (last & last' & l & R1 & R2 & R3 & ->).
  destruct (ret =? 0) eqn:Er; cbn [negb] in H; [|discriminate]. apply Z.eqb_eq in Er. subst ret.
  apply bind_ok in H. destruct H as (pks & E3 & H). apply bind_ok in H. destruct H as (npk & E4 & H).
  apply bind_ok in H. destruct H as (npks & E5 & H). exists pk, npk, last, last', l, pks, npks.
  repeat (split; [assumption|]). inv H. reflexivity.
Qed.

Lemma peer5_content e c input out c' out' : 0 <= p_n C c -> peer_step5 C e c input out = Ok (0, c', out') ->
  zlen input = msg2_SIZE * p_n C c + hdr_SIZE /\
  delivered input 0 (zlen input) (p_tp_pk C c) (p_sid C c) 3 0 255 /\
  p_transcript C c' = update_transcript (p_transcript C c) input /\
  p_complaints C c' = p_complaints C c /\ p_my C c' = p_my C c /\
  forall i, 0 <= i < p_n C c -> exists m pk npk,
    rd input (hdr_SIZE + i * msg2_SIZE) msg2_SIZE = Ok m /\
    rd m hdr_SIZE 32 = Ok pk /\ getz (p_pks C c') i = Ok pk /\
    rd m (hdr_SIZE + 32) 32 = Ok npk /\ getz (p_npks C c') i = Ok npk /\
    delivered input (hdr_SIZE + i * msg2_SIZE) msg2_SIZE pk (p_sid C c) 2 (i + 1) 255.
Proof.
  intros Hn. unfold peer_step5. intros H.
  destruct (zlen input =? _) eqn:E1; cbn [negb] in H; [|inv H]. destruct (zlen out =? _) eqn:E2; cbn [negb] in H; [|inv H].
  apply Z.eqb_eq in E1, E2. apply bind_ok in H. destruct H as ((ret & c0) & E3 & H). apply peer_recv_tp_inv in E3. destruct E3 as (last & R & ->).
  pose proof (recv_codes _ _ _ _ _ _ _ _ _ _ _ _ _ _ R) as Hr.
  destruct (ret =? 0) eqn:Er; cbn [negb] in H; [|apply Z.eqb_neq in Er; injection H as H _ _; lia]. apply Z.eqb_eq in Er. subst ret.
  apply bind_ok in H. destruct H as (r & L & H). destruct r as [[c1 out1]|r [c1 out1]].
  2:{ cbn in H. injection H as -> -> ->. exfalso.
      assert (HH : (fun r => r <> 0) 0); [|apply HH; reflexivity]. refine (loopM_code (fun r => r <> 0) _ _ _ _ _ _ L).
      intros x [a b] r1 s2 E'. unfold peer_step5_body in E'. apply bind_ok in E'. destruct E' as (pk & _ & E').
      apply bind_ok in E'. destruct E' as ((ret & c2) & E2' & E'). apply peer_recv_inv in E2'. destruct E2' as (? & ? & ? & _ & R2 & _).
      apply recv_codes in R2. inv E'; lia. }
  cbn in H. injection H as -> ->. cbn [p_n peer_dev_set peer_transcript_set peer_tp_last_set] in L.
  rewrite msg2_val, hdr_val in *.
  assert (Hrd : rd input 0 (zlen input) = Ok input) by (apply rd_all; reflexivity).
  split; [lia|]. split; [eapply recv_delivered; [exact Hrd|lia|exact R]|].
  match type of L with loopM _ _ (?x, _) = _ => set (c0 := x) in L end.
  set (P := fun k (s : peer * bytes) => let '(c1, out1) := s in
     c1 = peer_outs_set C (peer_dev_set C (peer_pk_set C (peer_last_set C c0 (p_last C c1)) (p_pks C c1) (p_npks C c1)) (p_dev C c1)) (p_outs C c1) /\
     forall i, 0 <= i < k -> exists m pk npk,
      rd input (111 + i * 175) 175 = Ok m /\
      rd m 111 32 = Ok pk /\ getz (p_pks C c1) i = Ok pk /\
      rd m (111 + 32) 32 = Ok npk /\ getz (p_npks C c1) i = Ok npk /\
      delivered input (111 + i * 175) 175 pk (p_sid C c) 2 (i + 1) 255).
  assert (HP : P (Z.of_nat (Z.to_nat (p_n C c))) (c', out')).
  { apply (next_loop (peer_step5_body C e input) P _ (c0, out) (c', out')); [| |exact L].
    - unfold P. split; [reflexivity|]. intros; lia.
    - clear c' out' L. intros k [c1 out1] [c2 out2] Hk (P1 & P2) Hb. apply peer5_body in Hb. cbn zeta in Hb.
      destruct Hb as (pk & npk & last0 & last' & l & pks & npks & B1 & B2 & B3 & B4 & B5 & B6 & B7 & B8).
      rewrite msg2_val, hdr_val in *.
      assert (Es : p_sid C c1 = p_sid C c) by (rewrite P1; reflexivity). rewrite Es in B4.
      apply updz_inv in B6, B7. destruct B6 as (U1 & U2 & U3), B7 as (V1 & V2 & V3).
      assert (Ep : p_pks C c2 = pks) by (rewrite B8; reflexivity). assert (Eq : p_npks C c2 = npks) by (rewrite B8; reflexivity).
      unfold P. split; [rewrite B8, P1; reflexivity|].
      intros i Hi. rewrite Ep, Eq. destruct (Z.eq_dec i k) as [->|Hne].
      + assert (Hm : exists m, rd input (111 + k * 175) 175 = Ok m) by (eexists; apply rd_ok; lia). destruct Hm as (m & Hm).
        exists m, pk, npk. split; [exact Hm|]. split; [rewrite (rd_rd _ _ _ _ _ _ Hm) by lia; exact B1|].
        split; [rewrite U3, Z.eqb_refl; reflexivity|]. split; [rewrite (rd_rd _ _ _ _ _ _ Hm) by lia; rewrite <- B2; f_equal; lia|].
        split; [rewrite V3, Z.eqb_refl; reflexivity|]. eapply recv_delivered; [exact Hm|lia|exact B4].
      + destruct (P2 i ltac:(lia)) as (m & pk0 & npk0 & Q1 & Q2 & Q3 & Q4 & Q5 & Q6).
        exists m, pk0, npk0. repeat (split; [first [assumption|idtac]|]); [|rewrite V3; destruct (Z.eqb_spec i k); [lia|exact Q5]|exact Q6].
        rewrite U3. destruct (Z.eqb_spec i k); [lia|exact Q3]. }
  destruct HP as (P1 & P2). rewrite Z2Nat.id in P2 by lia. rewrite P1. cbn. split; [reflexivity|]. split; [reflexivity|]. split; [reflexivity|].
  rewrite P1 in P2. exact P2.
Qed.

(** ** step 13: the commitments of all dealers *)
Lemma noise_enc_codes (N : noise) sl input len ret sl' m : noise_encrypt C sl input len = Ok (ret, sl', m) -> 0 <= ret <= 4.
Proof. unfold noise_encrypt. intros H. inv H; lia. Qed.

Lemma peer13_body e input i c out c' out' : peer_step13_body C e input i (c, out) = Ok (Next (c', out')) ->
  let p := hdr_SIZE + i * msg6_SIZE (p_t C c) in
  exists pk last last' l data com, getz (p_pks C c) i = Ok pk /\ getz (p_last C c) i = Ok last /\
    recv_msg S input p (msg6_SIZE (p_t C c)) 6 (i + 1) 255 pk (p_sid C c) (p_eps C c) last (pe_r e (1 + i)) = Ok (0, last') /\
    updz (p_last C c) i last' = Ok l /\ rd input (p + hdr_SIZE) (32 * p_t C c) = Ok data /\
    updz (p_com C c) i (rows (p_t C c) data) = Ok com /\
    c' = peer_outs_set C (peer_com_set C (peer_last_set C c l) com) (p_outs C c').
Proof.
  cbn zeta. unfold peer_step13_body. intros H. apply bind_ok in H. destruct H as (pk & E1 & H).
  apply bind_ok in H. destruct H as ((ret & c1) & E2 & H). apply peer_recv_inv in E2. destruct E2 as (last & last' & l & R1 & R2 & R3 & ->).
  destruct (ret =? 0) eqn:Er; cbn [negb] in H; [|discriminate]. apply Z.eqb_eq in Er. subst ret.
  apply bind_ok in H. destruct H as (data & E3 & H). apply bind_ok in H. destruct H as (com & E4 & H).
  exists pk, last, last', l, data, com. repeat (split; [assumption|]). inv H. reflexivity.
Qed.

Lemma peer13_content e c input out c' out' : 0 <= p_n C c -> 0 <= p_t C c -> peer_step13 C e c input out = Ok (0, c', out') ->
  let sz := msg6_SIZE (p_t C c) in
  zlen input = hdr_SIZE + sz * p_n C c /\
  delivered input 0 (zlen input) (p_tp_pk C c) (p_sid C c) 7 0 255 /\
  p_transcript C c' = update_transcript (p_transcript C c) input /\
  p_complaints C c' = p_complaints C c /\ p_my C c' = p_my C c /\ p_pks C c' = p_pks C c /\
  forall i, 0 <= i < p_n C c -> exists m data pk,
    rd input (hdr_SIZE + i * sz) sz = Ok m /\
    rd m hdr_SIZE (32 * p_t C c) = Ok data /\ getz (p_com C c') i = Ok (rows (p_t C c) data) /\
    getz (p_pks C c) i = Ok pk /\ delivered input (hdr_SIZE + i * sz) sz pk (p_sid C c) 6 (i + 1) 255.
Proof.
  intros Hn Ht. unfold peer_step13. intros H. cbn zeta.
  destruct (zlen input =? _) eqn:E1; cbn [negb] in H; [|inv H]. destruct (zlen out =? _) eqn:E2; cbn [negb] in H; [|inv H].
  apply Z.eqb_eq in E1, E2. apply bind_ok in H. destruct H as ((ret & c0) & E3 & H). apply peer_recv_tp_inv in E3. destruct E3 as (last & R & ->).
  pose proof (recv_codes _ _ _ _ _ _ _ _ _ _ _ _ _ _ R) as Hr.
  destruct (ret =? 0) eqn:Er; cbn [negb] in H; [|apply Z.eqb_neq in Er; injection H as H _ _; lia]. apply Z.eqb_eq in Er. subst ret.
  apply bind_ok in H. destruct H as (r & L & H). destruct r as [[c1 out1]|r [c1 out1]].
  2:{ cbn in H. injection H as -> -> ->. exfalso.
      assert (HH : (fun r => r <> 0) 0); [|apply HH; reflexivity]. refine (loopM_code (fun r => r <> 0) _ _ _ _ _ _ L).
      intros x [a b] r1 s2 E'. unfold peer_step13_body in E'. inv E'; lia. }
  cbn in H. injection H as -> ->. cbn [p_n peer_transcript_set peer_tp_last_set] in L.
  rewrite hdr_val in *. set (sz := msg6_SIZE (p_t C c)) in *. assert (Hsz : sz = 111 + 32 * p_t C c) by apply msg6_val.
  assert (Hrd : rd input 0 (zlen input) = Ok input) by (apply rd_all; reflexivity).
  split; [lia|]. split; [eapply recv_delivered; [exact Hrd|nia|exact R]|].
  match type of L with loopM _ _ (?x, _) = _ => set (c0 := x) in L end.
  set (P := fun k (s : peer * bytes) => let '(c1, out1) := s in
     c1 = peer_outs_set C (peer_com_set C (peer_last_set C c0 (p_last C c1)) (p_com C c1)) (p_outs C c1) /\
     forall i, 0 <= i < k -> exists m data pk,
      rd input (111 + i * sz) sz = Ok m /\
      rd m 111 (32 * p_t C c) = Ok data /\ getz (p_com C c1) i = Ok (rows (p_t C c) data) /\
      getz (p_pks C c) i = Ok pk /\ delivered input (111 + i * sz) sz pk (p_sid C c) 6 (i + 1) 255).
  assert (HP : P (Z.of_nat (Z.to_nat (p_n C c))) (c', out')).
  { apply (next_loop (peer_step13_body C e input) P _ (c0, out) (c', out')); [| |exact L].
    - unfold P. split; [reflexivity|]. intros; lia.
    - clear c' out' L. intros k [c1 out1] [c2 out2] Hk (P1 & P2) Hb. apply peer13_body in Hb. cbn zeta in Hb.
      destruct Hb as (pk & last0 & last' & l & data & com & B1 & B3 & B4 & B5 & B6 & B7 & B8).
      assert (Es : p_sid C c1 = p_sid C c /\ p_t C c1 = p_t C c /\ p_pks C c1 = p_pks C c) by (rewrite P1; auto).
      destruct Es as (Es & Et & Epk). rewrite Es, Et, ?Epk, ?hdr_val in *. fold sz in B4, B6.
      apply updz_inv in B7. destruct B7 as (U1 & U2 & U3).
      assert (Ep : p_com C c2 = com) by (rewrite B8; reflexivity).
      unfold P. split; [rewrite B8, P1; reflexivity|].
      intros i Hi. rewrite Ep. destruct (Z.eq_dec i k) as [->|Hne].
      + assert (Hm : exists m, rd input (111 + k * sz) sz = Ok m) by (eexists; apply rd_ok; nia). destruct Hm as (m & Hm).
        exists m, data, pk. split; [exact Hm|]. split; [rewrite (rd_rd _ _ _ _ _ _ Hm) by lia; exact B6|].
        split; [rewrite U3, Z.eqb_refl; reflexivity|]. split; [exact B1|]. eapply recv_delivered; [exact Hm|lia|exact B4].
      + destruct (P2 i ltac:(lia)) as (m & data0 & pk0 & Q1 & Q2 & Q3 & Q4 & Q5).
        exists m, data0, pk0. repeat (split; [first [assumption|idtac]|]); [|exact Q5].
        rewrite U3. destruct (Z.eqb_spec i k); [lia|exact Q3]. }
  destruct HP as (P1 & P2). rewrite Z2Nat.id in P2 by lia. rewrite P1. cbn. repeat (split; [reflexivity|]).
  rewrite P1 in P2. exact P2.
Qed.

(** ** step 17: the complaints of all peers *)
(** complainers of peer [idx] *)
Definition my_of (idx : Z) (l : list Z) : list Z := map complainer_of (filter (fun x => accused_of x =? idx) l).

Lemma my_of_app idx a b : my_of idx (a ++ b) = my_of idx a ++ my_of idx b.
Proof. unfold my_of. rewrite filter_app, map_app. reflexivity. Qed.

Lemma my_of_zlen idx l : zlen (my_of idx l) = accusations idx l.
Proof. unfold my_of, accusations. rewrite zlen_map. reflexivity. Qed.

Lemma peer17_complaint input p i lim k c c' d : 0 <= i < 255 -> k + 1 < lim -> getz input (p + hdr_SIZE + (k + 1)) = Ok d ->
  ~ In ((i + 1) * 256 + bz d) (p_complaints C c) ->
  peer_step17_complaint C input p i lim k c = Ok (Next c') ->
  c' = peer_my_set C (peer_complaints_set C c (p_complaints C c ++ [(i + 1) * 256 + bz d]))
         (p_my C c ++ my_of (p_index C c) [(i + 1) * 256 + bz d]).
Proof.
  intros Hi Hk Hd Hnew. unfold peer_step17_complaint. intros H. destruct (Z.ltb_spec (k + 1) lim); [|lia]. cbn [negb] in H.
  rewrite Hd in H. cbn [bind] in H. pose proof (bz_range d). rewrite pair16_val in H by lia.
  destruct (existsb _ _) eqn:Ex; [apply existsb_eqb_In in Ex; contradiction|].
  destruct (_ <? p_cmax C c); cbn [negb] in H; [|discriminate].
  unfold my_of. cbn [filter]. unfold accused_of, complainer_of.
  replace (((i + 1) * 256 + bz d) mod 256) with (bz d) by (rewrite Z.add_comm, Z_mod_plus_full, Z.mod_small by lia; reflexivity).
  destruct (bz d =? p_index C c) eqn:Ea.
  - cbn [p_index p_my p_mymax peer_complaints_set] in H. rewrite Ea in H. destruct (_ <? p_mymax C c) in H; [|discriminate]. injection H as <-. cbn [map].
    replace (((i + 1) * 256 + bz d) / 256) with (i + 1) by (apply (Z.div_unique _ _ _ (bz d)); lia). reflexivity.
  - cbn [p_index peer_complaints_set] in H. rewrite Ea in H. injection H as <-. cbn [map]. rewrite app_nil_r. destruct c; reflexivity.
Qed.

Lemma getz_of_rd {A} (b : list A) off len m k d : rd b off len = Ok m -> getz m k = Ok d -> 0 <= k < len /\ getz b (off + k) = Ok d.
Proof.
  intros H Hd. pose proof (rd_inv _ _ _ _ H) as (A1 & A2 & A3 & A4 & Em). apply getz_inv in Hd. destruct Hd as (Hk & Hd).
  split; [lia|]. apply getz_ok; [|lia]. rewrite Em in Hd. rewrite nth_error_firstn_lt in Hd by lia. rewrite nth_error_skipn_add in Hd.
  rewrite <- Hd. f_equal. lia.
Qed.

Lemma peer17_complaints input p i lim cnt c c' ds : 0 <= i < 255 -> 0 <= cnt < 256 -> 256 <= lim -> rd input (p + 112) cnt = Ok ds ->
  NoDup (p_complaints C c ++ map (fun a => (i + 1) * 256 + a) (map bz ds)) ->
  loopM (peer_step17_complaint C input p i lim) (zrange 0 (Z.to_nat cnt)) c = Ok (Next c') ->
  c' = peer_my_set C (peer_complaints_set C c (p_complaints C c ++ map (fun a => (i + 1) * 256 + a) (map bz ds)))
         (p_my C c ++ my_of (p_index C c) (map (fun a => (i + 1) * 256 + a) (map bz ds))).
Proof.
  intros Hi Hc Hlim Hds Hnd L. pose proof (rd_inv _ _ _ _ Hds) as (_ & _ & _ & Zd & _).
  set (P := fun k (c1 : peer) => let l := map (fun a => (i + 1) * 256 + a) (map bz (firstn (Z.to_nat k) ds)) in
     c1 = peer_my_set C (peer_complaints_set C c (p_complaints C c ++ l)) (p_my C c ++ my_of (p_index C c) l)).
  assert (HP : P (Z.of_nat (Z.to_nat cnt)) c').
  { apply (next_loop (peer_step17_complaint C input p i lim) P _ c c'); [| |exact L].
    - unfold P. cbn. rewrite !app_nil_r. destruct c; reflexivity.
    - intros k c1 c2 Hk HP Hb. unfold P in HP. cbn zeta in HP.
      destruct (nth_error ds (Z.to_nat k)) as [d|] eqn:Ed; [|apply nth_error_None in Ed; unfold zlen in Zd; lia].
      pose proof (nth_error_split ds (Z.to_nat k) Ed) as (d1 & d2 & Eds & Hl).
      assert (F1 : firstn (Z.to_nat k) ds = d1) by (rewrite Eds, firstn_app, <- Hl, firstn_all, Nat.sub_diag; cbn; apply app_nil_r).
      assert (F2 : firstn (Z.to_nat (k + 1)) ds = d1 ++ [d]).
      { replace (Z.to_nat (k + 1)) with (length (d1 ++ [d])) by (rewrite app_length; cbn; lia).
        rewrite Eds. change (d :: d2) with ([d] ++ d2). rewrite app_assoc, firstn_app, firstn_all, Nat.sub_diag. cbn. apply app_nil_r. }
      rewrite F1 in HP. apply (peer17_complaint _ _ _ _ _ _ _ d) in Hb; [| lia|lia| |].
      + unfold P. cbn zeta. rewrite F2, !map_app, my_of_app. rewrite Hb, HP. cbn. rewrite <- !app_assoc. reflexivity.
      + assert (Hg : getz ds k = Ok d) by (apply getz_ok; [exact Ed|lia]). apply (getz_of_rd _ _ _ _ _ _ Hds) in Hg. destruct Hg as (_ & Hg).
        rewrite <- Hg. f_equal. rewrite hdr_val. lia.
      + rewrite HP. cbn [p_complaints peer_my_set peer_complaints_set]. rewrite Eds, !map_app, app_assoc in Hnd. cbn [map] in Hnd.
        apply NoDup_remove_2 in Hnd. intros Hin. apply Hnd. apply in_or_app. left. exact Hin. }
  unfold P in HP. cbn zeta in HP. rewrite Nat2Z.id in HP. replace (Z.to_nat cnt) with (length ds) in HP by (unfold zlen in Zd; lia).
  rewrite firstn_all in HP. exact HP.
Qed.

(** the complaints a message names are the bytes that follow the count *)
Lemma named_rd m n : 0 <= n -> zlen m = msg9_SIZE n -> zlen (named m) = bz (nth 111 m x00) ->
  exists d0 ds, getz m 111 = Ok d0 /\ nth 111 m x00 = d0 /\ rd m 112 (bz d0) = Ok ds /\ named m = map bz ds.
Proof.
  intros H0 Hm Hn. rewrite msg9_val in Hm. destruct (nth_error m 111) as [d0|] eqn:E.
  - exists d0, (firstn (Z.to_nat (bz d0)) (skipn 112 m)). split; [apply getz_ok; [exact E|lia]|].
    rewrite (nth_error_nth m 111 x00 E) in Hn. split; [apply nth_error_nth; exact E|].
    unfold named in *. rewrite (skipn_nth_error 111 m d0 E) in *. split; [|reflexivity].
    pose proof (bz_range d0). rewrite zlen_map in Hn. unfold zlen in Hn, Hm. rewrite firstn_length, skipn_length in Hn.
    apply rd_ok; [lia|lia|unfold zlen; lia].
  - apply nth_error_None in E. unfold zlen in Hm. lia.
Qed.

Lemma peer17_body e input i c m c' : 0 <= i < 255 -> 0 <= p_n C c <= 128 ->
  let sz := msg9_SIZE (p_n C c) in let p := hdr_SIZE + i * sz in let l := map (fun a => (i + 1) * 256 + a) (named m) in
  rd input p sz = Ok m -> zlen (named m) = bz (nth 111 m x00) -> NoDup (p_complaints C c ++ l) ->
  peer_step17_body C e input i c = Ok (Next c') ->
  exists pk, getz (p_pks C c) i = Ok pk /\ delivered input p sz pk (p_sid C c) 9 (i + 1) 255 /\
    c' = peer_my_set C (peer_complaints_set C (peer_last_set C c (p_last C c')) (p_complaints C c ++ l)) (p_my C c ++ my_of (p_index C c) l).
Proof.
  intros Hi Hn. cbn zeta. intros Hm Hnm Hnd. unfold peer_step17_body. intros H. apply bind_ok in H. destruct H as (pk & E1 & H).
  apply bind_ok in H. destruct H as ((ret & c1) & E2 & H). apply peer_recv_inv in E2. destruct E2 as (last & last' & l & R1 & R2 & R3 & ->).
  destruct (ret =? 0) eqn:Er; cbn [negb] in H; [|discriminate]. apply Z.eqb_eq in Er. subst ret.
  apply bind_ok in H. destruct H as (flen & E3 & H). apply bind_ok in H. destruct H as (d0 & E4 & H).
  destruct (_ <? bz d0); [discriminate|].
  pose proof (rd_inv _ _ _ _ Hm) as (I1 & _ & I3 & Zm & _). pose proof (msg9_val (p_n C c)) as Hsz. pose proof (bz_range d0).
  assert (H111 : 111 <= msg9_SIZE (p_n C c)) by lia.
  destruct (recv_accepted _ _ _ _ _ _ _ _ _ _ _ _ _ _ Hm H111 R2) as (Hs & _ & body & Hb).
  pose proof (lim_big C _ _ _ _ _ _ _ _ _ _ Hn Hs Hm Hb E3) as Hlim.
  destruct (named_rd m (p_n C c)) as (d & ds & D1 & D2 & D3 & D4); [lia|exact Zm|exact Hnm|].
  assert (d = d0).
  { apply (getz_of_rd _ _ _ _ _ _ Hm) in D1. destruct D1 as (_ & D1). rewrite hdr_val in *. rewrite D1 in E4. congruence. }
  clear D2. subst d. exists pk. split; [exact E1|]. split; [eapply recv_delivered; [exact Hm|exact H111|exact R2]|].
  rewrite D4 in *.
  assert (Hds : rd input (hdr_SIZE + i * msg9_SIZE (p_n C c) + 112) (bz d0) = Ok ds).
  { pose proof (rd_inv _ _ _ _ D3) as (_ & _ & G & _). rewrite <- (rd_rd _ _ _ _ 112 (bz d0) Hm) by lia. exact D3. }
  apply (peer17_complaints _ _ _ _ _ _ _ ds) in H; [|lia|lia|exact Hlim|exact Hds|exact Hnd].
  rewrite H. reflexivity.
Qed.

Lemma no_complaints (c : peer) : p_complaints C c = [] -> p_my C c = [] ->
  c = peer_my_set C (peer_complaints_set C (peer_last_set C c (p_last C c)) []) [].
Proof. destruct c; cbn. intros -> ->. reflexivity. Qed.

Lemma peer17_content e c input out c' out' : 0 <= p_n C c <= 128 -> p_complaints C c = [] -> p_my C c = [] ->
  let n := p_n C c in let sz := msg9_SIZE n in let l := complaints_in n hdr_SIZE input in
  (forall i, 0 <= i < n -> let m := slice (hdr_SIZE + i * sz) sz input in zlen (named m) = bz (nth 111 m x00)) -> NoDup l ->
  peer_step17 C e c input out = Ok (0, c', out') ->
  zlen input = msg10_SIZE n /\
  delivered input 0 (zlen input) (p_tp_pk C c) (p_sid C c) 10 0 255 /\
  p_transcript C c' = update_transcript (p_transcript C c) input /\
  p_complaints C c' = l /\ p_my C c' = my_of (p_index C c) l /\ p_pks C c' = p_pks C c /\
  p_step C c' = (if zlen l =? 0 then p_step C c + 1 else p_step C c) /\
  forall i, 0 <= i < n -> exists pk, getz (p_pks C c) i = Ok pk /\ delivered input (hdr_SIZE + i * sz) sz pk (p_sid C c) 9 (i + 1) 255.
Proof.
  intros Hn Hc0 Hm0. cbn zeta. set (n := p_n C c) in *. set (sz := msg9_SIZE n) in *. intros Hcnt Hnd. unfold peer_step17. intros H. fold n in H.
  destruct (zlen input =? _) eqn:E1; cbn [negb] in H; [|inv H]. destruct (zlen out =? _) eqn:E2; cbn [negb] in H; [|inv H].
  apply Z.eqb_eq in E1, E2. apply bind_ok in H. destruct H as ((ret & c0) & E3 & H). apply peer_recv_tp_inv in E3. destruct E3 as (last & R & ->).
  pose proof (recv_codes _ _ _ _ _ _ _ _ _ _ _ _ _ _ R) as Hr.
  destruct (ret =? 0) eqn:Er; cbn [negb] in H; [|apply Z.eqb_neq in Er; injection H as H _ _; lia]. apply Z.eqb_eq in Er. subst ret.
  apply bind_ok in H. destruct H as (r & L & H). destruct r as [c1|r c1].
  2:{ injection H as -> -> ->. exfalso.
      assert (HH : (fun r => r <> 0) 0); [|apply HH; reflexivity]. refine (loopM_code (fun r => r <> 0) _ _ _ _ _ _ L).
      intros x a r1 s2 E'. unfold peer_step17_body in E'. apply bind_ok in E'. destruct E' as (pk & _ & E').
      apply bind_ok in E'. destruct E' as ((ret & c2) & E2' & E'). apply peer_recv_inv in E2'. destruct E2' as (? & ? & ? & _ & R2 & _).
      apply recv_codes in R2. inv E'; try lia.
      match goal with HQ : loopM _ _ _ = Ok (Return _ _) |- _ => refine (loopM_code (fun r => r <> 0) _ _ _ _ _ _ HQ) end.
      intros ? ? ? ? E''. unfold peer_step17_complaint in E''. inv E''. }
  cbn [p_n peer_transcript_set peer_tp_last_set] in L. fold n in L. rewrite hdr_val in *.
  assert (Hsz : sz = 112 + n) by apply msg9_val.
  assert (Hin : zlen input = 111 + n * sz) by (rewrite E1; unfold msg10_SIZE; rewrite hdr_val; fold sz; lia).
  assert (Hrd : rd input 0 (zlen input) = Ok input) by (apply rd_all; reflexivity).
  split; [lia|]. split; [eapply recv_delivered; [exact Hrd|nia|exact R]|].
  match type of L with loopM _ _ ?x = _ => set (c0 := x) in L end.
  set (f := fun i => map (fun a => (i + 1) * 256 + a) (named (slice (111 + i * sz) sz input))).
  set (P := fun k (c1 : peer) => let l := flat_map f (zrange 0 (Z.to_nat k)) in
     c1 = peer_my_set C (peer_complaints_set C (peer_last_set C c0 (p_last C c1)) l) (my_of (p_index C c) l) /\
     forall i, 0 <= i < k -> exists pk, getz (p_pks C c) i = Ok pk /\ delivered input (111 + i * sz) sz pk (p_sid C c) 9 (i + 1) 255).
  assert (Hl : complaints_in n 111 input = flat_map f (zrange 0 (Z.to_nat n))) by reflexivity. rewrite Hl in *.
  assert (HP : P (Z.of_nat (Z.to_nat n)) c1).
  { apply (next_loop (peer_step17_body C e input) P _ c0 c1); [| |exact L].
    - unfold P. split; [|intros; lia]. exact (no_complaints c0 Hc0 Hm0).
    - clear c1 L H. intros k c1 c2 Hk (P1 & P2) Hb.
      assert (Es : p_sid C c1 = p_sid C c /\ p_n C c1 = n /\ p_pks C c1 = p_pks C c /\ p_index C c1 = p_index C c /\
        p_complaints C c1 = flat_map f (zrange 0 (Z.to_nat k)) /\ p_my C c1 = my_of (p_index C c) (flat_map f (zrange 0 (Z.to_nat k)))) by (rewrite P1; repeat split; reflexivity).
      destruct Es as (Es & En & Epk & Ei & Ec & Em).
      assert (Hsl : rd input (111 + k * sz) sz = Ok (slice (111 + k * sz) sz input)) by (apply rd_ok; nia).
      pose proof Hb as Hb'.
      apply (peer17_body _ _ _ _ (slice (111 + k * sz) sz input)) in Hb'; rewrite ?En, ?hdr_val; try fold sz; [|lia|lia|exact Hsl|apply Hcnt; lia|].
      + destruct Hb' as (pk & B1 & B2 & B3). rewrite En, Es, Epk, ?Ei, ?Ec, ?Em, ?hdr_val in *. fold sz in B2. fold (f k) in B3.
        unfold P. replace (Z.to_nat (k + 1)) with (Datatypes.S (Z.to_nat k)) by lia. rewrite zrange_snoc, flat_map_snoc, my_of_app.
        replace (0 + Z.of_nat (Z.to_nat k)) with k by lia.
        cbn zeta. split; [rewrite B3, P1; reflexivity|].
        intros i Hi. destruct (Z.eq_dec i k) as [->|Hne]; [|apply P2; lia]. exists pk. auto.
      + rewrite Ec. fold (f k). replace (Z.to_nat n) with (Datatypes.S (Z.to_nat k) + (Z.to_nat n - Datatypes.S (Z.to_nat k)))%nat in Hnd by lia.
        rewrite zrange_app, flat_map_app, zrange_snoc, flat_map_snoc in Hnd. replace (0 + Z.of_nat (Z.to_nat k)) with k in Hnd by lia.
        clear -Hnd. revert Hnd. generalize (flat_map f (zrange 0 (Z.to_nat k)) ++ f k) as a. intros a. 
        match goal with |- NoDup (a ++ ?b) -> _ => generalize b end. intros b H. revert H. induction a as [|x a IH]; cbn; intros H; [constructor|].
        inversion H; subst. constructor; [intros Hx; apply H2; apply in_or_app; auto|auto]. }
  destruct HP as (P1 & P2). rewrite Z2Nat.id in P2 by lia. rewrite Nat2Z.id in P1.
  set (l := flat_map f (zrange 0 (Z.to_nat n))) in *.
  assert (Ec : p_complaints C c1 = l) by (rewrite P1; reflexivity). rewrite Ec in H.
  assert (G : p_transcript C c1 = update_transcript (p_transcript C c) input /\ p_my C c1 = my_of (p_index C c) l /\ p_pks C c1 = p_pks C c /\ p_step C c1 = p_step C c)
    by (rewrite P1; repeat split; reflexivity).
  destruct G as (G1 & G2 & G3 & G4).
  destruct (zlen l =? 0); injection H as <- <-; cbn; rewrite G1, Ec, G2, G3, G4; auto 10.
Qed.
End PEER.
