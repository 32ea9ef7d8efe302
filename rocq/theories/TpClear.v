(** C77, the side of the trusted party: an accused peer that answers every complaint against it with
    the right key is not blamed. *)
From Coq Require Import ZArith Lia List Bool.
From Coq.Strings Require Import Byte.
From Verif Require Import PrimeL Bytes Res Mem Sodium ToprfModel ToprfSpec DkgModel DkgSpec DkgProofs WireModel WireSpec WireProofs TpCrypto TpModel CheaterModel.
From Verif Require Import TpFrame TpSpec TpMsg TpContent TpComplaints PeerContent TpControl TpSizes TpAgree TpSafe BlameSpec TpBlame.
Import ListNotations.
Open Scope list_scope.
Open Scope Z_scope.

Section CLEAR.
Variable C : crypto.
Hypothesis HC : crypto_ok C.
Notation S := (cS C).

(** a report blames the peer, the other peer or nobody; only 128 blames the other peer *)
Lemma blames_18 err f b inv d : blames (mkCheater 18 err f b inv) = d -> d <> 0 -> d <> f -> d = b /\ err = 128.
Proof.
  unfold blames, cheater_msg. cbn [ch_error ch_peer ch_other ch_step ch_invalid].
  destruct (_ && _); cbn [snd]; [congruence|]. change (18 =? 16) with false. change (18 =? 18) with true. cbv iota.
  destruct (negb (Z.land err 16 =? 0)); cbn [snd]; [congruence|]. destruct (negb (Z.land err 32 =? 0)); cbn [snd]; [congruence|].
  intros E D1 D2. destruct (Z.eq_dec err 128) as [->|Ne]; [cbn in E; auto|exfalso].
  assert (Q : snd (match err with
    | 3 => (NotComplainedAbout f b, f) | 4 => (HmacFailed f b, f) | 5 => (BadShareIndex f b inv, f) | 6 => (KeyForHappyPeer f b, f)
    | 7 => (Unverified f b, f) | 127 => (InvalidParameters f b, f) | 128 => (FalselyAccused f b, b) | 129 => (CaughtCheating f b, f) | _ => (BadCode18 err, 0) end) = f
    \/ snd (match err with
    | 3 => (NotComplainedAbout f b, f) | 4 => (HmacFailed f b, f) | 5 => (BadShareIndex f b inv, f) | 6 => (KeyForHappyPeer f b, f)
    | 7 => (Unverified f b, f) | 127 => (InvalidParameters f b, f) | 128 => (FalselyAccused f b, b) | 129 => (CaughtCheating f b, f) | _ => (BadCode18 err, 0) end) = 0).
  { clear - Ne. destruct err as [|q|q]; auto. do 8 (try (destruct q as [q|q|]; auto)); congruence. }
  destruct Q; congruence.
Qed.

(** [d] is blamed only if it complained about someone *)
Definition clean (d : Z) (cs0 : list Z) (ch : cheater) : Prop := blames ch = d -> exists x, In (d * 256 + x) cs0.

Lemma key_unknown e input p i k c cs c' cs' b f : tp_step18_key C e input p i k (c, cs) = Ok (Next (c', cs')) ->
  getz input (p + 111 + 33 * k) = Ok b -> getz input (p + off_from) = Ok f -> ~ In (bz b * 256 + bz f) cs ->
  t_cheaters c' = t_cheaters c ++ [mkCheater 18 6 (bz f) (bz b) 0].
Proof.
  intros H Hb Hf Hn. unfold tp_step18_key in H. unfold noise_key_SIZE in H. change (1 + 32) with 33 in H.
  rewrite hdr_val in H. rewrite Hb in H. cbn [bind] in H. rewrite Hf in H. cbn [bind] in H. cbn zeta in H.
  assert (U : forall z : byte, Mem.u8 (bz z) = bz z) by (intros z; unfold Mem.u8; rewrite Z.mod_small; [reflexivity|]; pose proof (Bytes.bz_range z); lia).
  destruct (find_pair _ cs 0) as [j|] eqn:F.
  { exfalso. apply find_pair_some in F. destruct F as (l1 & l2 & -> & _). apply Hn. apply in_or_app. right. left. reflexivity. }
  destruct (add_cheater _ _ _ _ _) eqn:Ea in H; [|discriminate]. injection H as -> _. apply add_cheater_inv in Ea. destruct Ea as (_ & ->).
  cbn [t_cheaters tp_cheaters_set]. rewrite !U. reflexivity.
Qed.

(** the turn of another accused peer *)
Lemma key_clean e input p i k c cs c' cs' d a cs0 : tp_step18_key C e input p i k (c, cs) = Ok (Next (c', cs')) ->
  getz input (p + off_from) = Ok (zb a) -> 1 <= a <= 128 -> d <> a -> 1 <= d -> (forall y, y <> 65535 -> Nat.le (occ cs y) (occ cs0 y)) ->
  exists ch, t_cheaters c' = t_cheaters c ++ [ch] /\ clean d cs0 ch.
Proof.
  intros H Hf Ha Hda Hd Hsub. destruct (key_reads _ _ _ _ _ _ _ _ H) as (b & Hb).
  destruct (key_step _ _ _ _ _ _ _ _ _ _ _ H Hb Hf) as (_ & _ & _ & (err & inv & E) & _). cbn [ctl_state fst snd] in E.
  rewrite (bz_zb_small a) in E by lia. exists (mkCheater 18 err a (bz b) inv). split; [exact E|]. intros Bl.
  apply blames_18 in Bl; [|lia|exact Hda]. destruct Bl as (Eb & ->). exists a.
  destruct (in_dec Z.eq_dec (bz b * 256 + a) cs) as [I|NI].
  - rewrite Eb. assert (Hx : bz b * 256 + a <> 65535) by (pose proof (Bytes.bz_range b); lia). specialize (Hsub _ Hx).
    apply (count_occ_In Z.eq_dec). apply (count_occ_In Z.eq_dec) in I. lia.
  - exfalso. rewrite <- (bz_zb_small a) in NI by lia. rewrite (key_unknown _ _ _ _ _ _ _ _ _ _ _ H Hb Hf NI) in E.
    apply app_inv_head in E. injection E as E _. lia.
Qed.

Definition news (P : cheater -> Prop) (c c' : tp) : Prop := exists new, t_cheaters c' = t_cheaters c ++ new /\ Forall P new.
Lemma news_refl P c : news P c c.
Proof. exists []. rewrite app_nil_r. auto. Qed.
Lemma news_trans P a b c : news P a b -> news P b c -> news P a c.
Proof. intros (n1 & E1 & F1) (n2 & E2 & F2). exists (n1 ++ n2). rewrite E2, E1, app_assoc. split; [reflexivity|apply Forall_app; auto]. Qed.
Lemma news_one (P : cheater -> Prop) c c' ch : t_cheaters c' = t_cheaters c ++ [ch] -> P ch -> news P c c'.
Proof. intros E H. exists [ch]. auto. Qed.

Lemma keys_clean e input p i d a cs0 m : getz input (p + off_from) = Ok (zb a) -> 1 <= a <= 128 -> d <> a -> 1 <= d -> forall k0 c cs c' cs',
  loopM (tp_step18_key C e input p i) (zrange k0 m) (c, cs) = Ok (Next (c', cs')) -> (forall y, y <> 65535 -> Nat.le (occ cs y) (occ cs0 y)) ->
  news (clean d cs0) c c'.
Proof.
  intros Hf Ha Hda Hd. induction m as [|m IH]; intros k0 c cs c' cs' H Hsub.
  - cbn in H. injection H as <- <-. apply news_refl.
  - rewrite zrange_S in H. cbn [loopM] in H. apply bind_ok in H. destruct H as (r & HK & H). destruct r as [[c1 cs1]|]; [|discriminate].
    destruct (key_clean _ _ _ _ _ _ _ _ _ _ _ _ HK Hf Ha Hda Hd Hsub) as (ch & E & Hch).
    eapply news_trans; [eapply news_one; eassumption|]. eapply IH; [exact H|]. intros y Hy.
    destruct (key_reads _ _ _ _ _ _ _ _ HK) as (b & Hb). destruct (key_step _ _ _ _ _ _ _ _ _ _ _ HK Hb Hf) as (_ & _ & A & _). cbn [ctl_state fst snd] in A.
    destruct (A y Hy) as (A1 & _). specialize (Hsub y Hy). lia.
Qed.

(** the turn of the peer itself: every entry of its message is a right answer *)
Definition right_answer (c : tp) (input : bytes) (d k : Z) : Prop := exists b key sh row,
  1 <= b <= t_n c /\ names_at c input d k b /\ In (b * 256 + d) (t_complaints c) /\
  rd input (reveal_off (t_complaints c) d + 111 + 33 * k + 1) 32 = Ok key /\
  share_kept C c d b /\ opens C c d b key sh /\ s_index sh = b /\ getz (t_com c) (d - 1) = Ok row /\ (d = b \/ matches (cR C) b row (s_value sh)).

Lemma key_right e input c0 d k c cs c' cs' : let p := reveal_off (t_complaints c0) d in
  tp_wf c0 -> 1 <= d <= t_n c0 -> k18 c0 c -> tp_step18_key C e input p (d - 1) k (c, cs) = Ok (Next (c', cs')) ->
  getz input (p + off_from) = Ok (zb d) -> right_answer c0 input d k ->
  (forall b, 1 <= b <= t_n c0 -> names_at c0 input d k b -> In (b * 256 + d) (t_complaints c0) -> In (b * 256 + d) cs) ->
  exists ch, t_cheaters c' = t_cheaters c ++ [ch] /\ clean d (t_complaints c0) ch.
Proof.
  cbn zeta. intros W Hd K H Hf (b & key & sh & row & Rb & (N1 & N2) & Rin & Rk & Rs & Ro & Ri & Rr & Rm) Hcs.
  pose proof (w_n c0 W) as Hn.
  destruct (key_verdict C e input _ _ _ _ _ _ _ d b key sh row H N2 Hf ltac:(lia) ltac:(lia)) as (ret & V1 & V2).
  { apply Hcs; [exact Rb|split; assumption|exact Rin]. }
  { rewrite (k_sid _ _ K). apply (w_sid c0 W). }
  { unfold share_kept in *. rewrite (k_pks _ _ K), (k_enc _ _ K), (k_n _ _ K), (k_sid _ _ K), (k_eps _ _ K). exact Rs. }
  { exact Rk. }
  { unfold opens in *. rewrite (k_enc _ _ K), (k_n _ _ K). exact Ro. }
  { exact Ri. }
  { rewrite (k_com _ _ K). exact Rr. }
  assert (ret = 0).
  { destruct (Z.eq_dec d b) as [E|E].
    - unfold dkg_verify_commitment in V1. rewrite (proj2 (Z.eqb_eq d b) E) in V1. injection V1 as <-. reflexivity.
    - assert (Hr : row <> []).
      { intros ->. pose proof (w_rows c0 W) as WR. rewrite Forall_forall in WR. apply getz_In in Rr. specialize (WR _ Rr). pose proof (w_t c0 W). change (zlen []) with 0 in WR. lia. }
      destruct (verify_classify (cR C) (ok_cR C HC) b d row sh ltac:(unfold index_ok; lia) E Hr) as (ret' & V3 & V4 & V5 & V6).
      rewrite V1 in V3. injection V3 as <-. apply V5. destruct Rm; [contradiction|assumption]. }
  subst ret. eexists. split; [exact V2|]. intros Bl. change (blames _) with b in Bl. exists d. rewrite <- Bl at 1. exact Rin.
Qed.

Lemma keys_right e input c0 d m : let p := reveal_off (t_complaints c0) d in
  tp_wf c0 -> 1 <= d <= t_n c0 -> getz input (p + off_from) = Ok (zb d) ->
  (forall k k' b, names_at c0 input d k b -> names_at c0 input d k' b -> k = k') ->
  forall k0 c cs c' cs', 0 <= k0 -> (forall k, k0 <= k < k0 + Z.of_nat m -> right_answer c0 input d k) ->
  loopM (tp_step18_key C e input p (d - 1)) (zrange k0 m) (c, cs) = Ok (Next (c', cs')) -> k18 c0 c ->
  (forall k b, k0 <= k -> 1 <= b <= t_n c0 -> names_at c0 input d k b -> In (b * 256 + d) (t_complaints c0) -> In (b * 256 + d) cs) ->
  news (clean d (t_complaints c0)) c c'.
Proof.
  cbn zeta. intros W Hd Hf Hone. pose proof (w_n c0 W) as Hn. induction m as [|m IH]; intros k0 c cs c' cs' Hk0 Hr H K Hcs.
  - cbn in H. injection H as <- <-. apply news_refl.
  - rewrite zrange_S in H. cbn [loopM] in H. apply bind_ok in H. destruct H as (r & HK & H). destruct r as [[c1 cs1]|]; [|discriminate].
    assert (R0 : right_answer c0 input d k0) by (apply Hr; lia).
    pose proof R0 as (b & key & sh & row & Rb & Nb & Rin & _).
    destruct (key_right e input c0 d k0 c cs c1 cs1 W Hd K HK Hf R0) as (ch & E & Hch).
    { intros b' B' Nb' I'. apply (Hcs k0); [lia|exact B'|exact Nb'|exact I']. }
    destruct Nb as (Nk & Nb).
    destruct (key_step _ _ _ _ _ _ _ _ _ _ _ HK Nb Hf) as (A1 & _ & A & _). cbn [ctl_state fst snd] in A, A1.
    eapply news_trans; [eapply news_one; eassumption|]. eapply (IH (k0 + 1)); [lia|intros; apply Hr; lia|exact H|eapply k18_trans; eassumption|].
    intros k b' Hk B' N' I'. assert (Hx : b' * 256 + d <> 65535) by lia.
    destruct (A _ Hx) as (_ & A2). apply (count_occ_In Z.eq_dec). rewrite A2.
    + apply (count_occ_In Z.eq_dec). apply (Hcs k); [lia|exact B'|exact N'|exact I'].
    + rewrite !bz_zb_small by lia. intros Q. assert (b' = b) by lia. subst b'.
      assert (k = k0) by (apply (Hone k k0 b); [exact N'|split; assumption]). lia.
Qed.

(** what is asked of the accused peer [d] *)
Definition answers_all (e : env) (c : tp) (input : bytes) (d : Z) : Prop :=
  (0 < accusations d (t_complaints c) -> reveal_accepted C e c input d) /\
  (forall k, 0 <= k < accusations d (t_complaints c) -> right_answer c input d k) /\
  (forall k k' b, names_at c input d k b -> names_at c input d k' b -> k = k').

Lemma body_clean e input ctr c0 d i c cs p c' cs' p' : tp_wf c0 -> Forall (complaint_ok (t_n c0)) (t_complaints c0) -> NoDup (t_complaints c0) ->
  1 <= d <= t_n c0 -> answers_all e c0 input d ->
  tp_step18_body C e input ctr i (c, cs, p) = Ok (Next (c', cs', p')) -> getz ctr i = Ok (accusations (i + 1) (t_complaints c0)) ->
  0 <= i < t_n c0 -> p = reveal_off (t_complaints c0) (i + 1) -> 0 <= p -> k18 c0 c ->
  (forall y, y <> 65535 -> Nat.le (occ cs y) (occ (t_complaints c0) y)) ->
  (forall y, y <> 65535 -> accused_of y = i + 1 -> occ cs y = occ (t_complaints c0) y) ->
  getz (t_last c) i = getz (t_last c0) i ->
  news (clean d (t_complaints c0)) c c'.
Proof.
  intros W Hok Hnd Hd (An1 & An2 & An3) HB Hctr Hi Hp Hp0 K Hsub Hsame Hlast. pose proof (w_n c0 W) as Hn. pose proof (w_sid c0 W) as Hsid.
  assert (Hacc : 0 <= accusations (i + 1) (t_complaints c0)) by apply zlen_nonneg.
  assert (Hacc2 : accusations (i + 1) (t_complaints c0) <= t_n c0) by (apply (accusations_bound (t_n c0) (i + 1) _ ltac:(lia) Hok Hnd)).
  apply (body_step C _ _ _ _ _ _ _ _ _ _ (accusations (i + 1) (t_complaints c0))) in HB; [|exact Hctr|exact Hacc|rewrite (k_sid _ _ K); exact Hsid|exact Hp0|lia].
  destruct HB as [(_ & -> & _)|(Kp & _ & pk & last & last' & l & B1 & B2 & B3 & B4)]; [apply news_refl|].
  cbn zeta in B4. assert (Nl : news (clean d (t_complaints c0)) c (tp_last_set c l)) by (exists []; rewrite app_nil_r; auto).
  rewrite (k_pks _ _ K) in B1. rewrite Hlast in B2. rewrite (k_sid _ _ K), (k_eps _ _ K) in B4.
  destruct B4 as [(r & R1 & R2 & _ & ->)|(HR & Hf & HL)].
  - eapply news_trans; [exact Nl|]. eapply news_one; [reflexivity|]. intros Bl. exfalso.
    destruct (Z.eq_dec d (i + 1)) as [->|Ne].
    + destruct (An1 Kp) as (pk0 & last0 & A1 & A2 & A3). replace (i + 1 - 1) with i in A1, A2, A3 by lia.
      assert (pk0 = pk) by congruence. assert (last0 = last) by congruence. subst pk0 last0.
      unfold reveal_size in A3. rewrite (proj2 (Z.eqb_neq _ 0)) in A3 by lia. rewrite <- Hp in A3.
      destruct (recv_of_accepted C _ _ _ _ _ _ _ _ _ _ _ A3 ltac:(lia) ltac:(unfold is_byte; lia) ltac:(unfold is_byte; lia) ltac:(unfold is_byte; lia) Hsid) as (ts & HR).
      rewrite HR in R1. injection R1 as <- _. lia.
    + apply blames_18 in Bl; lia.
  - eapply news_trans; [exact Nl|]. destruct (Z.eq_dec d (i + 1)) as [->|Ne].
    + subst p. pose proof (fun m => keys_right e input c0 (i + 1) m W Hd Hf An3 0) as Q. rewrite Z.add_simpl_r in Q.
      refine (Q _ _ _ _ _ _ _ HL _ _); [lia|intros k Hk; apply An2; lia|eapply k18_trans; [exact K|apply k18_last]|].
      intros k b Hk Hb Nb I. destruct (pair_parts b (i + 1) ltac:(lia)) as (_ & X2).
      apply (count_occ_In Z.eq_dec). rewrite Hsame; [apply (count_occ_In Z.eq_dec); exact I|lia|exact X2].
    + refine (keys_clean e input p i d (i + 1) (t_complaints c0) _ Hf _ Ne _ 0 _ _ _ _ HL Hsub); lia.
Qed.

Lemma bodies_clean e input ctr c0 d : tp_wf c0 -> Forall (complaint_ok (t_n c0)) (t_complaints c0) -> NoDup (t_complaints c0) ->
  1 <= d <= t_n c0 -> answers_all e c0 input d -> (forall i, 0 <= i < t_n c0 -> getz ctr i = Ok (accusations (i + 1) (t_complaints c0))) ->
  forall m i c cs p c' cs' p', 0 <= i -> i + Z.of_nat m <= t_n c0 ->
  loopM (tp_step18_body C e input ctr) (zrange i m) (c, cs, p) = Ok (Next (c', cs', p')) ->
  p = reveal_off (t_complaints c0) (i + 1) -> 0 <= p -> k18 c0 c ->
  (forall y, y <> 65535 -> Nat.le (occ cs y) (occ (t_complaints c0) y)) ->
  (forall y, y <> 65535 -> i <= accused_of y - 1 -> occ cs y = occ (t_complaints c0) y) ->
  (forall j, i <= j -> getz (t_last c) j = getz (t_last c0) j) ->
  news (clean d (t_complaints c0)) c c' /\ (forall y, y <> 65535 -> Nat.le (occ cs' y) (occ (t_complaints c0) y)).
Proof.
  intros W Hok Hnd Hd An Hctr. pose proof (w_n c0 W) as Hn. pose proof (w_sid c0 W) as Hsid.
  induction m as [|m IH]; intros i c cs p c' cs' p' Hi Hm H Hp Hp0 K Hsub Hsame Hlast.
  - cbn in H. injection H as <- <- <-. split; [apply news_refl|exact Hsub].
  - rewrite zrange_S in H. cbn [loopM] in H. apply bind_ok in H. destruct H as (r & HB & H). destruct r as [[[c1 cs1] p1]|]; [|discriminate].
    assert (H1 : loopM (tp_step18_body C e input ctr) (zrange i 1) (c, cs, p) = Ok (Next (c1, cs1, p1))).
    { rewrite zrange_S. cbn [loopM]. rewrite HB. reflexivity. }
    apply (bodies_inv C _ _ _ (t_complaints c0)) in H1; [|intros j Hj; apply Hctr; lia|rewrite (k_sid _ _ K); exact Hsid|exact Hp0|lia|lia|exact Hp].
    destruct H1 as (A1 & A2 & A3 & A4 & A5). change (Z.of_nat 1) with 1 in *.
    assert (N1 : news (clean d (t_complaints c0)) c c1).
    { eapply body_clean; try eassumption; [apply Hctr; lia|lia|intros y Hy E; apply Hsame; [exact Hy|lia]|apply Hlast; lia]. }
    eapply (IH (i + 1)) in H; [|lia|lia|exact A2|exact A3|eapply k18_trans; eassumption| | |].
    + destruct H as (H1 & H2). split; [eapply news_trans; eassumption|exact H2].
    + intros y Hy. destruct (A5 y Hy) as (Q & _). specialize (Hsub y Hy). lia.
    + intros y Hy E. destruct (A5 y Hy) as (_ & Q). rewrite Q by lia. apply Hsame; [exact Hy|lia].
    + intros j Hj. rewrite A4 by lia. apply Hlast. lia.
Qed.

(** the whole step *)
Lemma step18_clean e c input out c' out' d : tp_wf c -> Forall (complaint_ok (t_n c)) (t_complaints c) -> NoDup (t_complaints c) ->
  t_step c = 7 -> tp_next C e c input out = Ok (3, c', out') -> 1 <= d <= t_n c -> answers_all e c input d ->
  exists new, recorded c c' new /\ Forall (clean d (t_complaints c)) new.
Proof.
  intros W Hok Hnd Hs H Hd An. pose proof (w_n c W) as Hn. rewrite tp_next_7 in H by exact Hs. apply finish_inv in H. destruct H as (c3 & H & ->).
  unfold tp_step18 in H. apply bind_ok in H. destruct H as (isz & _ & H). destruct (zlen input =? isz); cbn [negb] in H; [|discriminate].
  destruct (zlen out =? 0); cbn [negb] in H; [|discriminate].
  destruct (count_val (2 ^ 32) (t_n c) (t_complaints c) ltac:(lia) ltac:(lia) Hok) as (ctr & F & _ & G). rewrite F in H. cbn [bind] in H.
  assert (G2 : forall i, 0 <= i < t_n c -> getz ctr i = Ok (accusations (i + 1) (t_complaints c))).
  { intros i Hi. pose proof (G (i + 1) ltac:(lia)) as Gi. replace (i + 1 - 1) with i in Gi by lia. rewrite Gi. f_equal. apply Z.mod_small.
    pose proof (accusations_bound (t_n c) (i + 1) _ ltac:(lia) Hok Hnd). assert (0 <= accusations (i + 1) (t_complaints c)) by apply zlen_nonneg. lia. }
  apply bind_ok in H. destruct H as (r & HL & H).
  assert (C4 : forall code s, r = Return code s -> code = 4).
  { intros code s ->. refine (loopM_code (fun r => r = 4) _ _ _ _ _ _ HL). intros x s1 r1 s2 E'. destruct s1 as [[a1 b1] q]. unfold tp_step18_body in E'. inv E'; auto.
    match goal with H : loopM _ _ _ = Ok _ |- _ => rename H into HQ end.
    refine (loopM_code (fun r => r = 4) _ _ _ _ _ _ HQ). intros x2 s3 r2 s4 E''. destruct s3. unfold tp_step18_key in E''. inv E''; auto. }
  destruct r as [[[c2 cs2] p2]|code [[c2 cs2] p2]]; [|specialize (C4 _ _ eq_refl); injection H as ? ? ?; lia]. clear C4.
  apply bind_ok in H. destruct H as (r & HU & H).
  destruct r as [c4|code c4].
  2:{ exfalso. assert (code = 4) by (refine (loopM_code (fun r => r = 4) _ _ _ _ _ _ HU); intros x s1 r1 s2 E'; unfold tp_step18_unanswered in E'; inv E'; auto).
      injection H as ? ? ?. lia. }
  injection H as <- <-. apply unanswered_inv in HU.
  destruct (bodies_clean e input ctr c d W Hok Hnd Hd An G2 (Z.to_nat (t_n c)) 0 c (t_complaints c) 0 c2 cs2 p2 ltac:(lia) ltac:(rewrite Z2Nat.id by lia; lia) HL) as ((new & E & FN) & Hle);
    [reflexivity|lia|apply k18_refl|intros; lia|intros; reflexivity|intros; reflexivity|].
  eexists. split; [unfold recorded; cbn [t_cheaters tp_step_set]; rewrite HU, E, <- app_assoc; reflexivity|].
  apply Forall_app. split; [exact FN|]. apply Forall_forall. intros ch Hch. apply in_map_iff in Hch. destruct Hch as (y & <- & Hy).
  apply filter_In in Hy. destruct Hy as (Hy & Hm). apply negb_true_iff, Z.eqb_neq in Hm. specialize (Hle y Hm).
  apply (count_occ_In Z.eq_dec) in Hy. assert (Iy : In y (t_complaints c)) by (apply (count_occ_In Z.eq_dec); lia).
  rewrite Forall_forall in Hok. destruct (Hok y Iy) as (Y1 & Y2). unfold complainer_of, accused_of in Y1, Y2.
  intros Bl. change (blames _) with (Mem.u8 (y / 256)) in Bl. unfold Mem.u8 in Bl. rewrite (Z.mod_small (y / 256)) in Bl by lia.
  exists (y mod 256). rewrite <- Bl. pose proof (Z.div_mod y 256 ltac:(lia)) as DM. replace (y / 256 * 256 + y mod 256) with y by lia. exact Iy.
Qed.
End CLEAR.
