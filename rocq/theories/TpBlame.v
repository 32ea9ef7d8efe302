(** Complaint resolution: who is recorded for each complaint (C37). *)
From Coq Require Import ZArith Lia List Bool.
From Coq.Strings Require Import Byte.
From Verif Require Import Bytes Res Mem Sodium ToprfModel ToprfSpec DkgModel DkgSpec DkgProofs WireModel WireSpec WireProofs TpCrypto TpModel PeerModel CheaterModel.
From Verif Require Import TpFrame PeerFrame TpSpec TpMsg TpContent TpComplaints TpControl TpSizes PeerContent TpAgree BlameSpec.
Import ListNotations.
Open Scope list_scope.
Open Scope Z_scope.

(** ** The working copy of the complaints *)
Lemma find_pair_some x l : forall j0 j, find_pair x l j0 = Some j -> exists l1 l2, l = l1 ++ x :: l2 /\ ~ In x l1 /\ j = j0 + zlen l1.
Proof.
  induction l as [|y l IH]; intros j0 j H; cbn [find_pair] in H; [discriminate|]. destruct (Z.eqb_spec y x) as [->|Hne].
  - injection H as <-. exists [], l. split; [reflexivity|]. split; [intros []|]. change (zlen []) with 0. lia.
  - apply IH in H. destruct H as (l1 & l2 & -> & Hn & ->). exists (y :: l1), l2. split; [reflexivity|]. split; [intros [Hx|Hx]; [congruence|contradiction]|].
    rewrite zlen_cons. lia.
Qed.
Lemma find_pair_none x l : forall j0, find_pair x l j0 = None -> ~ In x l.
Proof.
  induction l as [|y l IH]; intros j0 H; cbn [find_pair] in H; [intros []|]. destruct (Z.eqb_spec y x) as [->|Hne]; [discriminate|].
  intros [Hx|Hx]; [congruence|]. exact (IH _ H Hx).
Qed.
Lemma find_pair_In x l j0 : In x l -> exists j, find_pair x l j0 = Some j.
Proof. intros H. destruct (find_pair x l j0) eqn:E; [eauto|]. exfalso. exact (find_pair_none _ _ _ E H). Qed.

Notation occ := (count_occ Z.eq_dec).

Lemma occ_wipe x l j cs : find_pair x l 0 = Some j -> updz l j 65535 = Ok cs -> forall y, y <> 65535 ->
  Nat.le (occ cs y) (occ l y) /\ (y <> x -> occ cs y = occ l y) /\ (y = x -> Nat.lt (occ cs y) (occ l y)).
Proof.
  intros F U y Hy. apply find_pair_some in F. destruct F as (l1 & l2 & -> & Hn & ->). rewrite (updz_mid l1 x l2) in U by lia. injection U as <-.
  rewrite !count_occ_app. cbn [count_occ]. destruct (Z.eq_dec 65535 y); [congruence|]. destruct (Z.eq_dec x y) as [->|Hxy].
  - split; [lia|]. split; [congruence|]. intros _. lia.
  - split; [lia|]. split; [reflexivity|]. congruence.
Qed.

Lemma reveal_off_1 cs : reveal_off cs 1 = 0.
Proof. reflexivity. Qed.
Lemma reveal_off_S cs a : 1 <= a -> reveal_off cs (a + 1) = reveal_off cs a + reveal_size cs a.
Proof.
  intros Ha. unfold reveal_off. replace (Z.to_nat (a + 1 - 1)) with (Datatypes.S (Z.to_nat (a - 1))) by lia. rewrite zrange_snoc, map_app.
  cbn [map]. replace (1 + Z.of_nat (Z.to_nat (a - 1))) with a by lia. generalize (map (reveal_size cs) (zrange 1 (Z.to_nat (a - 1)))).
  intros l. induction l as [|z l IH]; cbn [app fold_right]; lia.
Qed.

Section BLAME.
Variable C : crypto.
Notation S := (cS C).

(** ** What step 18 changes *)
Record k18 (c c' : tp) : Prop := mkK18 {
  k_n : t_n c' = t_n c; k_pks : t_pks c' = t_pks c; k_sid : t_sid c' = t_sid c; k_eps : t_eps c' = t_eps c;
  k_enc : t_enc c' = t_enc c; k_com : t_com c' = t_com c; k_complaints : t_complaints c' = t_complaints c;
  k_new : exists new, t_cheaters c' = t_cheaters c ++ new /\ Forall (fun ch => ch_error ch <> 7) new
}.
Lemma k18_refl c : k18 c c.
Proof. constructor; try reflexivity. exists []. rewrite app_nil_r. auto. Qed.
Lemma k18_trans a b c : k18 a b -> k18 b c -> k18 a c.
Proof.
  intros [] [k1 k2 k3 k4 k5 k6 k7 (new & E & F)]. constructor; try congruence.
  match goal with H : exists _, t_cheaters b = _ /\ _ |- _ => destruct H as (n1 & E1 & F1) end.
  exists (n1 ++ new). rewrite E, E1, app_assoc. split; [reflexivity|]. apply Forall_app; auto.
Qed.
Lemma k18_last c l : k18 c (tp_last_set c l).
Proof. constructor; try reflexivity. exists []. rewrite app_nil_r. auto. Qed.
Lemma k18_cheaters c ch : ch_error ch <> 7 -> k18 c (tp_cheaters_set c (t_cheaters c ++ [ch])).
Proof. intros H. constructor; try reflexivity. exists [ch]. auto. Qed.
Lemma k18_add c step error peer other c' : add_cheater c step error peer other = Some c' -> error <> 7 -> k18 c c'.
Proof. intros H Hn. apply add_cheater_inv in H. destruct H as (_ & ->). apply k18_cheaters. exact Hn. Qed.

Lemma verify_ret R self i cs s ret : dkg_verify_commitment R self i cs s = Ok ret -> ret = 0 \/ ret = 1 \/ ret = -1.
Proof.
  unfold dkg_verify_commitment. intros H. destruct (i =? self); [injection H as <-; auto|]. apply bind_ok in H. destruct H as (C0 & _ & H).
  destruct (verify_loop R self 1 (tl cs) C0); [|injection H as <-; auto]. destruct (bytes_eqb _ _); injection H as <-; auto.
Qed.

(** one revealed key: one new entry, at most one complaint is marked as answered *)
Definition key_result (x b f : Z) (c : tp) (cs : list Z) (r : ctl (tp * list Z)) : Prop :=
  let c' := fst (ctl_state r) in let cs' := snd (ctl_state r) in
  k18 c c' /\ t_last c' = t_last c /\
  (forall y, y <> 65535 -> Nat.le (occ cs' y) (occ cs y) /\ (y <> x -> occ cs' y = occ cs y)) /\
  match r with
  | Next _ => exists err inv, t_cheaters c' = t_cheaters c ++ [mkCheater 18 err f b inv]
  | Return code _ => code = 4
  end /\ (In x cs -> x <> 65535 -> Nat.lt (occ cs' x) (occ cs x)).

Lemma key_step e input p i k c cs r b f : tp_step18_key C e input p i k (c, cs) = Ok r ->
  getz input (p + 111 + 33 * k) = Ok b -> getz input (p + off_from) = Ok f ->
  key_result (bz b * 256 + bz f) (bz b) (bz f) c cs r.
Proof.
  intros H Hb Hf. unfold tp_step18_key in H. unfold noise_key_SIZE in H. change (1 + 32) with 33 in H.
  rewrite hdr_val in H. rewrite Hb in H. cbn [bind] in H. rewrite Hf in H. cbn [bind] in H. cbn zeta in H.
  assert (U : forall z : byte, Mem.u8 (bz z) = bz z) by (intros z; unfold Mem.u8; rewrite Z.mod_small; [reflexivity|]; pose proof (Bytes.bz_range z); lia).
  set (x := bz b * 256 + bz f) in *.
  assert (Fin : forall cs1 error, error <> 7 ->
    (forall y, y <> 65535 -> Nat.le (occ cs1 y) (occ cs y) /\ (y <> x -> occ cs1 y = occ cs y)) ->
    (In x cs -> x <> 65535 -> Nat.lt (occ cs1 x) (occ cs x)) ->
    match add_cheater c 18 error (bz f) (bz b) with None => Ok (Return 4 (c, cs1)) | Some c2 => Ok (Next (c2, cs1)) end = Ok r ->
    key_result x (bz b) (bz f) c cs r).
  { intros cs1 error He G1 G2 Hr. destruct (add_cheater _ _ _ _ _) eqn:Ea in Hr; injection Hr as <-; unfold key_result; cbn [ctl_state fst snd].
    - pose proof (k18_add _ _ _ _ _ _ Ea He) as K. apply add_cheater_inv in Ea. destruct Ea as (_ & ->).
      split; [exact K|]. split; [reflexivity|]. split; [exact G1|]. split; [|exact G2]. cbn [t_cheaters tp_cheaters_set]. rewrite !U. eauto.
    - split; [apply k18_refl|]. auto. }
  destruct (find_pair x cs 0) as [j|] eqn:F.
  2:{ apply (Fin cs 6); [lia| | |exact H]; [intros; split; [lia|reflexivity]|].
      intros Hi. exfalso. exact (find_pair_none _ _ _ F Hi). }
  apply bind_ok in H. destruct H as (cs1 & Hu & H). pose proof (occ_wipe _ _ _ _ F Hu) as W.
  assert (G : forall y, y <> 65535 -> Nat.le (occ cs1 y) (occ cs y) /\ (y <> x -> occ cs1 y = occ cs y)) by (intros y Hy; split; apply (W y Hy)).
  assert (G' : In x cs -> x <> 65535 -> Nat.lt (occ cs1 x) (occ cs x)) by (intros _ Hy; apply (W _ Hy); reflexivity).
  clear W. specialize (Fin cs1).
  apply bind_ok in H. destruct H as (tsb & _ & H). apply bind_ok in H. destruct H as (pk & _ & H).
  apply bind_ok in H. destruct H as ((ret & l0) & HR & H).
  destruct (ret =? 0) eqn:Er; cbn [negb] in H.
  2:{ apply (Fin _) with (4 := H); try assumption. apply recv_codes in HR. apply Z.eqb_neq in Er. lia. }
  apply bind_ok in H. destruct H as (key & _ & H). apply bind_ok in H. destruct H as (mac & _ & H). apply bind_ok in H. destruct H as (ct & _ & H).
  destruct (bytes_eqb mac _); cbn [negb] in H.
  2:{ apply (Fin _) with (4 := H); try assumption. lia. }
  destruct (nz_aead_decrypt (cN C) key ct) as [pt|].
  2:{ apply (Fin _) with (4 := H); try assumption. lia. }
  destruct (s_index (share_of pt) =? bz b); cbn [negb] in H.
  - apply bind_ok in H. destruct H as (row & _ & H). apply bind_ok in H. destruct H as (ret2 & HV & H).
    apply (Fin _) with (4 := H); try assumption. apply verify_ret in HV. lia.
  - destruct (add_cheater _ _ _ _ _) as [c2|] eqn:Ea in H.
    + apply bind_ok in H. destruct H as (last & Hl & H). apply bind_ok in H. destruct H as (chs & Hc & H). injection H as <-.
      apply add_cheater_inv in Ea. destruct Ea as (_ & ->). cbn [t_cheaters tp_cheaters_set] in Hl, Hc.
      rewrite (updz_mid (t_cheaters c) _ []) in Hc by (rewrite zlen_app; change (zlen [_]) with 1; lia).
      rewrite (getz_mid (t_cheaters c)) in Hl by (rewrite zlen_app; change (zlen [_]) with 1; lia). injection Hl as <-. injection Hc as <-.
      unfold key_result. cbn [ctl_state fst snd]. cbn [ch_step ch_error ch_peer ch_other]. rewrite !U. split.
      { constructor; try reflexivity. cbn [t_cheaters tp_cheaters_set]. eexists. split; [reflexivity|]. constructor; [cbn; lia|constructor]. }
      split; [reflexivity|]. split; [exact G|]. split; [|exact G']. cbn [t_cheaters tp_cheaters_set]. eauto.
    + injection H as <-. unfold key_result. cbn [ctl_state fst snd]. split; [apply k18_refl|]. auto.
Qed.

Lemma signed_ts buf off len m pk sid msgno from to ts body : rd buf off len = Ok m -> zlen sid = 32 ->
  signed S pk sid msgno from to ts body m -> rd buf (off + off_ts) 8 = Ok (be_bytes 8 ts) /\ getz buf (off + off_from) = Ok (zb from).
Proof.
  intros Hm Hs Hg. pose proof (signed_zlen _ _ _ _ _ _ _ _ _ Hs Hg) as L. pose proof (rd_inv _ _ _ _ Hm) as (R1 & R2 & R3 & R4 & _).
  pose proof (zlen_nonneg body) as Hb. destruct Hg as (sig & G1 & G2 & G3 & _). unfold message, header in G3.
  assert (L1 : forall z, zlen [zb z] = 1) by reflexivity. unfold off_ts, off_from. split.
  - rewrite <- (rd_rd _ _ _ _ 71 8 Hm) by lia. rewrite G3, <- !app_assoc.
    rewrite (app_assoc sig), (app_assoc (sig ++ _)), (app_assoc ((sig ++ _) ++ _)), (app_assoc (((sig ++ _) ++ _) ++ _)).
    apply rd_mid; [|apply zlen_be]. rewrite !zlen_app, G1, zlen_be, !L1. reflexivity.
  - assert (Hg : getz m 69 = Ok (zb from)).
    { rewrite G3, <- !app_assoc. rewrite (app_assoc sig), (app_assoc (sig ++ _)). apply (getz_mid ((sig ++ _) ++ _) (zb from)).
      rewrite !zlen_app, G1, zlen_be, !L1. reflexivity. }
    apply (getz_of_rd _ _ _ _ _ _ Hm Hg).
Qed.

Lemma bz_zb_small z : 0 <= z < 256 -> bz (zb z) = z.
Proof. intros H. rewrite bz_zb. apply Z.mod_small. exact H. Qed.

(** a key that opens the share: the share is checked against the commitments *)
Lemma key_verdict e input p i k c cs c' cs' a b key sh row : tp_step18_key C e input p i k (c, cs) = Ok (Next (c', cs')) ->
  getz input (p + 111 + 33 * k) = Ok (zb b) -> getz input (p + off_from) = Ok (zb a) -> 0 <= a < 256 -> 0 <= b < 256 ->
  In (b * 256 + a) cs -> zlen (t_sid c) = 32 -> share_kept C c a b -> rd input (p + 111 + 33 * k + 1) 32 = Ok key -> opens C c a b key sh -> s_index sh = b ->
  getz (t_com c) (a - 1) = Ok row ->
  exists ret, dkg_verify_commitment (cR C) b a row sh = Ok ret /\ t_cheaters c' = t_cheaters c ++ [mkCheater 18 (128 + ret) a b 0].
Proof.
  intros H Hb Hf Ha2 Hb2 Hin Hsid (pk & m & ts & body & K1 & K2 & K3 & K4 & K5 & K6) Hkey (ct & pt & O1 & O2 & O3 & O4) Hidx Hrow.
  unfold tp_step18_key in H. unfold noise_key_SIZE in H. change (1 + 32) with 33 in H.
  rewrite hdr_val in H. rewrite Hb in H. cbn [bind] in H. rewrite Hf in H. cbn [bind] in H. cbn zeta in H.
  rewrite !bz_zb_small in H by assumption.
  destruct (find_pair_In _ _ 0 Hin) as (j & F). rewrite F in H.
  apply bind_ok in H. destruct H as (cs1 & Hu & H). fold (share_off (t_n c) a b) in H.
  destruct (signed_ts _ _ _ _ _ _ _ _ _ _ _ K2 Hsid K3) as (T1 & _). rewrite T1 in H. cbn [bind] in H. rewrite K1 in H. cbn [bind] in H.
  assert (Hts : is_u64 ts) by (destruct K3 as (? & ? & ? & _); assumption).
  rewrite ntohll_of_le in H by apply zlen_be. rewrite of_be_be in H by exact Hts.
  rewrite (recv_signed S (t_enc c) _ msg8_SIZE m 8 a b pk (t_sid c) (t_eps c) ts ts _ body K2) in H;
    [|reflexivity|unfold is_byte; lia|exact Ha2|exact Hb2|exact Hsid|exact K3|].
  2:{ unfold fresh. destruct (Z.eqb_spec ts 0); [lia|]. rewrite Z.mod_small by lia. lia. }
  cbn [bind Z.eqb negb] in H. rewrite Hkey in H. cbn [bind] in H.
  change (share_SIZE + mac_SIZE) with 49 in H. change hs3_SIZE with 64 in H. change hmac_SIZE with 32 in H.
  rewrite <- !(Z.add_assoc (_ + 64)) in H. change (share_SIZE + mac_SIZE) with 49 in H.
  rewrite O2 in H. cbn [bind] in H. rewrite O1 in H. cbn [bind] in H. rewrite bytes_eqb_refl in H. cbn [negb] in H. rewrite O3 in H. rewrite <- O4 in H.
  rewrite Hidx, Z.eqb_refl in H. cbn [negb] in H. rewrite Hrow in H. cbn [bind] in H.
  apply bind_ok in H. destruct H as (ret & HV & H). exists ret. split; [exact HV|].
  destruct (add_cheater _ _ _ _ _) eqn:Ea in H; [|discriminate]. injection H as -> ->. apply add_cheater_inv in Ea. destruct Ea as (_ & ->).
  cbn [t_cheaters tp_cheaters_set]. unfold Mem.u8. rewrite !Z.mod_small by lia. reflexivity.
Qed.

Lemma key_reads e input p i k s r : tp_step18_key C e input p i k s = Ok r -> exists b, getz input (p + 111 + 33 * k) = Ok b.
Proof.
  destruct s as [c cs]. unfold tp_step18_key. unfold noise_key_SIZE. change (1 + 32) with 33. rewrite hdr_val. intros H.
  apply bind_ok in H. destruct H as (b & Hb & _). eauto.
Qed.

Lemma keys_inv e input p i f m : getz input (p + off_from) = Ok f -> forall k0 c cs c' cs',
  loopM (tp_step18_key C e input p i) (zrange k0 m) (c, cs) = Ok (Next (c', cs')) ->
  k18 c c' /\ t_last c' = t_last c /\ forall y, y <> 65535 -> Nat.le (occ cs' y) (occ cs y) /\
    ((forall k b, k0 <= k < k0 + Z.of_nat m -> getz input (p + 111 + 33 * k) = Ok b -> y <> bz b * 256 + bz f) -> occ cs' y = occ cs y).
Proof.
  intros Hf. induction m as [|m IH]; intros k0 c cs c' cs' H.
  - cbn in H. injection H as <- <-. split; [apply k18_refl|]. split; [reflexivity|]. intros y Hy. split; [lia|reflexivity].
  - rewrite zrange_S in H. cbn [loopM] in H. apply bind_ok in H. destruct H as (r & HK & H). destruct r as [[c1 cs1]|]; [|discriminate].
    destruct (key_reads _ _ _ _ _ _ _ HK) as (b & Hb). pose proof (key_step _ _ _ _ _ _ _ _ _ _ HK Hb Hf) as (A1 & A2 & A3 & _). cbn [ctl_state fst snd] in *.
    apply IH in H. destruct H as (B1 & B2 & B3). split; [eapply k18_trans; eassumption|]. split; [congruence|]. intros y Hy.
    destruct (A3 y Hy) as (A4 & A5), (B3 y Hy) as (B4 & B5). split; [lia|]. intros Hno. rewrite B5.
    + apply A5. apply (Hno k0); [lia|exact Hb].
    + intros k b' Hk. apply Hno. lia.
Qed.

(** one accused peer *)
Lemma body_step e input ctr i c cs p c' cs' p' k : tp_step18_body C e input ctr i (c, cs, p) = Ok (Next (c', cs', p')) ->
  getz ctr i = Ok k -> 0 <= k -> zlen (t_sid c) = 32 -> 0 <= p -> 0 <= i < 255 ->
  (k = 0 /\ c' = c /\ cs' = cs /\ p' = p) \/
  (0 < k /\ p' = p + (111 + 33 * k) /\ exists pk last last' l, getz (t_pks c) i = Ok pk /\ getz (t_last c) i = Ok last /\ updz (t_last c) i last' = Ok l /\
    let c1 := tp_last_set c l in
    ((exists r, recv_msg S input p (111 + 33 * k) 11 (i + 1) 0 pk (t_sid c) (t_eps c) last (e_r e i) = Ok (r, last') /\ 1 <= r <= 7 /\
        cs' = cs /\ c' = tp_cheaters_set c1 (t_cheaters c1 ++ [mkCheater 18 (32 + r) (i + 1) 254 0])) \/
     (recv_msg S input p (111 + 33 * k) 11 (i + 1) 0 pk (t_sid c) (t_eps c) last (e_r e i) = Ok (0, last') /\
        getz input (p + off_from) = Ok (zb (i + 1)) /\
        loopM (tp_step18_key C e input p i) (zrange 0 (Z.to_nat k)) (c1, cs) = Ok (Next (c', cs'))))).
Proof.
  intros H Hk Hk0 Hsid Hp Hi. unfold tp_step18_body in H. rewrite Hk in H. cbn [bind] in H. destruct (k =? 0) eqn:Hkn; [apply Z.eqb_eq in Hkn; subst k|apply Z.eqb_neq in Hkn].
  - left. injection H as <- <- <-. auto.
  - right. split; [lia|]. unfold noise_key_SIZE in H. change (1 + 32) with 33 in H. rewrite hdr_val in H.
    apply bind_ok in H. destruct H as (pk & E1 & H). apply bind_ok in H. destruct H as ((ret & c1) & E2 & H).
    apply tp_recv_inv in E2. destruct E2 as (last & last' & l & R1 & R2 & R3 & ->). destruct (ret =? 0) eqn:Er; cbn [negb] in H.
    + apply Z.eqb_eq in Er. subst ret. apply bind_ok in H. destruct H as (r & HL & H). destruct r as [[c2 cs2]|? [c2 cs2]]; [|discriminate].
      injection H as <- <- <-. split; [reflexivity|]. exists pk, last, last', l. split; [exact E1|]. split; [exact R1|]. split; [exact R3|]. cbn zeta. right.
      split; [exact R2|]. split; [|exact HL].
      destruct (recv_rd C input p (111 + 33 * k) 11 (i + 1) 0 pk (t_sid c) (t_eps c) last (e_r e i) 0 last' R2 eq_refl Hp ltac:(lia)) as (m & Hm).
      destruct (recv_accepted _ _ _ _ _ _ _ _ _ _ _ _ _ _ Hm ltac:(lia) R2) as (_ & _ & body & Hb).
      apply (signed_ts _ _ _ _ _ _ _ _ _ _ _ Hm Hsid Hb).
    + pose proof (recv_codes _ _ _ _ _ _ _ _ _ _ _ _ _ _ R2) as Hc. apply Z.eqb_neq in Er.
      destruct (add_cheater _ _ _ _ _) eqn:Ea in H; [|discriminate]. injection H as -> -> <-. split; [reflexivity|].
      exists pk, last, last', l. split; [exact E1|]. split; [exact R1|]. split; [exact R3|]. cbn zeta. left. exists ret. split; [exact R2|]. split; [lia|].
      split; [reflexivity|]. apply add_cheater_inv in Ea. destruct Ea as (_ & ->). unfold Mem.u8. rewrite !Z.mod_small by lia. reflexivity.
Qed.

(** several accused peers *)
Lemma bodies_inv e input ctr cs0 m : forall i0 c cs p c' cs' p',
  loopM (tp_step18_body C e input ctr) (zrange i0 m) (c, cs, p) = Ok (Next (c', cs', p')) ->
  (forall i, i0 <= i < i0 + Z.of_nat m -> getz ctr i = Ok (accusations (i + 1) cs0)) ->
  zlen (t_sid c) = 32 -> 0 <= p -> 0 <= i0 -> i0 + Z.of_nat m <= 255 -> p = reveal_off cs0 (i0 + 1) ->
  k18 c c' /\ p' = reveal_off cs0 (i0 + Z.of_nat m + 1) /\ 0 <= p' /\
  (forall j, j < i0 \/ i0 + Z.of_nat m <= j -> getz (t_last c') j = getz (t_last c) j) /\
  (forall y, y <> 65535 -> Nat.le (occ cs' y) (occ cs y) /\
     (accused_of y - 1 < i0 \/ i0 + Z.of_nat m <= accused_of y - 1 -> occ cs' y = occ cs y)).
Proof.
  induction m as [|m IH]; intros i0 c cs p c' cs' p' H Hctr Hsid Hp Hi0 Hm Hoff.
  - cbn in H. injection H as <- <- <-. split; [apply k18_refl|]. rewrite Z.add_0_r. split; [exact Hoff|]. split; [exact Hp|]. split; [reflexivity|].
    intros y Hy. split; [lia|reflexivity].
  - rewrite zrange_S in H. cbn [loopM] in H. apply bind_ok in H. destruct H as (r & HB & H). destruct r as [[[c1 cs1] p1]|]; [|discriminate].
    assert (Hacc : 0 <= accusations (i0 + 1) cs0) by apply zlen_nonneg.
    apply (body_step _ _ _ _ _ _ _ _ _ _ (accusations (i0 + 1) cs0)) in HB; [|apply Hctr; lia|exact Hacc|exact Hsid|exact Hp|lia].
    assert (Q : k18 c c1 /\ p1 = reveal_off cs0 (i0 + 1 + 1) /\ 0 <= p1 /\ (forall j, j <> i0 -> getz (t_last c1) j = getz (t_last c) j) /\
      (forall y, y <> 65535 -> Nat.le (occ cs1 y) (occ cs y) /\ (accused_of y - 1 <> i0 -> occ cs1 y = occ cs y))).
    { rewrite reveal_off_S, <- Hoff by lia. unfold reveal_size.
      destruct HB as [(K & -> & -> & ->)|(K & -> & pk & last & last' & l & B1 & B2 & B3 & B4)].
      - rewrite K. cbn [Z.eqb]. split; [apply k18_refl|]. split; [lia|]. split; [exact Hp|]. split; [reflexivity|]. intros; split; [lia|reflexivity].
      - destruct (Z.eqb_spec (accusations (i0 + 1) cs0) 0); [lia|]. pose proof (updz_inv _ _ _ _ B3) as (_ & _ & U3).
        cbn zeta in B4. destruct B4 as [(r & R1 & R2 & -> & ->)|(R1 & R2 & R3)].
        + split; [eapply k18_trans; [apply k18_last|]; apply (k18_cheaters (tp_last_set c l)); cbn; lia|]. split; [reflexivity|]. split; [lia|].
          split; [|intros; split; [lia|reflexivity]]. cbn [t_last tp_cheaters_set tp_last_set]. intros j Hj. rewrite U3. destruct (Z.eqb_spec j i0); [lia|reflexivity].
        + destruct (keys_inv _ _ _ _ _ _ R2 _ _ _ _ _ R3) as (A1 & A2 & A3).
          split; [eapply k18_trans; [apply k18_last|exact A1]|]. split; [reflexivity|]. split; [lia|]. split.
          { rewrite A2. cbn [t_last tp_last_set]. intros j Hj. rewrite U3. destruct (Z.eqb_spec j i0); [lia|reflexivity]. }
          intros y Hy. destruct (A3 y Hy) as (A4 & A5). split; [exact A4|]. intros Ha. apply A5. intros k b Hk Hb ->.
          apply Ha. rewrite (bz_zb_small (i0 + 1)) by lia. pose proof (Bytes.bz_range b). destruct (pair_parts (bz b) (i0 + 1) ltac:(lia)) as (_ & ->). lia. }
    destruct Q as (Q1 & Q2 & Q3 & Q4 & Q5).
    apply IH in H; [|intros; apply Hctr; lia|rewrite (k_sid _ _ Q1); exact Hsid|exact Q3|lia|lia|exact Q2].
    destruct H as (P1 & P2 & P3 & P4 & P5). split; [eapply k18_trans; eassumption|]. split; [rewrite P2; f_equal; lia|]. split; [exact P3|]. split.
    + intros j Hj. rewrite P4 by lia. apply Q4. lia.
    + intros y Hy. destruct (P5 y Hy) as (P6 & P7), (Q5 y Hy) as (Q6 & Q7). split; [lia|]. intros Ha. rewrite P7 by lia. apply Q7. lia.
Qed.

Lemma unanswered_inv cs : forall c c', loopM tp_step18_unanswered cs c = Ok (Next c') ->
  t_cheaters c' = t_cheaters c ++ map (fun x => mkCheater 18 7 (Mem.u8 (x / 256)) (Mem.u8 (Mem.u8 x)) 0) (filter (fun x => negb (x =? 65535)) cs).
Proof.
  induction cs as [|x cs IH]; intros c c' H; cbn [loopM] in H.
  - injection H as <-. cbn. rewrite app_nil_r. reflexivity.
  - apply bind_ok in H. destruct H as (r & H1 & H). destruct r as [c1|]; [|discriminate]. rewrite (IH _ _ H). unfold tp_step18_unanswered in H1.
    cbn [filter]. destruct (x =? 65535); cbn [negb].
    + injection H1 as <-. reflexivity.
    + destruct (add_cheater _ _ _ _ _) eqn:Ea in H1; [|discriminate]. injection H1 as ->. apply add_cheater_inv in Ea. destruct Ea as (_ & ->).
      cbn [t_cheaters tp_cheaters_set map]. rewrite <- app_assoc. reflexivity.
Qed.

(** the state of affairs around the turn of one accused peer *)
Lemma step18_split e c input out c' out' : tp_wf c -> Forall (complaint_ok (t_n c)) (t_complaints c) -> NoDup (t_complaints c) ->
  t_step c = 7 -> tp_next C e c input out = Ok (3, c', out') -> forall a, 1 <= a <= t_n c ->
  exists ctr ca csa cb csb pb new2 cs2 c2, (forall i, 1 <= i <= t_n c -> getz ctr (i - 1) = Ok (accusations i (t_complaints c))) /\
    k18 c ca /\ getz (t_last ca) (a - 1) = getz (t_last c) (a - 1) /\
    (forall y, y <> 65535 -> accused_of y = a -> occ csa y = occ (t_complaints c) y) /\
    tp_step18_body C e input ctr (a - 1) (ca, csa, reveal_off (t_complaints c) a) = Ok (Next (cb, csb, pb)) /\
    0 <= reveal_off (t_complaints c) a /\
    k18 cb c2 /\ (forall y, y <> 65535 -> Nat.le (occ cs2 y) (occ csb y) /\ Nat.le (occ cs2 y) (occ (t_complaints c) y) /\ (accused_of y = a -> occ cs2 y = occ csb y)) /\
    t_cheaters c' = t_cheaters c2 ++ new2 /\
    new2 = map (fun x => mkCheater 18 7 (Mem.u8 (x / 256)) (Mem.u8 (Mem.u8 x)) 0) (filter (fun x => negb (x =? 65535)) cs2).
Proof.
  intros W Hok Hnd Hs H a Ha. pose proof (w_n c W) as Hn. rewrite tp_next_7 in H by exact Hs. apply finish_inv in H. destruct H as (c3 & H & ->).
  unfold tp_step18 in H. apply bind_ok in H. destruct H as (isz & _ & H). destruct (zlen input =? isz); cbn [negb] in H; [|discriminate].
  destruct (zlen out =? 0); cbn [negb] in H; [|discriminate].
  destruct (count_val (2 ^ 32) (t_n c) (t_complaints c) ltac:(lia) ltac:(lia) Hok) as (ctr & F & _ & G). rewrite F in H. cbn [bind] in H.
  assert (G' : forall i, 1 <= i <= t_n c -> getz ctr (i - 1) = Ok (accusations i (t_complaints c))).
  { intros i Hi. rewrite (G i Hi). f_equal. apply Z.mod_small. pose proof (accusations_bound (t_n c) i _ ltac:(lia) Hok Hnd). lia. }
  assert (G2 : forall i, 0 <= i < t_n c -> getz ctr i = Ok (accusations (i + 1) (t_complaints c))).
  { intros i Hi. rewrite <- (G' (i + 1)) by lia. f_equal. lia. }
  apply bind_ok in H. destruct H as (r & HL & H).
  assert (C4 : forall code s, r = Return code s -> code = 4).
  { intros code s ->. refine (loopM_code (fun r => r = 4) _ _ _ _ _ _ HL). intros x s1 r1 s2 E'. destruct s1 as [[a1 b1] q]. unfold tp_step18_body in E'. inv E'; auto.
    match goal with H : loopM _ _ _ = Ok _ |- _ => rename H into HQ end.
    refine (loopM_code (fun r => r = 4) _ _ _ _ _ _ HQ). intros x2 s3 r2 s4 E''. destruct s3. unfold tp_step18_key in E''. inv E''; auto. }
  destruct r as [[[c2 cs2] p2]|code [[c2 cs2] p2]]; [|specialize (C4 _ _ eq_refl); injection H as ? ? ?; lia]. clear C4.
  apply bind_ok in H. destruct H as (r & HU & H).
  destruct r as [c4|code c4].
  2:{ exfalso. assert (code = 4) by (refine (loopM_code (fun r => r = 4) _ _ _ _ _ _ HU); intros x s1 r1 s2 E'; unfold tp_step18_unanswered in E'; inv E'; auto).
      injection H as ? ? ?. lia. }
  injection H as <- <-. apply unanswered_inv in HU.
  replace (Z.to_nat (t_n c)) with (Z.to_nat (a - 1) + Datatypes.S (Z.to_nat (t_n c - a)))%nat in HL by lia.
  rewrite zrange_app, zrange_S, loopM_app in HL. apply bind_ok in HL. destruct HL as (r1 & L1 & L2). destruct r1 as [[[ca csa] pa]|]; [|discriminate].
  cbn [loopM] in L2. apply bind_ok in L2. destruct L2 as (r2 & L2 & L3). destruct r2 as [[[cb csb] pb]|]; [|discriminate].
  replace (0 + Z.of_nat (Z.to_nat (a - 1))) with (a - 1) in L2, L3 by lia.
  pose proof (w_sid c W) as Hsid.
  apply (bodies_inv _ _ _ (t_complaints c)) in L1; [|intros i Hi; apply G2; lia|exact Hsid|lia|lia|lia|reflexivity].
  destruct L1 as (A1 & A2 & A3 & A4 & A5). replace (0 + Z.of_nat (Z.to_nat (a - 1)) + 1) with a in A2 by lia. subst pa.
  pose proof (k_sid _ _ A1) as Sa. assert (Hacc : 0 <= accusations a (t_complaints c)) by apply zlen_nonneg.
  pose proof L2 as HB.
  apply (body_step _ _ _ _ _ _ _ _ _ _ (accusations a (t_complaints c))) in HB; [|apply G'; lia|exact Hacc|rewrite Sa; exact Hsid|exact A3|lia].
  assert (Q : k18 ca cb /\ pb = reveal_off (t_complaints c) (a + 1) /\ 0 <= pb /\ (forall y, y <> 65535 -> Nat.le (occ csb y) (occ csa y))).
  { rewrite reveal_off_S by lia. unfold reveal_size.
    destruct HB as [(K & -> & -> & ->)|(K & -> & pk & last & last' & l & B1 & B2 & B3 & B4)].
    - rewrite K. cbn [Z.eqb]. split; [apply k18_refl|]. split; [lia|]. split; [exact A3|]. intros; lia.
    - destruct (Z.eqb_spec (accusations a (t_complaints c)) 0); [lia|].
      cbn zeta in B4. destruct B4 as [(r & R1 & R2 & -> & ->)|(R1 & R2 & R3)].
      + split; [eapply k18_trans; [apply k18_last|]; apply (k18_cheaters (tp_last_set ca l)); cbn; lia|]. split; [reflexivity|]. split; [lia|]. intros; lia.
      + destruct (keys_inv _ _ _ _ _ _ R2 _ _ _ _ _ R3) as (K1 & K2 & K3).
        split; [eapply k18_trans; [apply k18_last|exact K1]|]. split; [reflexivity|]. split; [lia|]. intros y Hy. apply (K3 y Hy). }
  destruct Q as (Q1 & Q2 & Q3 & Q4).
  apply (bodies_inv _ _ _ (t_complaints c)) in L3; [|intros i Hi; apply G2; lia| |exact Q3|lia|lia|rewrite Q2; f_equal; lia].
  2:{ rewrite (k_sid _ _ Q1), Sa. exact Hsid. }
  destruct L3 as (P1 & P2 & P3 & P4 & P5).
  exists ctr, ca, csa, cb, csb, pb, (map (fun x => mkCheater 18 7 (Mem.u8 (x / 256)) (Mem.u8 (Mem.u8 x)) 0) (filter (fun x => negb (x =? 65535)) cs2)), cs2, c2.
  split; [exact G'|]. split; [exact A1|]. split; [apply A4; lia|]. split; [intros y Hy Hya; apply (A5 y Hy); lia|]. split; [exact L2|]. split; [exact A3|].
  split; [exact P1|]. split; [|split; [exact HU|reflexivity]].
  intros y Hy. destruct (A5 y Hy) as (A6 & _). specialize (Q4 y Hy). destruct (P5 y Hy) as (P6 & P7). split; [lia|]. split; [lia|].
  intros Hya. apply P7. lia.
Qed.

Lemma recv_of_accepted input off len pk sid msgno from to eps last now : accepted C input off len pk sid msgno from to eps last now ->
  len < 2 ^ 32 -> is_byte msgno -> is_byte from -> is_byte to -> zlen sid = 32 ->
  exists ts, recv_msg S input off len msgno from to pk sid eps last now = Ok (0, ts).
Proof. intros (m & ts & body & H1 & H2 & H3) ? ? ? ? ?. exists ts. eapply recv_signed; eassumption. Qed.
Lemma accepted_of_recv input off len pk sid msgno from to eps last now last' : 0 <= off -> 111 <= len ->
  recv_msg S input off len msgno from to pk sid eps last now = Ok (0, last') -> accepted C input off len pk sid msgno from to eps last now.
Proof.
  intros Ho Hl H. destruct (recv_rd _ _ _ _ _ _ _ _ _ _ _ _ _ _ H eq_refl Ho Hl) as (m & Hm).
  destruct (recv_accepted _ _ _ _ _ _ _ _ _ _ _ _ _ _ Hm Hl H) as (_ & F & body & Hb). exists m, last', body. auto.
Qed.

Lemma accusations_In (n : Z) x l : In x l -> 0 < accusations (accused_of x) l.
Proof.
  intros H. unfold accusations. apply in_split in H. destruct H as (l1 & l2 & ->). rewrite filter_app, zlen_app. cbn [filter].
  rewrite Z.eqb_refl. rewrite zlen_cons. pose proof (zlen_nonneg (filter (fun y => accused_of y =? accused_of x) l1)).
  pose proof (zlen_nonneg (filter (fun y => accused_of y =? accused_of x) l2)). lia.
Qed.

Lemma occ_one (l : list Z) x : NoDup l -> In x l -> occ l x = 1%nat.
Proof. intros H Hi. apply NoDup_count_occ'; assumption. Qed.

Lemma not_marker n x : n <= 128 -> complaint_ok n x -> x <> 65535.
Proof. intros Hn (H1 & H2) ->. unfold complainer_of, accused_of in *. change (65535 / 256) with 255 in H1. lia. Qed.

(** an answered complaint: one entry [ch] for the key *)
Lemma complaint_key (P : cheater -> Prop) e c input out c' out' a b key :
  tp_wf c -> Forall (complaint_ok (t_n c)) (t_complaints c) -> NoDup (t_complaints c) -> t_step c = 7 ->
  tp_next C e c input out = Ok (3, c', out') -> 1 <= a <= t_n c -> 1 <= b <= t_n c -> In (b * 256 + a) (t_complaints c) ->
  reveal_accepted C e c input a -> answers c input a b key ->
  (forall k c3 cs3 c4 cs4, tp_step18_key C e input (reveal_off (t_complaints c) a) (a - 1) k (c3, cs3) = Ok (Next (c4, cs4)) ->
     getz input (reveal_off (t_complaints c) a + 111 + 33 * k) = Ok (zb b) -> getz input (reveal_off (t_complaints c) a + off_from) = Ok (zb a) ->
     rd input (reveal_off (t_complaints c) a + 111 + 33 * k + 1) 32 = Ok key -> k18 c c3 -> In (b * 256 + a) cs3 ->
     exists ch, t_cheaters c4 = t_cheaters c3 ++ [ch] /\ ch_error ch <> 7 /\ P ch) ->
  exists new, recorded c c' new /\ (exists ch, In ch new /\ P ch) /\ ~ In (mkCheater 18 7 b a 0) new.
Proof.
  intros W Hok Hnd Hs H Ha Hb Hin (pk & last & RA1 & RA2 & RA3) (k & (K1 & K2) & K3 & K4) HP.
  set (x := b * 256 + a) in *. pose proof (w_n c W) as Hn. pose proof (w_sid c W) as Hsid.
  destruct (pair_parts b a ltac:(lia)) as (X1 & X2). fold x in X1, X2.
  assert (Hx : x <> 65535) by (apply (not_marker (t_n c)); [lia|]; rewrite Forall_forall in Hok; auto).
  destruct (step18_split e c input out c' out' W Hok Hnd Hs H a Ha) as (ctr & ca & csa & cb & csb & pb & new2 & cs2 & c2 & S1 & S2 & S3 & S4 & S5 & S6 & S7 & S8 & S9 & S10).
  assert (Hacc : 0 < accusations a (t_complaints c)) by (rewrite <- X2; apply (accusations_In (t_n c)); exact Hin).
  assert (Hacc2 : accusations a (t_complaints c) <= t_n c) by (apply (accusations_bound (t_n c) a _ ltac:(lia) Hok Hnd)).
  apply (body_step _ _ _ _ _ _ _ _ _ _ (accusations a (t_complaints c))) in S5; [|apply S1; lia|lia|rewrite (k_sid _ _ S2); exact Hsid|exact S6|lia].
  replace (a - 1 + 1) with a in S5 by lia. destruct S5 as [(? & _)|(_ & -> & pk0 & last0 & last' & l & B1 & B2 & B3 & B4)]; [lia|].
  rewrite (k_pks _ _ S2) in B1. rewrite S3 in B2. assert (pk0 = pk) by congruence. assert (last0 = last) by congruence. subst pk0 last0.
  unfold reveal_size in RA3. rewrite (proj2 (Z.eqb_neq _ 0)) in RA3 by lia.
  destruct (recv_of_accepted _ _ _ _ _ _ _ _ _ _ _ RA3 ltac:(lia) ltac:(unfold is_byte; lia) ltac:(unfold is_byte; lia) ltac:(unfold is_byte; lia) Hsid) as (ts & HR).
  cbn zeta in B4. rewrite (k_sid _ _ S2), (k_eps _ _ S2) in B4.
  destruct B4 as [(r & R1 & R2 & _)|(_ & Hf & HL)]; [rewrite HR in R1; injection R1 as <- _; lia|].
  replace (Z.to_nat (accusations a (t_complaints c))) with (Z.to_nat k + Datatypes.S (Z.to_nat (accusations a (t_complaints c) - k - 1)))%nat in HL by lia.
  rewrite zrange_app, zrange_S, loopM_app in HL. apply bind_ok in HL. destruct HL as (r1 & L1 & L2). destruct r1 as [[c3 cs3]|]; [|discriminate].
  cbn [loopM] in L2. apply bind_ok in L2. destruct L2 as (r2 & L2 & L3). destruct r2 as [[c4 cs4]|]; [|discriminate].
  replace (0 + Z.of_nat (Z.to_nat k)) with k in L2, L3 by lia.
  destruct (keys_inv _ _ _ _ _ _ Hf _ _ _ _ _ L1) as (P1 & _ & P2). destruct (keys_inv _ _ _ _ _ _ Hf _ _ _ _ _ L3) as (P3 & _ & P4).
  assert (Ba : forall z, 1 <= z <= t_n c -> bz (zb z) = z) by (intros z Hz; apply bz_zb_small; lia).
  assert (O3 : occ cs3 x = 1%nat).
  { rewrite (proj2 (P2 x Hx)).
    - rewrite S4 by assumption. apply occ_one; assumption.
    - intros k' b' Hk' Hb' E. rewrite Ba in E by lia. pose proof (Bytes.bz_range b'). assert (bz b' = b) by (unfold x in E; lia).
      apply (K3 k'); [lia|]. split; [lia|]. rewrite Hb'. f_equal. rewrite <- (zb_bz b'). congruence. }
  assert (I3 : In x cs3) by (apply (count_occ_In Z.eq_dec); lia).
  assert (K03 : k18 c c3) by (eapply k18_trans; [exact S2|]; eapply k18_trans; [apply (k18_last ca l)|exact P1]).
  pose proof (key_step _ _ _ _ _ _ _ _ _ _ L2 K2 Hf) as (T1 & _ & _ & _ & T5). rewrite !Ba in T5 by lia. fold x in T5. cbn [ctl_state fst snd] in *.
  specialize (T5 I3 Hx).
  destruct (HP _ _ _ _ _ L2 K2 Hf K4 K03 I3) as (ch & V2 & V3 & V4).
  assert (K4c : k18 c4 c2) by (eapply k18_trans; eassumption).
  destruct (k_new _ _ K03) as (n1 & E1 & F1). destruct (k_new _ _ K4c) as (n2 & E2 & F2).
  exists (n1 ++ [ch] ++ n2 ++ new2).
  split; [unfold recorded; rewrite S9, E2, V2, E1, <- !app_assoc; reflexivity|]. split.
  - exists ch. split; [rewrite !in_app_iff; cbn; auto|exact V4].
  - rewrite !in_app_iff. cbn [In]. rewrite Forall_forall in F1, F2. intros [HI|[[HI|[]]|[HI|HI]]].
    + apply (F1 _ HI). reflexivity.
    + subst ch. apply V3. reflexivity.
    + apply (F2 _ HI). reflexivity.
    + rewrite S10 in HI. apply in_map_iff in HI. destruct HI as (y & Ey & Hy). apply filter_In in Hy. destruct Hy as (Hy & Hm).
      apply negb_true_iff, Z.eqb_neq in Hm. assert (y = x).
      { destruct (S8 y Hm) as (_ & Hle & _). assert (In y (t_complaints c)) by (apply (count_occ_In Z.eq_dec); apply (count_occ_In Z.eq_dec) in Hy; lia).
        rewrite Forall_forall in Hok. destruct (Hok y ltac:(assumption)) as (Y1 & Y2). unfold complainer_of, accused_of in Y1, Y2.
        unfold Mem.u8 in Ey. injection Ey as E3 E4. rewrite Z.mod_mod in E4 by lia. rewrite (Z.mod_small (y / 256)) in E3 by lia.
        pose proof (Z.div_mod y 256 ltac:(lia)). unfold x. change (2 ^ 8) with 256 in E4. lia. }
      subst y. apply (count_occ_In Z.eq_dec) in Hy. destruct (S8 x Hx) as (Hle & _ & _). destruct (P4 x Hx) as (Hle2 & _). lia.
Qed.

(** ... with a key that opens the share *)
Lemma complaint_answered e c input out c' out' a b key sh row :
  crypto_ok C -> tp_wf c -> Forall (complaint_ok (t_n c)) (t_complaints c) -> NoDup (t_complaints c) -> t_step c = 7 ->
  tp_next C e c input out = Ok (3, c', out') -> 1 <= a <= t_n c -> 1 <= b <= t_n c -> In (b * 256 + a) (t_complaints c) ->
  reveal_accepted C e c input a -> answers c input a b key -> share_kept C c a b -> opens C c a b key sh -> s_index sh = b ->
  getz (t_com c) (a - 1) = Ok row ->
  exists new, recorded c c' new /\
    (exists ch, In ch new /\ ch_step ch = 18 /\ ch_peer ch = a /\ ch_other ch = b /\
      ((a = b \/ matches (cR C) b row (s_value sh)) -> blames ch = b) /\
      (~ (a = b \/ matches (cR C) b row (s_value sh)) -> blames ch = a)) /\
    ~ In (mkCheater 18 7 b a 0) new.
Proof.
  intros Cok W Hok Hnd Hs H Ha Hb Hin RA An SK Op Hidx Hrow. pose proof (w_n c W) as Hn. pose proof (w_sid c W) as Hsid.
  refine (complaint_key _ e c input out c' out' a b key W Hok Hnd Hs H Ha Hb Hin RA An _).
  intros k c3 cs3 c4 cs4 L2 K2 Hf K4 K03 I3.
  destruct (key_verdict _ _ _ _ _ _ _ _ _ a b key sh row L2 K2 Hf ltac:(lia) ltac:(lia) I3) as (ret & V1 & V2).
  { rewrite (k_sid _ _ K03). exact Hsid. }
  { unfold share_kept in *. rewrite (k_pks _ _ K03), (k_enc _ _ K03), (k_n _ _ K03), (k_sid _ _ K03), (k_eps _ _ K03). exact SK. }
  { exact K4. }
  { unfold opens in *. rewrite (k_enc _ _ K03), (k_n _ _ K03). exact Op. }
  { exact Hidx. }
  { rewrite (k_com _ _ K03). exact Hrow. }
  exists (mkCheater 18 (128 + ret) a b 0). split; [exact V2|]. split; [cbn; pose proof (verify_ret _ _ _ _ _ _ V1); lia|].
  split; [reflexivity|]. split; [reflexivity|]. split; [reflexivity|].
  destruct (Z.eq_dec a b) as [Eab|Nab].
  + unfold dkg_verify_commitment in V1. rewrite (proj2 (Z.eqb_eq a b) Eab) in V1. injection V1 as <-. split; [reflexivity|tauto].
  + assert (Hr : row <> []).
    { intros ->. pose proof (w_rows c W) as WR. rewrite Forall_forall in WR. apply getz_In in Hrow. specialize (WR _ Hrow). pose proof (w_t c W). change (zlen []) with 0 in WR. lia. }
    destruct (verify_classify (cR C) (ok_cR C Cok) b a row sh ltac:(unfold index_ok; lia) Nab Hr) as (ret' & V3 & V4 & V5 & V6).
    rewrite V1 in V3. injection V3 as <-. split.
    * intros [?|HM]; [contradiction|]. apply V5 in HM. subst ret. reflexivity.
    * intros HM. destruct V4 as [ -> | [ -> | -> ] ]; [exfalso; apply HM; right; apply V5; reflexivity|reflexivity|reflexivity].
Qed.

(** ... with anything else *)
Lemma key_bad e input p i k c cs c' cs' a b key : tp_step18_key C e input p i k (c, cs) = Ok (Next (c', cs')) ->
  getz input (p + 111 + 33 * k) = Ok (zb b) -> getz input (p + off_from) = Ok (zb a) -> 0 <= a < 256 -> 0 <= b < 256 ->
  In (b * 256 + a) cs -> zlen (t_sid c) = 32 -> share_kept C c a b -> rd input (p + 111 + 33 * k + 1) 32 = Ok key ->
  (forall sh, opens C c a b key sh -> s_index sh <> b) ->
  exists ch, t_cheaters c' = t_cheaters c ++ [ch] /\ ch_error ch <> 7 /\ ch_step ch = 18 /\ ch_peer ch = a /\ ch_other ch = b /\ blames ch = a.
Proof.
  intros H Hb Hf Ha2 Hb2 Hin Hsid (pk & m & ts & body & K1 & K2 & K3 & K4 & K5 & K6) Hkey Hbad.
  unfold tp_step18_key in H. unfold noise_key_SIZE in H. change (1 + 32) with 33 in H.
  rewrite hdr_val in H. rewrite Hb in H. cbn [bind] in H. rewrite Hf in H. cbn [bind] in H. cbn zeta in H.
  rewrite !bz_zb_small in H by assumption.
  destruct (find_pair_In _ _ 0 Hin) as (j & F). rewrite F in H.
  apply bind_ok in H. destruct H as (cs1 & Hu & H). fold (share_off (t_n c) a b) in H.
  destruct (signed_ts _ _ _ _ _ _ _ _ _ _ _ K2 Hsid K3) as (T1 & _). rewrite T1 in H. cbn [bind] in H. rewrite K1 in H. cbn [bind] in H.
  assert (Hts : is_u64 ts) by (destruct K3 as (? & ? & ? & _); assumption).
  rewrite ntohll_of_le in H by apply zlen_be. rewrite of_be_be in H by exact Hts.
  rewrite (recv_signed S (t_enc c) _ msg8_SIZE m 8 a b pk (t_sid c) (t_eps c) ts ts _ body K2) in H;
    [|reflexivity|unfold is_byte; lia|exact Ha2|exact Hb2|exact Hsid|exact K3|].
  2:{ unfold fresh. destruct (Z.eqb_spec ts 0); [lia|]. rewrite Z.mod_small by lia. lia. }
  cbn [bind Z.eqb negb] in H. rewrite Hkey in H. cbn [bind] in H.
  change (share_SIZE + mac_SIZE) with 49 in H. change hs3_SIZE with 64 in H. change hmac_SIZE with 32 in H.
  rewrite <- !(Z.add_assoc (_ + 64)) in H. change (share_SIZE + mac_SIZE) with 49 in H.
  apply bind_ok in H. destruct H as (mac & O2 & H). apply bind_ok in H. destruct H as (ct & O1 & H).
  assert (Fin : forall error, error <> 7 -> snd (cheater_msg (mkCheater 18 error a b 0)) = a ->
    match add_cheater c 18 error a b with None => Ok (Return 4 (c, cs1)) | Some c2 => Ok (Next (c2, cs1)) end = Ok (Next (c', cs')) ->
    exists ch, t_cheaters c' = t_cheaters c ++ [ch] /\ ch_error ch <> 7 /\ ch_step ch = 18 /\ ch_peer ch = a /\ ch_other ch = b /\ blames ch = a).
  { intros error He Hm Hr. destruct (add_cheater _ _ _ _ _) eqn:Ea in Hr; [|discriminate]. injection Hr as -> _. apply add_cheater_inv in Ea. destruct Ea as (_ & ->).
    exists (mkCheater 18 error a b 0). cbn [t_cheaters tp_cheaters_set]. unfold Mem.u8. rewrite !Z.mod_small by lia. auto 10. }
  destruct (bytes_eqb mac (c_auth C key ct)) eqn:Em; cbn [negb] in H.
  2:{ apply (Fin 3); [lia|reflexivity|exact H]. }
  apply bytes_eqb_eq in Em. subst mac. destruct (nz_aead_decrypt (cN C) key ct) as [pt|] eqn:Ep.
  2:{ apply (Fin 4); [lia|reflexivity|exact H]. }
  assert (HO : opens C c a b key (share_of pt)) by (exists ct, pt; auto). specialize (Hbad _ HO).
  rewrite (proj2 (Z.eqb_neq _ _) Hbad) in H. cbn [negb] in H.
  destruct (add_cheater c 18 5 a b) as [c1|] eqn:Ea; [|discriminate]. apply add_cheater_inv in Ea. destruct Ea as (_ & ->).
  cbn [t_cheaters tp_cheaters_set] in H. rewrite zlen_app in H. change (zlen [mkCheater 18 5 (Mem.u8 a) (Mem.u8 b) 0]) with 1 in H.
  replace (zlen (t_cheaters c) + 1 - 1) with (zlen (t_cheaters c)) in H by lia. rewrite (getz_mid (t_cheaters c) _ []) in H by reflexivity. cbn [bind] in H.
  rewrite (updz_mid (t_cheaters c) _ []) in H by reflexivity. cbn [bind] in H. injection H as <- _. cbn [t_cheaters tp_cheaters_set].
  eexists. split; [reflexivity|]. cbn [ch_step ch_error ch_peer ch_other ch_invalid]. unfold Mem.u8. rewrite !Z.mod_small by lia. split; [lia|]. auto.
Qed.

Lemma complaint_bad_key e c input out c' out' a b key :
  tp_wf c -> Forall (complaint_ok (t_n c)) (t_complaints c) -> NoDup (t_complaints c) -> t_step c = 7 ->
  tp_next C e c input out = Ok (3, c', out') -> 1 <= a <= t_n c -> 1 <= b <= t_n c -> In (b * 256 + a) (t_complaints c) ->
  reveal_accepted C e c input a -> answers c input a b key -> share_kept C c a b -> (forall sh, opens C c a b key sh -> s_index sh <> b) ->
  exists new, recorded c c' new /\
    (exists ch, In ch new /\ ch_step ch = 18 /\ ch_peer ch = a /\ ch_other ch = b /\ blames ch = a) /\ ~ In (mkCheater 18 7 b a 0) new.
Proof.
  intros W Hok Hnd Hs H Ha Hb Hin RA An SK Op. pose proof (w_n c W) as Hn. pose proof (w_sid c W) as Hsid.
  refine (complaint_key _ e c input out c' out' a b key W Hok Hnd Hs H Ha Hb Hin RA An _).
  intros k c3 cs3 c4 cs4 L2 K2 Hf K4 K03 I3.
  refine (key_bad _ _ _ _ _ _ _ _ _ a b key L2 K2 Hf ltac:(lia) ltac:(lia) I3 _ _ K4 _).
  - rewrite (k_sid _ _ K03). exact Hsid.
  - unfold share_kept in *. rewrite (k_pks _ _ K03), (k_enc _ _ K03), (k_n _ _ K03), (k_sid _ _ K03), (k_eps _ _ K03). exact SK.
  - unfold opens in *. rewrite (k_enc _ _ K03), (k_n _ _ K03). exact Op.
Qed.

(** an unanswered complaint *)
Lemma complaint_unanswered e c input out c' out' a b :
  tp_wf c -> Forall (complaint_ok (t_n c)) (t_complaints c) -> NoDup (t_complaints c) -> t_step c = 7 ->
  tp_next C e c input out = Ok (3, c', out') -> 1 <= a <= t_n c -> 1 <= b <= t_n c -> In (b * 256 + a) (t_complaints c) ->
  ~ reveal_accepted C e c input a \/ no_answer c input a b ->
  exists new, recorded c c' new /\ In (mkCheater 18 7 b a 0) new.
Proof.
  intros W Hok Hnd Hs H Ha Hb Hin Hno.
  set (x := b * 256 + a) in *. pose proof (w_n c W) as Hn. pose proof (w_sid c W) as Hsid.
  destruct (pair_parts b a ltac:(lia)) as (X1 & X2). fold x in X1, X2.
  assert (Hx : x <> 65535) by (apply (not_marker (t_n c)); [lia|]; rewrite Forall_forall in Hok; auto).
  destruct (step18_split e c input out c' out' W Hok Hnd Hs H a Ha) as (ctr & ca & csa & cb & csb & pb & new2 & cs2 & c2 & S1 & S2 & S3 & S4 & S5 & S6 & S7 & S8 & S9 & S10).
  assert (Hacc : 0 < accusations a (t_complaints c)) by (rewrite <- X2; apply (accusations_In (t_n c)); exact Hin).
  apply (body_step _ _ _ _ _ _ _ _ _ _ (accusations a (t_complaints c))) in S5; [|apply S1; lia|lia|rewrite (k_sid _ _ S2); exact Hsid|exact S6|lia].
  replace (a - 1 + 1) with a in S5 by lia. destruct S5 as [(? & _)|(_ & -> & pk0 & last0 & last' & l & B1 & B2 & B3 & B4)]; [lia|].
  rewrite (k_pks _ _ S2) in B1. rewrite S3 in B2. cbn zeta in B4. rewrite (k_sid _ _ S2), (k_eps _ _ S2) in B4.
  assert (O1 : occ csa x = 1%nat) by (rewrite S4 by assumption; apply occ_one; assumption).
  assert (Q : occ csb x = 1%nat /\ k18 ca cb).
  { destruct B4 as [(r & R1 & R2 & -> & ->)|(HR & Hf & HL)].
    - split; [exact O1|]. eapply k18_trans; [apply (k18_last ca l)|]. apply (k18_cheaters (tp_last_set ca l)). cbn. lia.
    - destruct (keys_inv _ _ _ _ _ _ Hf _ _ _ _ _ HL) as (P1 & _ & P2). split; [|eapply k18_trans; [apply (k18_last ca l)|exact P1]].
      rewrite (proj2 (P2 x Hx)); [exact O1|]. intros k b' Hk Hb' E. destruct Hno as [Hno|Hno].
      + apply Hno. exists pk0, last0. split; [exact B1|]. split; [exact B2|]. unfold reveal_size. rewrite (proj2 (Z.eqb_neq _ 0)) by lia.
        eapply accepted_of_recv; [exact S6|lia|exact HR].
      + rewrite (bz_zb_small a) in E by lia. pose proof (Bytes.bz_range b'). assert (bz b' = b) by (unfold x in E; lia).
        apply (Hno k). split; [lia|]. rewrite Hb'. f_equal. rewrite <- (zb_bz b'). congruence. }
  destruct Q as (O2 & K1). destruct (S8 x Hx) as (_ & _ & O3). specialize (O3 X2). rewrite O2 in O3.
  assert (K : k18 c c2) by (eapply k18_trans; [exact S2|]; eapply k18_trans; [exact K1|exact S7]). destruct (k_new _ _ K) as (n1 & E1 & _).
  exists (n1 ++ new2). split; [unfold recorded; rewrite S9, E1, app_assoc; reflexivity|]. apply in_or_app. right. rewrite S10.
  apply in_map_iff. exists x. split.
  - unfold Mem.u8. change (2 ^ 8) with 256. rewrite Z.mod_mod by lia. unfold complainer_of, accused_of in X1, X2. rewrite X1, X2, Z.mod_small by lia. reflexivity.
  - apply filter_In. split; [apply (count_occ_In Z.eq_dec); lia|]. apply negb_true_iff, Z.eqb_neq. exact Hx.
Qed.

Lemma unanswered_blames_complainer e c input out c' out' a b :
  tp_wf c -> Forall (complaint_ok (t_n c)) (t_complaints c) -> NoDup (t_complaints c) -> t_step c = 7 ->
  tp_next C e c input out = Ok (3, c', out') -> 1 <= a <= t_n c -> 1 <= b <= t_n c -> In (b * 256 + a) (t_complaints c) ->
  ~ reveal_accepted C e c input a \/ no_answer c input a b ->
  exists new, recorded c c' new /\ exists ch, In ch new /\ ch_step ch = 18 /\ ch_error ch = 7 /\ ch_peer ch = b /\ ch_other ch = a /\ blames ch = b.
Proof.
  intros W Hok Hnd Hs H Ha Hb Hin Hno. destruct (complaint_unanswered e c input out c' out' a b W Hok Hnd Hs H Ha Hb Hin Hno) as (new & R & I).
  exists new. split; [exact R|]. exists (mkCheater 18 7 b a 0). split; [exact I|]. repeat split.
Qed.
End BLAME.
