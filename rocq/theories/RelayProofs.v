(** C101: what the relay of Relay.v achieves.  Each peer sees an honest session in which the other peers
    have the relay's keys; the trusted party sees an honest session in which the handshakes are those the
    peers have with the relay. *)
From Coq Require Import ZArith Lia List Bool.
From Coq.Strings Require Import Byte.
From Verif Require Import PrimeL Bytes Res Mem Sodium Fq ToprfModel ToprfSpec DkgModel DkgSpec DkgProofs WireModel WireSpec WireProofs TpCrypto TpModel PeerModel
  TpFrame PeerFrame TpRun TpSpec TpMsg TpContent TpControl TpAgree TpStart SafeSpec PeerSelf RunSpec HonestMsg HonestState HonestTp HonestPeer HonestRun HonestWorld Honest
  MitmSpec Mitm OutsiderSpec Relay.
Import ListNotations.
Open Scope list_scope.
Open Scope Z_scope.

Lemma firstn_incl {A} k (l : list A) y : In y (firstn k l) -> In y l.
Proof. intros H. rewrite <- (firstn_skipn k l). apply in_or_app. left. exact H. Qed.
Lemma firstn_NoDup {A} k : forall l : list A, NoDup l -> NoDup (firstn k l).
Proof.
  induction k as [|k IH]; intros l H; [constructor|]. destruct l as [|a l]; [constructor|]. inversion H as [|? ? H1 H2]; subst. cbn [firstn]. constructor; [|apply IH; exact H2].
  intros I. apply H1. eapply firstn_incl. exact I.
Qed.
Lemma inhabited_noise C : crypto_ok C -> inhabited (nz_dev (cN C) * nz_sess (cN C)).
Proof.
  intros HC. pose proof (ok_cN C HC) as HN.
  destruct (ok_nz_create (cN C) HN 0 []) as (d0 & D0 & Ds & Dp). pose proof (reach_create (cN C) _ _ _ D0) as R0.
  destruct (ok_nz_add (cN C) HN d0 0 (nz_pk (cN C) (nz_static (cN C) d0)) R0 (ok_nz_pk_len (cN C) HN _)) as (d1 & id & E1 & E2 & E3); [rewrite Dp; unfold zlen; cbn [length]; lia|rewrite Dp; intros []|].
  pose proof (reach_add (cN C) _ _ _ _ _ R0 (ok_nz_pk_len (cN C) HN _) E1) as R1. rewrite Dp in E3. cbn [app] in E3.
  destruct (ok_nz_chain (cN C) HN d1 d1 id [] [] [] R1 R1) as (si & _); [unfold zlen; cbn [length]; lia|rewrite E3, E2; left; reflexivity|rewrite E3; cbn; constructor; [intros []|constructor]|rewrite E3, E2; left; reflexivity|].
  constructor. exact (d0, si).
Qed.

Section RELAYED.
Variable C : crypto.
Hypothesis HC : crypto_ok C.
Variable x : ceremony C.
Variable w : sched.
Hypothesis HH : RunSpec.honest C x w.
Variables rsk rnsk : Z -> Z -> bytes.
Variable rnd : bytes.
Variable d0 : nz_dev (cN C).
Variable s0 : nz_sess (cN C).
Variable msg0 : bytes.
Notation N := (cN C).
Notation n := (h_n C x).
Notation t := (h_t C x).
Notation tr0 := (update_transcript str_transcript msg0).
Hypothesis Hkeys : relay_keys C x w rnsk.

(** ** what peer i believes *)
Definition pose (i j : Z) (e : penv) : penv :=
  mkPenv (pe_log e) (pe_r e) (pe_s e) (if j =? i then pe_sk e else rsk i j) (if j =? i then pe_nsk e else rnsk i j)
    (if j =? i then pe_ri e else fun _ => rnd) (if j =? i then pe_rr e else fun _ => rnd) (pe_lock e) (pe_a e).
Definition wi (i : Z) : sched := mkSched (s_tp w) (fun j s => pose i j (s_peer w j s)) (s_buf w).
Lemma pose_own i e : pose i i e = e.
Proof. unfold pose. rewrite Z.eqb_refl. destruct e. reflexivity. Qed.
Lemma wi_ok i : 0 <= i < n -> RunSpec.honest C x (wi i).
Proof.
  intros Hi. constructor; [exact (hp_n C x w HH)|exact (hp_name C x w HH)|exact (hp_sid C x w HH)|exact (hp_msg0 C x w HH)|exact (hp_com C x w HH)|exact (hp_enc C x w HH)|exact (hp_pks C x w HH)|exact (hp_pb C x w HH)|exact (hp_out C x w HH)|exact (hp_clock C x w HH)|exact (hp_from_tp C x w HH)|exact (hp_to_tp C x w HH)|exact (hp_between C x w HH)|idtac|exact (hp_a C x w HH)|exact (hp_lock C x w HH)].
  intros j k Hj Hk Hjk. cbn [wi s_peer pose pe_nsk]. pose proof (Hkeys i j k Hi Hj Hk Hjk) as K.
  destruct (Z.eqb_spec j i) as [->|_]; destruct (Z.eqb_spec k i) as [->|_]; exact K.
Qed.
Definition V (i : Z) : world := W_ C x (wi i) d0 s0 tr0.
Lemma V_ok i : 0 <= i < n -> world_ok (V i).
Proof. intros Hi. apply (W_ok C HC x (wi i) (wi_ok i Hi)). Qed.
Notation lv i := (lk_ C x (wi i) d0 s0).
Lemma lv_ok i a b : 0 <= i < n -> 0 <= a < n -> 0 <= b < n ->
  link_ok C (devn C (wi i) d0 a (Z.to_nat (b + 1))) (devn C (wi i) d0 b (Z.to_nat n)) (idn C (wi i) d0 a (Z.to_nat b)) (pe_ri (s_peer (wi i) a 1) b) (pe_rr (s_peer (wi i) b 2) a)
    (share_bytes (mkShare (b + 1) (poly (pe_a (s_peer w a 3)) (b + 1) mod L))) (lv i a b).
Proof. intros Hi Ha Hb. exact (lk_ok C HC x (wi i) (wi_ok i Hi) d0 s0 a b Ha Hb). Qed.

(** ** what the trusted party believes *)
Definition lm (i j : Z) : link C :=
  let a := lv i i j in let b := lv j i j in
  mkLink C (l_o1 C a) (l_m1 C a) (l_r2 C b) (l_m2 C b) (l_o2 C a) (l_o3 C a) (l_m3 C a) (l_o4 C a) (l_ct C a) (l_key C a) (l_r3 C b) (l_r4 C b).
Definition linked (l : Z -> Z -> link C) (fl : Z -> list Z) : world :=
  mkWorld C w n t (h_sid C x) (h_sk C x) (h_eps C x) (h_now C x) (h_bufs C x) tr0 (t_prev (h_tp C x))
    (h_com C x) (h_enc C x) (h_chmax C x) (h_pks C x)
    (h_lt C x) (h_peps C x) (h_pb C x)
    (fun i => p_prev C (h_peer C x i)) (fun i => p_index C (h_peer C x i)) (fun i => p_sk C (h_peer C x i)) (fun i => p_noise_sk C (h_peer C x i)) (fun i => p_share C (h_peer C x i))
    (fun i k => devn C w d0 i (Z.to_nat k)) l fl.
Lemma relink l l' fl : half_ok (linked l fl) ->
  (forall i j, 0 <= i < n -> 0 <= j < n -> zlen (l_m1 _ (l' i j)) = 48) -> (forall i j, 0 <= i < n -> 0 <= j < n -> zlen (l_m2 _ (l' i j)) = 48) ->
  (forall i j, 0 <= i < n -> 0 <= j < n -> zlen (l_m3 _ (l' i j)) = 64) -> (forall i j, 0 <= i < n -> 0 <= j < n -> zlen (l_ct _ (l' i j)) = 49) -> half_ok (linked l' fl).
Proof.
  intros H0 H1 H2 H3 H4. constructor; [exact (hww_C _ H0)|exact (hww_n _ H0)|exact (hww_sid _ H0)|exact (hww_com _ H0)|exact (hww_enc _ H0)|exact (hww_pks _ H0)|exact (hww_out _ H0)|exact (hww_e _ H0)|exact (hww_p _ H0)|exact (hg_0 _ H0)|exact (hg_1 _ H0)|exact (hg_2 _ H0)|exact (hg_3 _ H0)|exact (hg_4 _ H0)|exact (hg_5 _ H0)|exact (hg_8 _ H0)|exact (hg_9 _ H0)|exact (hww_a _ H0)|exact (hww_fl _ H0)|exact H1|exact H2|exact H3|exact H4].
Qed.
Definition U : world := linked lm (fl_ C x w).
Lemma U_ok : half_ok U.
Proof.
  apply (relink (lk_ C x w d0 s0)).
  - exact (half_of _ (W_ok C HC x w HH d0 s0 tr0)).
  - intros i j Hi Hj. exact (lo_2 _ _ _ _ _ _ _ _ (lv_ok i i j Hi Hi Hj)).
  - intros i j Hi Hj. exact (lo_4 _ _ _ _ _ _ _ _ (lv_ok j i j Hj Hi Hj)).
  - intros i j Hi Hj. exact (lo_8 _ _ _ _ _ _ _ _ (lv_ok i i j Hi Hi Hj)).
  - intros i j Hi Hj. pose proof (lo_10 _ _ _ _ _ _ _ _ (lv_ok i i j Hi Hi Hj)) as E. rewrite zlen_share in E. exact E.
Qed.

(** ** what a peer sends is the same in both *)
Lemma sk_own i : HonestState.sk (V i) i = HonestState.sk U i.
Proof. unfold HonestState.sk. cbn [V W_ wW wi s_peer]. rewrite pose_own. reflexivity. Qed.
Lemma nsk_own i : HonestState.nsk (V i) i = HonestState.nsk U i.
Proof. unfold HonestState.nsk. cbn [V W_ wW wi s_peer]. rewrite pose_own. reflexivity. Qed.
Lemma sk_other i j : j <> i -> HonestState.sk (V i) j = rsk i j.
Proof. intros H. unfold HonestState.sk. cbn [V W_ wW wi s_peer pose pe_sk]. apply Z.eqb_neq in H. rewrite H. reflexivity. Qed.
Lemma nsk_other i j : j <> i -> HonestState.nsk (V i) j = rnsk i j.
Proof. intros H. unfold HonestState.nsk. cbn [V W_ wW wi s_peer pose pe_nsk]. apply Z.eqb_neq in H. rewrite H. reflexivity. Qed.
Ltac wcbn := cbn [V W_ U linked wC wW wn wt wsid wtsk weps wnow wbufs wtr0 wtpv wcom wenc wchmax wpks wlt wpeps wB wpv wix wsk0 wnsk0 wsh0 wdv wlk wfl wi s_tp s_buf s_peer pose pe_log pe_r pe_s pe_lock pe_a].
Lemma M2_own i : M2 (V i) i = M2 U i.
Proof. unfold M2, pk, npk. rewrite sk_own, nsk_own. unfold mk, st, lk, coms, co. wcbn. reflexivity. Qed.
Lemma M2s_own i : M2s (V i) i = M2s U i.
Proof. unfold M2s. rewrite M2_own. unfold mk, st, lk, coms, co. wcbn. reflexivity. Qed.
Lemma M4_own i j : M4 (V i) i j = M4 U i j.
Proof. unfold M4. rewrite sk_own. unfold mk, st, lk, coms, co. wcbn. reflexivity. Qed.
Lemma M5_own i j : M5 (V i) i j = M5 U i j.
Proof. unfold M5. rewrite sk_own. unfold mk, st, lk, coms, co. wcbn. reflexivity. Qed.
Lemma M6_own i : M6 (V i) i = M6 U i.
Proof. unfold M6. rewrite sk_own. unfold mk, st, lk, coms, co. wcbn. reflexivity. Qed.
Lemma M8_own i j : M8 (V i) i j = M8 U i j.
Proof. unfold M8, mac. rewrite sk_own. unfold mk, st, lk, coms, co. wcbn. reflexivity. Qed.
Lemma fl_same i : fl_ C x (wi i) = fl_ C x w.
Proof. unfold fl_, A_. wcbn. reflexivity. Qed.
Lemma M9_own i : M9 (V i) i = M9 U i.
Proof. unfold M9. rewrite sk_own. unfold mk, st. wcbn. rewrite fl_same. reflexivity. Qed.
Lemma M21_own i : M21 (V i) i = M21 U i.
Proof. unfold M21. rewrite sk_own. unfold mk, st, lk, coms, co. wcbn. reflexivity. Qed.

(** ** the relay's messages *)
Let Hn : 2 <= t < n /\ n <= 128 := hp_n C x w HH.
Let HS := ok_cS C HC.
Let Hsid : zlen (h_sid C x) = 32 := hp_sid C x w HH.
Notation mkm := (mk_msg (cS C) (h_sid C x)).
Lemma skipn_mk k a b c ts body : skipn 111 (mkm k a b c ts body) = body.
Proof.
  unfold mk_msg. cbv zeta. unfold message. set (g := sig_sign _ _ _). set (hd := header _ _ _ _ _ _). rewrite app_assoc.
  assert (E : length (g ++ hd) = 111%nat).
  { assert (Z : zlen (g ++ hd) = 111) by (unfold g, hd; rewrite zlen_app, (sig_zlen _ HS), (zlen_header _ _ _ _ _ _ Hsid); reflexivity). unfold zlen in Z. lia. }
  rewrite skipn_app, skipn_all2 by lia. rewrite E, Nat.sub_diag. reflexivity.
Qed.
Lemma again_mk i j k a b c ts old body : zlen body = zlen old -> again C rsk i j body (mkm k a b c ts old) = mkm (rsk i j) a b c ts body.
Proof.
  intros El. unfold again. assert (E : slice 64 47 (mkm k a b c ts old) = header a (111 + zlen old) b c ts (h_sid C x)).
  { unfold mk_msg. cbv zeta. apply rd_slice. unfold message. apply rd_mid; [apply (sig_zlen _ HS)|rewrite (zlen_header _ _ _ _ _ _ Hsid); reflexivity]. }
  rewrite E. unfold mk_msg, message. cbv zeta. rewrite El. reflexivity.
Qed.
Lemma each_0 sz body i f g : (forall j, 0 <= j < n -> zlen (f j) = sz) -> f i = g i ->
  (forall j, 0 <= j < n -> j <> i -> again C rsk i j (body i j (skipn 111 (f j))) (f j) = g j) -> each C n rsk 0 sz body i (blocks f n) = blocks g n.
Proof.
  intros Hz Hi Hj. unfold each. cbn [app]. change (slice 0 0 (blocks f n)) with (@nil byte). cbn [app]. change (blocks g n) with (concat (map g (zrange 0 (Z.to_nat n)))). f_equal. apply map_ext_in. intros j I. apply zrange_In in I.
  assert (J : 0 <= j < n) by lia. rewrite Z.add_0_l. cbv zeta. rewrite (rd_slice _ _ _ _ (rd_blocks f sz n j J Hz)).
  destruct (Z.eqb_spec j i) as [->|e]; [exact Hi|exact (Hj j J e)].
Qed.
Lemma each_111 sz body i k a b c ts f g : (forall j, 0 <= j < n -> zlen (f j) = sz) -> (forall j, 0 <= j < n -> zlen (g j) = sz) -> f i = g i ->
  (forall j, 0 <= j < n -> j <> i -> again C rsk i j (body i j (skipn 111 (f j))) (f j) = g j) ->
  each C n rsk 111 sz body i (mkm k a b c ts (blocks f n)) = mkm k a b c ts (blocks g n).
Proof.
  intros Hz Hz' Hi Hj. assert (Z1 : zlen (blocks f n) = n * sz) by (apply zlen_blocks; [lia|exact Hz]). assert (Z2 : zlen (blocks g n) = n * sz) by (apply zlen_blocks; [lia|exact Hz']).
  assert (Sp : forall u, mkm k a b c ts u = (sig_sign (cS C) k (header a (111 + zlen u) b c ts (h_sid C x)) ++ header a (111 + zlen u) b c ts (h_sid C x)) ++ u).
  { intros u. unfold mk_msg, message. cbv zeta. rewrite app_assoc. reflexivity. }
  rewrite !Sp, Z1, Z2. set (h := sig_sign _ _ _ ++ _). assert (Zh : zlen h = 111) by (unfold h; rewrite zlen_app, (sig_zlen _ HS), (zlen_header _ _ _ _ _ _ Hsid); reflexivity).
  unfold each. f_equal.
  - apply rd_slice. apply (rd_mid [] h (blocks f n)); [reflexivity|exact Zh].
  - rewrite <- (each_0 sz body i f g Hz Hi Hj). unfold each. change (slice 0 0 (blocks f n)) with (@nil byte). cbn [app]. f_equal. apply map_ext_in. intros j I. apply zrange_In in I.
    assert (J : 0 <= j < n) by lia. rewrite Z.add_0_l, (rd_slice _ _ _ _ (rd_blocks f sz n j J Hz)). cbv zeta.
    assert (E : slice (111 + j * sz) sz (h ++ blocks f n) = f j); [|rewrite E; reflexivity].
    apply rd_slice. pose proof (rd_blocks f sz n j J Hz) as R. assert (Ra : rd (h ++ blocks f n) 111 (zlen (blocks f n)) = Ok (blocks f n)).
    { rewrite <- (app_nil_r (h ++ blocks f n)), <- app_assoc. apply rd_mid; [exact Zh|reflexivity]. }
    pose proof (Hz j J) as Hzj. pose proof (zlen_nonneg (f j)). rewrite <- (rd_rd _ _ _ _ (j * sz) sz Ra) by nia. exact R.
Qed.

(** ** what it reads *)
Notation bel := (believed C rnsk).
Notation rdev := (dev C rnsk).
Section TRAFFIC.
Variable h : traffic.
Hypothesis S0 : sent h 0 = blocks (M2s U) n.
Lemma noise_key_read i : 0 <= i < n -> slice (i * 239 + 143) 32 (sent h 0) = nz_pk N (pe_nsk (s_peer w i 0)).
Proof.
  intros Hi. rewrite S0. apply rd_slice. pose proof (rd_blocks (M2s U) 239 n i Hi (fun j _ => z_M2s U U_ok j)) as R.
  rewrite <- (rd_rd _ _ _ _ 143 32 R) by lia. unfold M2s, M2, mk, mk_msg. cbv zeta. unfold message. rewrite <- !app_assoc. set (g := sig_sign _ _ _). set (hd := header _ _ _ _ _ _).
  rewrite (app_assoc g hd), (app_assoc _ (pk U i)). apply rd_mid.
  - unfold g, hd. rewrite !zlen_app. change (cS (wC U)) with (cS C). unfold pk. change (cS (wC U)) with (cS C). rewrite (sig_zlen _ HS), (pk_zlen _ HS), (zlen_header _ _ _ _ _ _ Hsid). reflexivity.
  - unfold npk. change (cN (wC U)) with N. apply (ok_nz_pk_len N (ok_cN C HC)).
Qed.
Lemma bel_key i k : 0 <= i < n -> bel h i k = key C (wi i) k.
Proof.
  intros Hi. unfold believed, key. cbn [wi s_peer pose pe_nsk]. destruct (Z.eqb_spec k i) as [->|e]; [apply noise_key_read; exact Hi|reflexivity].
Qed.
Lemma dev_read i j k : 0 <= i < n -> j <> i -> Z.of_nat k <= n -> rdev h i j k = Some (devn C (wi i) d0 j k).
Proof.
  intros Hi Hj. induction k as [|k IH]; intros Hk.
  - cbn [dev devn]. destruct (ok_nz_create N (ok_cN C HC) (j + 1) (rnsk i j)) as (d & E & _). cbn [wi s_peer pose pe_nsk]. apply Z.eqb_neq in Hj. rewrite Hj, E. reflexivity.
  - cbn [dev]. rewrite IH by lia. rewrite bel_key by exact Hi. rewrite (dev_add C HC x (wi i) (wi_ok i Hi) d0 j k) by lia. reflexivity.
Qed.
Lemma id_read i j : 0 <= i < n -> j <> i -> id_in C rnsk h i j = idn C (wi i) d0 j (Z.to_nat i).
Proof.
  intros Hi Hj. unfold id_in. rewrite dev_read by lia. rewrite bel_key by exact Hi. unfold idn. rewrite Z2Nat.id by lia. reflexivity.
Qed.
Lemma init1_read i j : 0 <= i < n -> 0 <= j < n -> j <> i -> init1 C rnsk rnd h i j = Some (l_o1 C (lv i j i), l_m1 C (lv i j i)).
Proof.
  intros Hi Hj e. unfold init1. rewrite dev_read, id_read by lia. destruct (lo_1 _ _ _ _ _ _ _ _ (lv_ok i j i Hi Hj Hi)) as (s & E1 & E2).
  cbn [wi s_peer pose pe_ri] in E1. apply Z.eqb_neq in e. rewrite e in E1. rewrite E1, E2. reflexivity.
Qed.

Lemma row_read k (M : Z -> Z -> bytes) size i j off len m : sent h k = blocks (fun i => blocks (M i) n) n -> 0 <= i < n -> 0 <= j < n ->
  (forall i j, 0 <= i < n -> 0 <= j < n -> zlen (M i j) = size) -> 0 <= off -> 0 <= len -> off + len <= size -> rd (M i j) off len = Ok m -> from_to n h k i j size off len = m.
Proof.
  intros Es Hi Hj Hz Ho Hl Hs R. unfold from_to. rewrite Es. apply rd_slice.
  assert (Hrow : forall i, 0 <= i < n -> zlen (blocks (M i) n) = n * size) by (intros; apply zlen_blocks; [lia|auto]).
  pose proof (rd_blocks (fun i => blocks (M i) n) (n * size) n i Hi Hrow) as R1. pose proof (rd_blocks (M i) size n j Hj (fun j Hj => Hz i j Hi Hj)) as R2.
  rewrite (rd_rd _ _ _ _ (j * size) size R1) in R2 by nia. replace ((i * n + j) * size + off) with (i * (n * size) + j * size + off) by lia.
  rewrite <- (rd_rd _ _ _ _ off len R2) by lia. exact R.
Qed.
Hypothesis S1 : sent h 1 = blocks (fun i => blocks (M4 U i) n) n.
Lemma resp_read i j : 0 <= i < n -> 0 <= j < n -> j <> i -> resp C n rnsk rnd h i j = Some (l_r2 C (lv i i j), l_m2 C (lv i i j)).
Proof.
  intros Hi Hj e. unfold resp. rewrite dev_read by lia.
  rewrite (row_read 1 (M4 U) 159 i j 111 48 (l_m1 C (lv i i j)) S1 Hi Hj (z_M4 U U_ok)); try lia.
  2: { pose proof (lo_2 _ _ _ _ _ _ _ _ (lv_ok i i j Hi Hi Hj)) as Z1. rewrite <- Z1. rewrite <- (Z.add_0_l 111). eapply (body_mk (cS C) HS (h_sid C x) Hsid _ _ 159). apply rd_all. apply (z_M4 U U_ok); assumption. }
  pose proof (lo_3 _ _ _ _ _ _ _ _ (lv_ok i i j Hi Hi Hj)) as R. cbn [wi s_peer pose pe_rr] in R. apply Z.eqb_neq in e. rewrite e in R. unfold answer.
  apply respond_inv in R. destruct R as (_ & R). destruct (R _ eq_refl) as (s & s1 & p1 & m2 & E1 & E2 & E3 & E4). rewrite E1, E2, E3. injection E4 as ->. reflexivity.
Qed.
Hypothesis S2 : sent h 2 = blocks (fun i => blocks (M5 U i) n) n.
Lemma init3_read i j : 0 <= i < n -> 0 <= j < n -> j <> i -> init3 C n rnsk rnd h i j = Some (l_o3 C (lv i j i), l_m3 C (lv i j i)).
Proof.
  intros Hi Hj e. unfold init3. rewrite init1_read by assumption.
  rewrite (row_read 2 (M5 U) 159 i j 111 48 (l_m2 C (lv i j i)) S2 Hi Hj (z_M5 U U_ok)); try lia.
  2: { pose proof (lo_4 _ _ _ _ _ _ _ _ (lv_ok i j i Hi Hj Hi)) as Z1. rewrite <- Z1. rewrite <- (Z.add_0_l 111). eapply (body_mk (cS C) HS (h_sid C x) Hsid _ _ 159). apply rd_all. apply (z_M5 U U_ok); assumption. }
  rewrite (lo_6 _ _ _ _ _ _ _ _ (lv_ok i j i Hi Hj Hi)), (lo_7 _ _ _ _ _ _ _ _ (lv_ok i j i Hi Hj Hi)). reflexivity.
Qed.
Hypothesis S4 : sent h 4 = blocks (fun i => blocks (M8 U i) n) n.
Lemma seen_read i j : 0 <= i < n -> 0 <= j < n -> j <> i -> seen C n rnsk rnd h i j = share_bytes (mkShare (j + 1) (poly (pe_a (s_peer w i 3)) (j + 1) mod L)).
Proof.
  intros Hi Hj e. unfold seen. rewrite resp_read by assumption. pose proof (lv_ok i i j Hi Hi Hj) as K.
  pose proof (lo_8 _ _ _ _ _ _ _ _ K) as Z1. pose proof (lo_10 _ _ _ _ _ _ _ _ K) as Z2. rewrite zlen_share in Z2.
  assert (Rm : rd (M8 U i j) 0 256 = Ok (M8 U i j)) by (apply rd_all; apply (z_M8 U U_ok); assumption).
  rewrite (row_read 4 (M8 U) 256 i j 111 64 (l_m3 C (lv i i j)) S4 Hi Hj (z_M8 U U_ok)); try lia.
  2: { apply (part_mk (cS C) HS (h_sid C x) Hsid _ 0 256 8 (i + 1) (j + 1) (HonestState.sk U i) (st U i 4 j) [] (l_m3 C (lv i i j)) (l_ct C (lv i i j) ++ mac U i j)); [exact Rm|reflexivity|lia]. }
  rewrite (row_read 4 (M8 U) 256 i j 175 49 (l_ct C (lv i i j)) S4 Hi Hj (z_M8 U U_ok)); try lia.
  2: { apply (part_mk (cS C) HS (h_sid C x) Hsid _ 0 256 8 (i + 1) (j + 1) (HonestState.sk U i) (st U i 4 j) (l_m3 C (lv i i j)) (l_ct C (lv i i j)) (mac U i j)); [exact Rm|lia|lia]. }
  unfold opened. rewrite (lo_12 _ _ _ _ _ _ _ _ K), (lo_14 _ _ _ _ _ _ _ _ K). reflexivity.
Qed.
Lemma passed_read i j : 0 <= i < n -> 0 <= j < n -> j <> i ->
  passed C n rnsk rnd h i j = l_m3 C (lv i j i) ++ l_ct C (lv i j i) ++ c_auth C (l_key C (lv i j i)) (l_ct C (lv i j i)).
Proof.
  intros Hi Hj e. unfold passed. rewrite init3_read, seen_read by (try assumption; lia). pose proof (lv_ok i j i Hi Hj Hi) as K.
  rewrite (lo_9 _ _ _ _ _ _ _ _ K), (lo_11 _ _ _ _ _ _ _ _ K). reflexivity.
Qed.
End TRAFFIC.
(** ** the peers *)
Lemma peer_own i s p m b r : peer_next C (s_peer (wi i) i s) p m b = r -> peer_next C (s_peer w i s) p m b = r.
Proof. cbn [wi s_peer]. rewrite pose_own. exact (fun H => H). Qed.
Lemma blocks_same f g : (forall j, f j = g j) -> blocks f n = blocks g n.
Proof. intros H. unfold blocks. f_equal. apply zmap_ext. intros. apply H. Qed.
Notation step i s P m P' o := (peer_next C (s_peer w i s) P m (s_buf w (i + 1) s (peer_output_size C P)) = Ok (0, P', o)).
Lemma M1_own i : M1 (V i) i = M1 U i.
Proof. unfold M1, mk. wcbn. reflexivity. Qed.
Lemma B20_own i : B20 (V i) = B20 U.
Proof. unfold B20, mk. wcbn. reflexivity. Qed.
Lemma q0 i : 0 <= i < n -> step i 0 (P0 (V i) i) (M1 U i) (P1 (V i) i) (M2s U i).
Proof. intros Hi. rewrite <- M2s_own, <- M1_own. apply peer_own. exact (next_P0 (V i) (V_ok i Hi) i Hi). Qed.
Lemma q1 i : 0 <= i < n -> step i 1 (P1 (V i) i) (B3 (V i)) (P2 (V i) i) (blocks (M4 U i) n).
Proof. intros Hi. rewrite <- (blocks_same (M4 (V i) i) (M4 U i) (M4_own i)). apply peer_own. exact (next_P1 (V i) (V_ok i Hi) i Hi). Qed.
Lemma q2 i : 0 <= i < n -> step i 2 (P2 (V i) i) (blocks (fun j => M4 (V i) j i) n) (P3 (V i) i) (blocks (M5 U i) n).
Proof. intros Hi. rewrite <- (blocks_same (M5 (V i) i) (M5 U i) (M5_own i)). apply peer_own. exact (next_P2 (V i) (V_ok i Hi) i Hi). Qed.
Lemma q3 i : 0 <= i < n -> step i 3 (P3 (V i) i) (blocks (fun j => M5 (V i) j i) n) (P4 (V i) i) (M6 U i).
Proof. intros Hi. rewrite <- M6_own. apply peer_own. exact (next_P3 (V i) (V_ok i Hi) i Hi). Qed.
Lemma q4 i : 0 <= i < n -> step i 4 (P4 (V i) i) (B7 (V i)) (P5 (V i) i) (blocks (M8 U i) n).
Proof. intros Hi. rewrite <- (blocks_same (M8 (V i) i) (M8 U i) (M8_own i)). apply peer_own. exact (next_P4 (V i) (V_ok i Hi) i Hi). Qed.
Lemma q5 i : 0 <= i < n -> step i 5 (P5 (V i) i) (blocks (fun j => M8 (V i) j i) n) (P6 (V i) i) (M9 U i).
Proof. intros Hi. rewrite <- M9_own. apply peer_own. exact (next_P5 (V i) (V_ok i Hi) i Hi). Qed.
Lemma q6 i : 0 <= i < n -> step i 6 (P6 (V i) i) (B10 (V i)) (P7 (V i) i) [].
Proof. intros Hi. apply peer_own. exact (next_P6 (V i) (V_ok i Hi) i Hi). Qed.
Lemma q7 i : 0 <= i < n -> step i 8 (P7 (V i) i) [] (P8 (V i) i) (M19 (V i) i).
Proof. intros Hi. apply peer_own. exact (next_P7 (V i) (V_ok i Hi) i Hi). Qed.
Lemma q8 i : 0 <= i < n -> step i 9 (P8 (V i) i) (B20 U) (P9 (V i) i) (M21 U i).
Proof. intros Hi. rewrite <- M21_own, <- (B20_own i). apply peer_own. exact (next_P8 (V i) (V_ok i Hi) i Hi). Qed.
Lemma q9 i : 0 <= i < n -> step i 10 (P9 (V i) i) [] (P10 (V i) i) [].
Proof. intros Hi. apply peer_own. exact (next_P9 (V i) (V_ok i Hi) i). Qed.

(** ** the rounds *)
Definition log : list (list bytes * bytes) :=
  [(zmap (M1 U) n, blocks (M2s U) n);
   (zmap (fun _ => B3 U) n, blocks (fun i => blocks (M4 U i) n) n);
   (zmap (fun i => blocks (fun j => M4 U j i) n) n, blocks (fun i => blocks (M5 U i) n) n);
   (zmap (fun i => blocks (fun j => M5 U j i) n) n, blocks (M6 U) n);
   (zmap (fun _ => B7 U) n, blocks (fun i => blocks (M8 U i) n) n);
   (zmap (fun i => blocks (fun j => M8 U j i) n) n, blocks (M9 U) n);
   (zmap (fun _ => B10 U) n, blocks (fun i => M19 (V i) i) n);
   (zmap (fun _ => B20 U) n, blocks (M21 U) n);
   (zmap (fun _ => []) n, [])].
Definition hist (k : nat) : traffic := mkTraffic msg0 (firstn k log).
Notation topeer := (to_peer C n t rsk rnsk rnd).

Ltac own_or Hx := cbv beta; first [reflexivity|exact Hx].
Lemma e1 i : 0 <= i < n -> topeer (hist 1) i (B3 U) = B3 (V i).
Proof.
  intros Hi. change (topeer (hist 1) i (B3 U)) with
    (each C n rsk 111 175 (fun i j _ => sig_pk (cS C) (rsk i j) ++ nz_pk N (rnsk i j)) i (mkm (h_sk C x) 3 0 255 (e_s (s_tp w 1) 0) (blocks (M2 U) n))).
  change (B3 (V i)) with (mkm (h_sk C x) 3 0 255 (e_s (s_tp w 1) 0) (blocks (M2 (V i)) n)). apply each_111.
  - intros j _. apply (z_M2 U U_ok).
  - intros j _. apply (z_M2 (V i) (V_ok i Hi)).
  - symmetry. apply M2_own.
  - intros j Hj e. change (M2 U j) with (mkm (HonestState.sk U j) 2 (j + 1) 255 (pe_s (s_peer w j 0) 0) (pk U j ++ npk U j)).
    change (M2 (V i) j) with (mkm (HonestState.sk (V i) j) 2 (j + 1) 255 (pe_s (s_peer w j 0) 0) (sig_pk (cS C) (HonestState.sk (V i) j) ++ nz_pk N (HonestState.nsk (V i) j))).
    rewrite sk_other, nsk_other by exact e. apply again_mk. unfold pk, npk. change (cS (wC U)) with (cS C). change (cN (wC U)) with N. rewrite !zlen_app, !(pk_zlen _ HS).
    rewrite !(ok_nz_pk_len N (ok_cN C HC)). reflexivity.
Qed.
Lemma e2 i : 0 <= i < n -> topeer (hist 2) i (blocks (fun j => M4 U j i) n) = blocks (fun j => M4 (V i) j i) n.
Proof.
  intros Hi. change (topeer (hist 2) i (blocks (fun j => M4 U j i) n)) with (each C n rsk 0 159 (fun i j _ => part C (init1 C rnsk rnd (hist 2) i j)) i (blocks (fun j => M4 U j i) n)). apply each_0.
  - intros j Hj. apply (z_M4 U U_ok); assumption.
  - symmetry. apply M4_own.
  - intros j Hj e. rewrite (init1_read (hist 2) eq_refl) by assumption. cbn [part].
    change (M4 U j i) with (mkm (HonestState.sk U j) 4 (j + 1) (i + 1) (pe_s (s_peer w j 1) i) (l_m1 C (lv j j i))).
    change (M4 (V i) j i) with (mkm (HonestState.sk (V i) j) 4 (j + 1) (i + 1) (pe_s (s_peer w j 1) i) (l_m1 C (lv i j i))).
    rewrite sk_other by exact e. apply again_mk. rewrite (lo_2 _ _ _ _ _ _ _ _ (lv_ok i j i Hi Hj Hi)), (lo_2 _ _ _ _ _ _ _ _ (lv_ok j j i Hj Hj Hi)). reflexivity.
Qed.
Lemma e3 i : 0 <= i < n -> topeer (hist 3) i (blocks (fun j => M5 U j i) n) = blocks (fun j => M5 (V i) j i) n.
Proof.
  intros Hi. change (topeer (hist 3) i (blocks (fun j => M5 U j i) n)) with (each C n rsk 0 159 (fun i j _ => part C (resp C n rnsk rnd (hist 3) i j)) i (blocks (fun j => M5 U j i) n)). apply each_0.
  - intros j Hj. apply (z_M5 U U_ok); assumption.
  - symmetry. apply M5_own.
  - intros j Hj e. rewrite (resp_read (hist 3) eq_refl eq_refl) by assumption. cbn [part].
    change (M5 U j i) with (mkm (HonestState.sk U j) 5 (j + 1) (i + 1) (pe_s (s_peer w j 2) i) (l_m2 C (lv j i j))).
    change (M5 (V i) j i) with (mkm (HonestState.sk (V i) j) 5 (j + 1) (i + 1) (pe_s (s_peer w j 2) i) (l_m2 C (lv i i j))).
    rewrite sk_other by exact e. apply again_mk. rewrite (lo_4 _ _ _ _ _ _ _ _ (lv_ok i i j Hi Hi Hj)), (lo_4 _ _ _ _ _ _ _ _ (lv_ok j i j Hj Hi Hj)). reflexivity.
Qed.
Lemma e4 i : 0 <= i < n -> topeer (hist 4) i (B7 U) = B7 (V i).
Proof.
  intros Hi. change (topeer (hist 4) i (B7 U)) with
    (each C n rsk 111 (111 + 32 * t) (fun _ _ m => m) i (mkm (h_sk C x) 7 0 255 (e_s (s_tp w 4) 0) (blocks (M6 U) n))).
  change (B7 (V i)) with (mkm (h_sk C x) 7 0 255 (e_s (s_tp w 4) 0) (blocks (M6 (V i)) n)). apply each_111.
  - intros j Hj. apply (z_M6 U U_ok). exact Hj.
  - intros j Hj. apply (z_M6 (V i) (V_ok i Hi)). exact Hj.
  - symmetry. apply M6_own.
  - intros j Hj e. set (cm := concat (commitments_of (cR C) (pe_a (s_peer w j 3)))). change (M6 U j) with (mkm (HonestState.sk U j) 6 (j + 1) 255 (pe_s (s_peer w j 3) 0) cm).
    change (M6 (V i) j) with (mkm (HonestState.sk (V i) j) 6 (j + 1) 255 (pe_s (s_peer w j 3) 0) cm).
    rewrite sk_other by exact e. rewrite skipn_mk. apply again_mk. reflexivity.
Qed.
Lemma e5 i : 0 <= i < n -> topeer (hist 5) i (blocks (fun j => M8 U j i) n) = blocks (fun j => M8 (V i) j i) n.
Proof.
  intros Hi. change (topeer (hist 5) i (blocks (fun j => M8 U j i) n)) with (each C n rsk 0 256 (fun i j _ => passed C n rnsk rnd (hist 5) i j) i (blocks (fun j => M8 U j i) n)). apply each_0.
  - intros j Hj. apply (z_M8 U U_ok); assumption.
  - symmetry. apply M8_own.
  - intros j Hj e. rewrite (passed_read (hist 5) eq_refl eq_refl eq_refl eq_refl) by assumption.
    change (M8 U j i) with (mkm (HonestState.sk U j) 8 (j + 1) (i + 1) (pe_s (s_peer w j 4) i) (l_m3 C (lv j j i) ++ l_ct C (lv j j i) ++ c_auth C (l_key C (lv j j i)) (l_ct C (lv j j i)))).
    change (M8 (V i) j i) with (mkm (HonestState.sk (V i) j) 8 (j + 1) (i + 1) (pe_s (s_peer w j 4) i) (l_m3 C (lv i j i) ++ l_ct C (lv i j i) ++ c_auth C (l_key C (lv i j i)) (l_ct C (lv i j i)))).
    rewrite sk_other by exact e. apply again_mk. pose proof (lv_ok i j i Hi Hj Hi) as K. pose proof (lv_ok j j i Hj Hj Hi) as K'.
    rewrite !zlen_app, (lo_8 _ _ _ _ _ _ _ _ K), (lo_8 _ _ _ _ _ _ _ _ K'), (lo_10 _ _ _ _ _ _ _ _ K), (lo_10 _ _ _ _ _ _ _ _ K').
    rewrite !(ok_auth_len C HC). reflexivity.
Qed.
Lemma e6 i : 0 <= i < n -> topeer (hist 6) i (B10 U) = B10 (V i).
Proof.
  intros Hi. change (topeer (hist 6) i (B10 U)) with
    (each C n rsk 111 (msg9_SIZE n) (fun _ _ m => m) i (mkm (h_sk C x) 10 0 255 (e_s (s_tp w 6) 0) (blocks (M9 U) n))).
  change (B10 (V i)) with (mkm (h_sk C x) 10 0 255 (e_s (s_tp w 6) 0) (blocks (M9 (V i)) n)). replace (msg9_SIZE n) with (112 + n) by (unfold msg9_SIZE, hdr_SIZE; lia). apply each_111.
  - intros j Hj. apply (z_M9 U U_ok). exact Hj.
  - intros j Hj. apply (z_M9 (V i) (V_ok i Hi)). exact Hj.
  - symmetry. apply M9_own.
  - intros j Hj e. change (M9 U j) with (mkm (HonestState.sk U j) 9 (j + 1) 255 (pe_s (s_peer w j 5) 0) (zb 0 :: map zb (fl_ C x w j))).
    change (M9 (V i) j) with (mkm (HonestState.sk (V i) j) 9 (j + 1) 255 (pe_s (s_peer w j 5) 0) (zb 0 :: map zb (fl_ C x (wi i) j))).
    rewrite fl_same. rewrite sk_other by exact e. rewrite skipn_mk. apply again_mk. reflexivity.
Qed.
Lemma e7 : to_tp C n (hist 7) (blocks (fun i => M19 (V i) i) n) = blocks (M19 U) n.
Proof.
  change (to_tp C n (hist 7) (blocks (fun i => M19 (V i) i) n)) with (concat (map (fun i => slice (i * 143) 111 (blocks (fun i => M19 (V i) i) n) ++ digest C (hist 7)) (zrange 0 (Z.to_nat n)))).
  unfold blocks at 2, zmap. f_equal. apply map_ext_in. intros i I. apply zrange_In in I. assert (Hi : 0 <= i < n) by lia.
  assert (Hz : forall j, 0 <= j < n -> zlen (M19 (V j) j) = 143) by (intros j Hj; apply (z_M19 (V j) (V_ok j Hj))).
  pose proof (rd_blocks (fun i => M19 (V i) i) 143 n i Hi Hz) as R.
  assert (D : digest C (hist 7) = blake2b (cH C) 32 (tr3 U)).
  { unfold digest. assert (Hd : forall b, hd [] (zmap (fun _ => b : bytes) n) = b).
    { intros b. unfold zmap. destruct (Z.to_nat n) eqn:E; [lia|]. reflexivity. }
    unfold said, hist, log. cbn [firstn nth tr_rounds fst tr_start]. rewrite !Hd. reflexivity. }
  rewrite D. set (h := header 20 143 (i + 1) 0 (pe_s (s_peer w i 8) 0) (h_sid C x)).
  assert (E : forall d : bytes, zlen d = 32 -> mkm (HonestState.sk U i) 20 (i + 1) 0 (pe_s (s_peer w i 8) 0) d = (sig_sign (cS C) (HonestState.sk U i) h ++ h) ++ d).
  { intros d Hd. unfold mk_msg, message. cbv zeta. rewrite Hd. change (111 + 32) with 143. fold h. rewrite app_assoc. reflexivity. }
  assert (Hb : forall y, zlen (blake2b (cH C) 32 y) = 32) by (intros y; apply (zlen_len _ 32), (ok_blake2b_len _ (ok_cH C HC))).
  change (M19 U i) with (mkm (HonestState.sk U i) 20 (i + 1) 0 (pe_s (s_peer w i 8) 0) (blake2b (cH C) 32 (tr3 U))). rewrite E by apply Hb. f_equal.
  apply rd_slice. rewrite <- (Z.add_0_r (i * 143)). rewrite <- (rd_rd _ _ _ _ 0 111 R) by lia.
  change (M19 (V i) i) with (mkm (HonestState.sk (V i) i) 20 (i + 1) 0 (pe_s (s_peer w i 8) 0) (blake2b (cH C) 32 (tr3 (V i)))). rewrite sk_own, E by apply Hb.
  apply (rd_mid []); [reflexivity|]. rewrite zlen_app, (sig_zlen _ HS). unfold h. rewrite (zlen_header _ _ _ _ _ _ Hsid). reflexivity.
Qed.
Notation rel := (relay C n t rsk rnsk rnd).
Lemma turn_from' (Pf Pg : Z -> peer C) (m o : Z -> bytes) k : forall a,
  (forall i, a <= i < a + Z.of_nat k -> peer_next C (s_peer w i (p_step C (Pf i))) (Pf i) (m i) (s_buf w (i + 1) (p_step C (Pf i)) (peer_output_size C (Pf i))) = Ok (0, Pg i, o i)) ->
  peers_turn C w a (map Pf (zrange a k)) (map m (zrange a k)) = Ok (Some (map Pg (zrange a k), concat (map o (zrange a k)))).
Proof.
  induction k as [|k IH]; intros a H; [reflexivity|]. rewrite !zrange_S. cbn [map peers_turn concat]. rewrite H by lia. cbn [bind Z.eqb negb]. rewrite IH by (intros i Hi; apply H; lia). reflexivity.
Qed.
Lemma turn' (Pf Pg : Z -> peer C) (m o : Z -> bytes) :
  (forall i, 0 <= i < n -> peer_next C (s_peer w i (p_step C (Pf i))) (Pf i) (m i) (s_buf w (i + 1) (p_step C (Pf i)) (peer_output_size C (Pf i))) = Ok (0, Pg i, o i)) ->
  peers_turn C w 0 (zmap Pf n) (zmap m n) = Ok (Some (zmap Pg n, blocks o n)).
Proof. intros H. apply turn_from'. intros i Hi. apply H. lia. Qed.
Lemma dispatched' c out (m : Z -> bytes) : (forall i, 0 <= i < n -> dispatch c out i = Ok (Some (m i))) -> dispatch_all c out (zrange 0 (Z.to_nat n)) = Ok (Some (zmap m n)).
Proof. intros H. apply (dispatched_from c out m). intros i Hi. apply H. lia. Qed.
Lemma to_each h (m m' : Z -> bytes) : (forall i, 0 <= i < n -> topeer h i (m i) = m' i) -> o_to_peers rel h (zmap m n) = zmap m' n.
Proof.
  intros H. cbn [relay o_to_peers]. unfold zmap. assert (G : forall l, Forall (fun i => 0 <= i < n) l -> map (fun x => topeer h (fst x) (snd x)) (combine l (map m l)) = map m' l).
  { induction l as [|i l IH]; intros F; [reflexivity|]. apply Forall_cons_iff in F. destruct F as (F1 & F2). cbn [map combine fst snd]. rewrite H, IH by assumption. reflexivity. }
  apply G. apply Forall_forall. intros i I. apply zrange_In in I. lia.
Qed.

Lemma mround_1 h c c' net net' out m m' Pf Pg o k :
  o_to_tp rel h net = net' -> tp_next C (s_tp w (t_step c)) c net' (s_buf w 0 (t_step c) (tp_output_size c)) = Ok (0, c', out) -> t_n c' = n ->
  (forall i, 0 <= i < n -> dispatch c' out i = Ok (Some (m i))) ->
  peer_not_done C (Pf 1) = true -> (forall i, 0 <= i < n -> topeer h i (m i) = m' i) ->
  (forall i, 0 <= i < n -> peer_next C (s_peer w i (p_step C (Pf i))) (Pf i) (m' i) (s_buf w (i + 1) (p_step C (Pf i)) (peer_output_size C (Pf i))) = Ok (0, Pg i, o i)) ->
  0 < k -> (forall i, 0 <= i < n -> zlen (o i) = k) ->
  meddled_round C w rel (mkRun C c (zmap Pf n) net) h = Ok (Some (mkRun C c' (zmap Pg n) (blocks o n), mkTraffic (tr_start h) (tr_rounds h ++ [(zmap m n, blocks o n)]))).
Proof.
  intros H0 H1 H2 H3 H4 He H5 H6 H7. unfold meddled_round. cbn [r_tp r_peers r_net]. rewrite H0, H1. cbn [bind Z.eqb negb]. rewrite H2, (dispatched' _ _ m) by assumption. cbn [bind].
  rewrite getz_zmap by lia. cbn [bind]. rewrite H4. cbn [negb]. rewrite (to_each h m m' He). cbn [peers_loop]. rewrite (turn' Pf Pg m' o H5). cbn [bind]. rewrite getz_zmap by lia. cbn [bind].
  rewrite (zlen_blocks _ k) by (try lia; assumption). destruct (Z.eqb_spec (n * k) 0); [nia|]. reflexivity.
Qed.
Lemma mround_2 h c c' net net' out m m' Pf Pg Ph o k :
  o_to_tp rel h net = net' -> tp_next C (s_tp w (t_step c)) c net' (s_buf w 0 (t_step c) (tp_output_size c)) = Ok (0, c', out) -> t_n c' = n ->
  (forall i, 0 <= i < n -> dispatch c' out i = Ok (Some (m i))) ->
  peer_not_done C (Pf 1) = true -> peer_not_done C (Pg 1) = true -> (forall i, 0 <= i < n -> topeer h i (m i) = m' i) ->
  (forall i, 0 <= i < n -> peer_next C (s_peer w i (p_step C (Pf i))) (Pf i) (m' i) (s_buf w (i + 1) (p_step C (Pf i)) (peer_output_size C (Pf i))) = Ok (0, Pg i, [])) ->
  (forall i, 0 <= i < n -> peer_next C (s_peer w i (p_step C (Pg i))) (Pg i) [] (s_buf w (i + 1) (p_step C (Pg i)) (peer_output_size C (Pg i))) = Ok (0, Ph i, o i)) ->
  0 < k -> (forall i, 0 <= i < n -> zlen (o i) = k) ->
  meddled_round C w rel (mkRun C c (zmap Pf n) net) h = Ok (Some (mkRun C c' (zmap Ph n) (blocks o n), mkTraffic (tr_start h) (tr_rounds h ++ [(zmap m n, blocks o n)]))).
Proof.
  intros H0 H1 H2 H3 H4 H4' He H5 H5' H6 H7. unfold meddled_round. cbn [r_tp r_peers r_net]. rewrite H0, H1. cbn [bind Z.eqb negb]. rewrite H2, (dispatched' _ _ m) by assumption. cbn [bind].
  rewrite getz_zmap by lia. cbn [bind]. rewrite H4. cbn [negb]. rewrite (to_each h m m' He). cbn [peers_loop]. rewrite (turn' Pf Pg m' (fun _ => []) H5). cbn [bind]. rewrite getz_zmap by lia. cbn [bind].
  rewrite (zlen_blocks _ 0) by (try lia; reflexivity). rewrite Z.mul_0_r, H4'. cbn [Z.eqb andb]. rewrite map_zmap. rewrite (turn' Pg Ph (fun _ => []) o H5'). cbn [bind]. rewrite getz_zmap by lia. cbn [bind].
  rewrite (zlen_blocks _ k) by (try lia; assumption). destruct (Z.eqb_spec (n * k) 0); [nia|]. reflexivity.
Qed.

Notation PV P := (@zmap (peer C) (fun i => P (V i) i) n).
Notation mr c ps net k c' ps' net' := (meddled_round C w rel (mkRun C c ps net) (hist k) = Ok (Some (mkRun C c' ps' net', hist (Datatypes.S k)))).
Lemma row_of' (M : Z -> Z -> bytes) sz i : 0 <= i < n -> (forall j i, 0 <= j < n -> 0 <= i < n -> zlen (M j i) = sz) ->
  rd (turned U M) (i * (n * sz)) (n * sz) = Ok (blocks (fun j => M j i) n).
Proof.
  intros Hi Hz. unfold turned. change (wn U) with n. apply (rd_blocks (fun i => blocks (fun j => M j i) n)); [assumption|]. intros k Hk. apply zlen_blocks; [lia|]. intros j Hj. apply Hz; assumption.
Qed.
Ltac disp := unfold tp_peer_msg; cbn [t_n T1 T2 T3 T4 T5 T6 T7 T8 T9 mkt t_prev]; change (wn U) with n; change (wt U) with t;
  match goal with |- context [n <=? ?i] => destruct (Z.leb_spec n i); [lia|] end; reflexivity.
Lemma mr0 : mr (T0 U) (PV P0) [] 0%nat (T1 U) (PV P1) (blocks (M2s U) n).
Proof.
  apply (mround_1 (hist 0) _ _ _ [] (blocks (M1 U) n) (M1 U) (M1 U) _ _ _ 239).
  - reflexivity.
  - exact (next_T0 U U_ok).
  - reflexivity.
  - intros i Hi. eapply dispatch_slice; [|apply rd_blocks; [exact Hi|intros; apply (z_M1 U U_ok)]]. disp.
  - reflexivity.
  - reflexivity.
  - intros i Hi. exact (q0 i Hi).
  - lia.
  - intros. apply (z_M2s U U_ok).
Qed.
Lemma mr1 : mr (T1 U) (PV P1) (blocks (M2s U) n) 1%nat (T2 U) (PV P2) (blocks (fun i => blocks (M4 U i) n) n).
Proof.
  apply (mround_1 (hist 1) _ _ _ (blocks (M2s U) n) (B3 U) (fun _ => B3 U) (fun i => B3 (V i)) _ _ _ (n * 159)).
  - reflexivity.
  - exact (next_T1 U U_ok).
  - reflexivity.
  - intros i Hi. eapply (dispatch_slice _ _ _ 0 (175 * n + 111)); [disp|]. apply rd_all. rewrite (z_B3 U U_ok). change (wn U) with n. lia.
  - reflexivity.
  - exact e1.
  - intros i Hi. exact (q1 i Hi).
  - lia.
  - intros i Hi. apply zlen_blocks; [lia|]. intros j Hj. apply (z_M4 U U_ok); assumption.
Qed.
Lemma mr2 : mr (T2 U) (PV P2) (blocks (fun i => blocks (M4 U i) n) n) 2%nat (T3 U) (PV P3) (blocks (fun i => blocks (M5 U i) n) n).
Proof.
  apply (mround_1 (hist 2) _ _ _ (blocks (fun i => blocks (M4 U i) n) n) (turned U (M4 U)) (fun i => blocks (fun j => M4 U j i) n) (fun i => blocks (fun j => M4 (V i) j i) n) _ _ _ (n * 159)).
  - reflexivity.
  - exact (next_T2 U U_ok).
  - reflexivity.
  - intros i Hi. eapply (dispatch_slice _ _ _ (i * 159 * n) (159 * n)); [disp|]. replace (i * 159 * n) with (i * (n * 159)) by lia. rewrite (Z.mul_comm 159). apply row_of'; [assumption|apply (z_M4 U U_ok)].
  - reflexivity.
  - exact e2.
  - intros i Hi. exact (q2 i Hi).
  - lia.
  - intros i Hi. apply zlen_blocks; [lia|]. intros j Hj. apply (z_M5 U U_ok); assumption.
Qed.
Lemma mr3 : mr (T3 U) (PV P3) (blocks (fun i => blocks (M5 U i) n) n) 3%nat (T4 U) (PV P4) (blocks (M6 U) n).
Proof.
  apply (mround_1 (hist 3) _ _ _ (blocks (fun i => blocks (M5 U i) n) n) (turned U (M5 U)) (fun i => blocks (fun j => M5 U j i) n) (fun i => blocks (fun j => M5 (V i) j i) n) _ _ _ (111 + 32 * t)).
  - reflexivity.
  - exact (next_T3 U U_ok).
  - reflexivity.
  - intros i Hi. eapply (dispatch_slice _ _ _ (i * 159 * n) (159 * n)); [disp|]. replace (i * 159 * n) with (i * (n * 159)) by lia. rewrite (Z.mul_comm 159). apply row_of'; [assumption|apply (z_M5 U U_ok)].
  - reflexivity.
  - exact e3.
  - intros i Hi. exact (q3 i Hi).
  - lia.
  - intros i Hi. apply (z_M6 U U_ok). assumption.
Qed.
Lemma mr4 : mr (T4 U) (PV P4) (blocks (M6 U) n) 4%nat (T5 U) (PV P5) (blocks (fun i => blocks (M8 U i) n) n).
Proof.
  apply (mround_1 (hist 4) _ _ _ (blocks (M6 U) n) (B7 U) (fun _ => B7 U) (fun i => B7 (V i)) _ _ _ (n * 256)).
  - reflexivity.
  - exact (next_T4 U U_ok).
  - reflexivity.
  - intros i Hi. eapply (dispatch_slice _ _ _ 0 (111 + (111 + 32 * t) * n)); [disp|]. apply rd_all. rewrite (z_B7 U U_ok). change (wn U) with n. change (wt U) with t. lia.
  - reflexivity.
  - exact e4.
  - intros i Hi. exact (q4 i Hi).
  - lia.
  - intros i Hi. apply zlen_blocks; [lia|]. intros j Hj. apply (z_M8 U U_ok); assumption.
Qed.
Lemma mr5 : mr (T5 U) (PV P5) (blocks (fun i => blocks (M8 U i) n) n) 5%nat (T6 U) (PV P6) (blocks (M9 U) n).
Proof.
  apply (mround_1 (hist 5) _ _ _ (blocks (fun i => blocks (M8 U i) n) n) (turned U (M8 U)) (fun i => blocks (fun j => M8 U j i) n) (fun i => blocks (fun j => M8 (V i) j i) n) _ _ _ (112 + n)).
  - reflexivity.
  - exact (next_T5 U U_ok).
  - reflexivity.
  - intros i Hi. eapply (dispatch_slice _ _ _ (i * n * 256) (n * 256)); [disp|]. replace (i * n * 256) with (i * (n * 256)) by lia. apply row_of'; [assumption|apply (z_M8 U U_ok)].
  - reflexivity.
  - exact e5.
  - intros i Hi. exact (q5 i Hi).
  - lia.
  - intros i Hi. apply (z_M9 U U_ok). assumption.
Qed.
Lemma mr6 : mr (T6 U) (PV P6) (blocks (M9 U) n) 6%nat (T7 U) (PV P8) (blocks (fun i => M19 (V i) i) n).
Proof.
  apply (mround_2 (hist 6) _ _ _ (blocks (M9 U) n) (B10 U) (fun _ => B10 U) (fun i => B10 (V i)) _ (fun i => P7 (V i) i) _ _ 143).
  - reflexivity.
  - exact (next_T6 U U_ok).
  - reflexivity.
  - intros i Hi. eapply (dispatch_slice _ _ _ 0 (msg10_SIZE n)); [disp|]. apply rd_all. rewrite (z_B10 U U_ok). change (wn U) with n. unfold msg10_SIZE, msg9_SIZE, hdr_SIZE. lia.
  - reflexivity.
  - reflexivity.
  - exact e6.
  - intros i Hi. exact (q6 i Hi).
  - intros i Hi. exact (q7 i Hi).
  - lia.
  - intros i Hi. apply (z_M19 (V i) (V_ok i Hi)).
Qed.
Lemma mr7 : mr (T7 U) (PV P8) (blocks (fun i => M19 (V i) i) n) 7%nat (T8 U) (PV P9) (blocks (M21 U) n).
Proof.
  apply (mround_1 (hist 7) _ _ _ (blocks (M19 U) n) (B20 U) (fun _ => B20 U) (fun _ => B20 U) _ _ _ 113).
  - exact e7.
  - exact (next_T7 U U_ok).
  - reflexivity.
  - intros i Hi. eapply (dispatch_slice _ _ _ 0 113); [disp|]. apply rd_all. unfold B20. rewrite (zmk U U_ok). reflexivity.
  - reflexivity.
  - reflexivity.
  - intros i Hi. exact (q8 i Hi).
  - lia.
  - intros i Hi. apply (z_M21 U U_ok).
Qed.
Lemma mr8 : mr (T8 U) (PV P9) (blocks (M21 U) n) 8%nat (T9 U) (PV P10) [].
Proof.
  unfold meddled_round. cbn [r_tp r_peers r_net]. change (o_to_tp rel (hist 8) (blocks (M21 U) n)) with (blocks (M21 U) n).
  pose proof (next_T8 U U_ok) as H1. unfold tbuf in H1. change (wn U) with n in H1. change (t_step (T8 U)) with 9.
  change (wC U) with C in H1. change (wW U) with w in H1. rewrite H1. cbn [bind Z.eqb negb]. change (t_n (T9 U)) with n.
  rewrite (dispatched' _ _ (fun _ => [])).
  2: { intros i Hi. unfold dispatch, tp_peer_msg. change (t_n (T9 U)) with n. destruct (Z.leb_spec n i); [lia|]. reflexivity. }
  cbn [bind]. rewrite getz_zmap by lia. cbn [bind]. change (peer_not_done C (P9 (V 1) 1)) with true. cbn [negb]. rewrite (to_each (hist 8) (fun _ => []) (fun _ => [])) by reflexivity. cbn [peers_loop].
  rewrite (turn' (fun i => P9 (V i) i) (fun i => P10 (V i) i) (fun _ => []) (fun _ => [])) by (intros i Hi; exact (q9 i Hi)). cbn [bind]. rewrite getz_zmap by lia. cbn [bind].
  change (peer_not_done C (P10 (V 1) 1)) with false. rewrite andb_false_r. cbn [bind].
  assert (E : blocks (fun _ => []) n = []) by (unfold blocks, zmap; generalize (zrange 0 (Z.to_nat n)); intros l; induction l; [reflexivity|exact IHl]).
  rewrite E. reflexivity.
Qed.

Theorem relayed_rounds : meddled C w rel 10 (mkRun C (T0 U) (PV P0) []) (hist 0) = Ok (Some (mkRun C (T9 U) (PV P10) [], hist 9)).
Proof.
  do 9 (cbn [meddled r_tp]; match goal with |- context [tp_not_done ?c] => change (tp_not_done c) with true end; cbn [negb];
        first [rewrite mr0|rewrite mr1|rewrite mr2|rewrite mr3|rewrite mr4|rewrite mr5|rewrite mr6|rewrite mr7|rewrite mr8]; cbn [bind]).
  cbn [meddled r_tp]. change (tp_not_done (T9 U)) with false. reflexivity.
Qed.
(** ** the guess *)
Notation co_ i := (pe_a (s_peer w i 3)).
Lemma others i : (Z.to_nat t <= length (filter (fun j => negb (j =? i)%Z) (zrange 0 (Z.to_nat n))))%nat.
Proof.
  assert (H : (length (zrange 0 (Z.to_nat n)) <= length (i :: filter (fun j => negb (j =? i)%Z) (zrange 0 (Z.to_nat n))))%nat).
  { apply NoDup_incl_length; [apply zrange_NoDup|]. intros j I. destruct (Z.eqb_spec j i) as [->|e]; [left; reflexivity|]. right. apply filter_In. split; [exact I|]. apply Z.eqb_neq in e. rewrite e. reflexivity. }
  rewrite zrange_length in H. cbn [length] in H. lia.
Qed.
Lemma secret_read i : 0 <= i < n -> secret_of C n t rnsk rnd (hist 9) i = hd 0 (co_ i).
Proof.
  intros Hi. unfold secret_of. rewrite firstn_map. set (js := firstn _ (filter _ _)). destruct (hp_a C x w HH i Hi) as (La & Fa).
  assert (Hl : length js = Z.to_nat t) by (unfold js; rewrite firstn_length; pose proof (others i); lia).
  assert (Hjs : forall j, In j js -> 0 <= j < n /\ j <> i).
  { intros j I. assert (I' : In j (filter (fun j => negb (j =? i)) (zrange 0 (Z.to_nat n)))) by (unfold js in I; eapply firstn_incl; exact I).
    apply filter_In in I'. destruct I' as (I1 & I2). apply zrange_In in I1. apply negb_true_iff, Z.eqb_neq in I2. split; [lia|exact I2]. }
  assert (Hnd : NoDup js) by (unfold js; apply firstn_NoDup, NoDup_filter, zrange_NoDup).
  assert (E : map (fun j => share_of (seen C n rnsk rnd (hist 9) i j)) js = map (fun j => mkShare (j + 1) (poly (co_ i) (j + 1) mod L)) js).
  { apply map_ext_in. intros j I. apply Hjs in I. destruct I as (J & e). rewrite (seen_read (hist 9) eq_refl eq_refl eq_refl i j Hi J e).
    apply share_of_bytes; cbn; [unfold is_byte; lia|apply Z.mod_pos_bound; exact L_pos]. }
  rewrite E. rewrite (dkg_reconstruct_spec (co_ i)).
  - destruct (co_ i) as [|a0 a]; [unfold zlen in La; cbn in La; lia|]. inversion Fa as [|? ? F1 _]; subst. cbn [hd poly]. rewrite Z.mul_0_l, Z.add_0_r. apply Z.mod_small. unfold random_scalar in F1. lia.
  - rewrite map_map. cbn [s_index]. apply FinFun.Injective_map_NoDup; [intros a b; lia|exact Hnd].
  - apply Forall_forall. intros y I. rewrite map_map in I. apply in_map_iff in I. destruct I as (j & <- & I). apply Hjs in I. cbn [s_index]. unfold index_ok. lia.
  - rewrite map_length. unfold zlen in La. lia.
  - intros s I. apply in_map_iff in I. destruct I as (j & <- & _). cbn [s_value s_index]. apply of_Z_mod.
Qed.
Lemma guess_read : o_guess rel (hist 9) = zsum (map (fun i => hd 0 (co_ i)) (zrange 0 (Z.to_nat n))) mod L.
Proof.
  cbn [relay o_guess]. unfold guess. f_equal. unfold zsum. assert (G : forall l, Forall (fun i => 0 <= i < n) l ->
    fold_right (fun i s => secret_of C n t rnsk rnd (hist 9) i + s) 0 l = fold_right Z.add 0 (map (fun i => hd 0 (co_ i)) l)).
  { induction l as [|i l IH]; intros F; [reflexivity|]. apply Forall_cons_iff in F. destruct F as (F1 & F2). cbn [fold_right map]. rewrite secret_read, IH by assumption. reflexivity. }
  apply G. apply Forall_forall. intros i I. apply zrange_In in I. lia.
Qed.
Lemma start_same : PV P0 = zmap (P0 (W_ C x w d0 s0 tr0)) n.
Proof. apply zmap_ext. intros i _. unfold P0, mkp, b, zeroes, tpk. wcbn. reflexivity. Qed.
Lemma share_same i : p_share C (P10 (V i) i) = p_share C (P10 (W_ C x w d0 s0 tr0) i).
Proof.
  change (p_share C (P10 (V i) i)) with (fsh (V i) i). change (p_share C (P10 (W_ C x w d0 s0 tr0) i)) with (fsh (W_ C x w d0 s0 tr0) i). unfold fsh, sh, co. wcbn. reflexivity.
Qed.
Lemma t0_same : T0 U = T0 (W_ C x w d0 s0 tr0).
Proof. unfold T0, mkt, tpk. wcbn. reflexivity. Qed.
End RELAYED.

Theorem relay_works C x w rsk rnsk rnd : crypto_ok C -> RunSpec.honest C x w -> relay_keys C x w rnsk ->
  exists c msg0 r0 r h r',
    start_tp C (h_tp C x) (h_eps C x) (h_n C x) (h_t C x) (h_name C x) (h_msg0 C x) (h_sid C x) (h_sk C x) (h_now C x) = Ok (0, c, msg0) /\
    begin C x = Ok (Some r0) /\
    meddled C w (relay C (h_n C x) (h_t C x) rsk rnsk rnd) 10 r0 (mkTraffic msg0 []) = Ok (Some (r, h)) /\
    tp_not_done (r_tp C r) = false /\ t_cheaters (r_tp C r) = [] /\ t_complaints (r_tp C r) = [] /\ r_net C r = [] /\
    zlen (r_peers C r) = h_n C x /\ Forall (fun p => peer_not_done C p = false /\ p_complaints C p = []) (r_peers C r) /\
    rounds C w 10 r0 = Ok (Some r') /\ map (p_share C) (r_peers C r) = map (p_share C) (r_peers C r') /\
    quorum (h_t C x) (map (p_share C) (r_peers C r)) (map (p_share C) (r_peers C r)) /\
    forall qs, quorum (h_t C x) (map (p_share C) (r_peers C r)) qs -> dkg_reconstruct qs = o_guess (relay C (h_n C x) (h_t C x) rsk rnsk rnd) h.
Proof.
  intros HC HH HK. pose proof (hp_n C x w HH) as Hn. destruct (inhabited_noise C HC) as ((d0 & s0)).
  destruct (begins_with C HC x w HH) as (msg0 & (c & F) & B). pose proof (B d0 s0) as B0. cbv zeta in B0. set (tr0 := update_transcript str_transcript msg0) in *.
  pose proof (W_ok C HC x w HH d0 s0 tr0) as HW.
  pose proof (relayed_rounds C HC x w HH rsk rnsk rnd d0 s0 msg0 HK) as R.
  pose proof (start_same C x w rsk rnsk rnd d0 s0 msg0) as E1. fold tr0 in E1. rewrite E1 in R.
  pose proof (t0_same C x w rsk rnsk rnd d0 s0 msg0) as E2. fold tr0 in E2. rewrite E2 in R.
  pose proof (world_run _ HW) as R'. change (wC (W_ C x w d0 s0 tr0)) with C in R'. change (wW (W_ C x w d0 s0 tr0)) with w in R'. change (wn (W_ C x w d0 s0 tr0)) with (h_n C x) in R'.
  eexists c, msg0, _, _, _, _. split; [exact F|]. split; [exact B0|]. split; [exact R|]. cbn [r_tp r_peers r_net].
  split; [reflexivity|]. split; [reflexivity|]. split; [reflexivity|]. split; [reflexivity|]. split; [apply zlen_zmap; lia|].
  split; [apply Forall_zmap; intros i Hi; split; reflexivity|]. split; [exact R'|].
  assert (Es : map (p_share C) (@zmap (peer C) (fun i => P10 (V C x w rsk rnsk rnd d0 s0 msg0 i) i) (h_n C x)) = zmap (fun i => p_share C (P10 (W_ C x w d0 s0 tr0) i)) (h_n C x)).
  { rewrite map_zmap. apply zmap_ext. intros i _. apply share_same. }
  split; [rewrite Es; cbn [r_peers]; rewrite map_zmap; reflexivity|].
  split.
  { rewrite Es. split; [|split; [intros q Hq; exact Hq|]].
    - apply (NoDup_map_inv s_index). rewrite map_zmap. change (NoDup (zmap (fun i => i + 1) (h_n C x))). apply FinFun.Injective_map_NoDup; [intros a b; lia|apply zrange_NoDup].
    - pose proof (zlen_zmap (fun i => p_share C (P10 (W_ C x w d0 s0 tr0) i)) (h_n C x) ltac:(lia)) as Z. unfold zlen in Z. lia. }
  intros qs Hq. rewrite Es in Hq. destruct Hq as (Q1 & Q2 & Q3). destruct (incl_zmap_inv _ _ _ Q2) as (js & -> & Hj).
  rewrite map_length in Q3. pose proof (world_shares _ HW js (NoDup_map_inv _ _ Q1) Hj Q3) as G. unfold zmap in G. rewrite map_map in G.
  rewrite (guess_read C HC x w HH rsk rnsk rnd d0 s0 msg0 HK). exact G.
Qed.

Lemma relay_not_kept_out C x w rsk rnsk rnd : crypto_ok C -> RunSpec.honest C x w -> relay_keys C x w rnsk ->
  ~ kept_out C x w (relay C (h_n C x) (h_t C x) rsk rnsk rnd).
Proof.
  intros HC HH HK K. destruct (relay_works C x w rsk rnsk rnd HC HH HK) as (c & msg0 & r0 & r & h & r' & A & B & M & D & _ & _ & _ & _ & _ & _ & _ & Q & G).
  exact (K c msg0 r0 r h _ A B M D Q (G _ Q)).
Qed.

(** ** Somebody who only watches changes nothing *)
Lemma watched_round C w g r h : 
  (do x <- meddled_round C w (watcher g) r h ;; Ok (option_map fst x)) = round C w r.
Proof.
  unfold meddled_round, round. cbn [watcher o_to_tp o_to_peers].
  destruct (tp_next C _ _ _ _) as [[[ret c'] out]|]; [|reflexivity]. cbn [bind].
  destruct (negb (ret =? 0)); [reflexivity|].
  destruct (dispatch_all _ _ _) as [[ms|]|]; [|reflexivity|reflexivity]. cbn [bind].
  destruct (getz _ 1) as [p1|]; [|reflexivity]. cbn [bind].
  destruct (negb (peer_not_done C p1)); [reflexivity|].
  destruct (peers_loop _ _ _ _ _) as [[[ps net]|]|]; reflexivity.
Qed.
Lemma watched C w g fuel : forall r h, (do x <- meddled C w (watcher g) fuel r h ;; Ok (option_map fst x)) = rounds C w fuel r.
Proof.
  induction fuel as [|f IH]; intros r h; [reflexivity|]. cbn [meddled rounds].
  destruct (negb (tp_not_done (r_tp C r))); [reflexivity|].
  rewrite <- (watched_round C w g r h). destruct (meddled_round C w (watcher g) r h) as [[[r' h']|]|]; [|reflexivity|reflexivity].
  cbn [bind option_map fst]. apply IH.
Qed.

(** ** What the digests do achieve *)
Theorem digest_arrived C
    c0 eps n t name buf sid sk now c1 msg0 com cmax enc chmax pks lt now2 calls outs e input out c' out'
    p0 peps plt pmsg0 pnow p1 ppks pnpks pouts0 pins pshares pxshares pcom pcmax pmymax pcalls pouts pe pout p' m i :
  crypto_ok C -> start_tp C c0 eps n t name buf sid sk now = Ok (0, c1, msg0) ->
  let c2 := tp_set_bufs c1 com cmax enc chmax pks lt now2 in
  tp_wf c2 -> tp_run C c2 calls = Ok outs -> Forall (fun o => fst (fst o) = 0) outs ->
  t_step (final c2 outs) = 8 -> is_u64 (e_s e 0) -> tp_next C e (final c2 outs) input out = Ok (0, c', out') ->
  start_peer C p0 peps plt pmsg0 pnow = Ok (0, p1) -> zlen msg0 = msg0_SIZE -> zlen pmsg0 = msg0_SIZE ->
  let p2 := peer_set_bufs C p1 ppks pnpks pouts0 pins pshares pxshares pcom pcmax pmymax in
  peer_fresh C p2 -> peer_run C p2 pcalls = Ok pouts -> Forall (fun o => fst (fst o) = 0) pouts ->
  p_step C (final p2 pouts) = 8 -> is_u64 (pe_s pe 0) -> peer_next C pe (final p2 pouts) [] pout = Ok (0, p', m) ->
  0 <= i < t_n (final c2 outs) -> rd input (i * msg19_SIZE) msg19_SIZE = Ok m ->
  (pmsg0 = msg0 /\ peer_heard C p2 pcalls pouts = tp_said c2 outs) \/
  (p_transcript C (final p2 pouts) <> t_transcript (final c2 outs) /\
   blake2b (cH C) 32 (p_transcript C (final p2 pouts)) = blake2b (cH C) 32 (t_transcript (final c2 outs))).
Proof.
  intros HC A c2 W R Z E8 U N PS M0 PM0 p2 F PR PZ P8 PU PN Hi Hm.
  pose proof (PeerSafe.pinv_history C (ok_cN C HC) pcalls p2 pouts (PeerSafe.fresh_inv C p2 F) PR) as I.
  pose proof (PeerSafe.i_index C _ I ltac:(lia)) as Ix. pose proof (v_sid C _ (PeerSafe.i_wf C _ I)) as Isid.
  pose proof (TpAgree.tp_run_wf C calls c2 outs W R) as W8.
  pose proof (TpAgree.digests_agree C e (final c2 outs) input out c' out' pe (final p2 pouts) pout p' m i HC W8 U E8 N Isid PU ltac:(lia) P8 PN ltac:(lia) Hm) as D.
  destruct (TpAgree.same_broadcasts_or_collision C c0 eps n t name buf sid sk now c1 msg0 com cmax enc chmax pks lt now2 calls outs
    p0 peps plt pmsg0 pnow p1 ppks pnpks pouts0 pins pshares pxshares pcom pcmax pmymax pcalls pouts A W R Z PS M0 PM0 PR PZ D) as [Q|Q]; [left; exact Q|right; split; assumption].
Qed.

(** ** C101 *)
Theorem network_not_kept_out C n t (sk nsk : Z -> Z -> bytes) (rnd : bytes) : crypto_ok C -> exists o, forall x w, RunSpec.honest C x w -> h_n C x = n -> h_t C x = t -> relay_keys C x w nsk -> ~ kept_out C x w o.
Proof. intros HC. exists (relay C n t sk nsk rnd). intros x w HH <- <- HK. exact (relay_not_kept_out C x w sk nsk rnd HC HH HK). Qed.
Theorem network_learns_key C n t (sk nsk : Z -> Z -> bytes) (rnd : bytes) : crypto_ok C -> exists o, forall x w, RunSpec.honest C x w -> h_n C x = n -> h_t C x = t -> relay_keys C x w nsk ->
  exists c msg0 r0 r h r',
    start_tp C (h_tp C x) (h_eps C x) n t (h_name C x) (h_msg0 C x) (h_sid C x) (h_sk C x) (h_now C x) = Ok (0, c, msg0) /\
    begin C x = Ok (Some r0) /\ meddled C w o 10 r0 (mkTraffic msg0 []) = Ok (Some (r, h)) /\
    tp_not_done (r_tp C r) = false /\ t_cheaters (r_tp C r) = [] /\ t_complaints (r_tp C r) = [] /\ r_net C r = [] /\
    zlen (r_peers C r) = n /\ Forall (fun p => peer_not_done C p = false /\ p_complaints C p = []) (r_peers C r) /\
    rounds C w 10 r0 = Ok (Some r') /\ map (p_share C) (r_peers C r) = map (p_share C) (r_peers C r') /\
    quorum t (map (p_share C) (r_peers C r)) (map (p_share C) (r_peers C r)) /\
    forall qs, quorum t (map (p_share C) (r_peers C r)) qs -> dkg_reconstruct qs = o_guess o h.
Proof. intros HC. exists (relay C n t sk nsk rnd). intros x w HH <- <- HK. exact (relay_works C x w sk nsk rnd HC HH HK). Qed.
