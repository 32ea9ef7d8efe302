(** The honest run, part 5: the conditions on a session ([RunSpec.honest]) are enough. *)
From Coq Require Import ZArith Lia List Bool.
From Coq.Strings Require Import Byte.
From Verif Require Import PrimeL Bytes Res Mem Sodium ToprfModel ToprfSpec DkgModel DkgSpec DkgProofs WireModel WireSpec WireProofs TpCrypto TpModel PeerModel
  TpFrame PeerFrame TpRun TpSpec TpMsg TpContent TpControl TpAgree TpStart RunSpec HonestMsg HonestState HonestTp HonestPeer HonestRun.
Import ListNotations.
Open Scope list_scope.
Open Scope Z_scope.

(** ** lists of time stamps *)
Lemma fresh_series window f g rest k : forall a r, all_fresh window r (map (fun i => (f i, g i)) (zrange a (Datatypes.S k)) ++ rest) ->
  (forall i, a <= i < a + Z.of_nat (Datatypes.S k) -> fresh window (if i =? a then r else f (i - 1)) (f i) (g i)) /\ all_fresh window (f (a + Z.of_nat k)) rest.
Proof.
  induction k as [|k IH]; intros a r H.
  - cbn [zrange map app all_fresh seq] in H. change (zrange a 1) with [a + Z.of_nat 0] in H. change (Z.of_nat 0) with 0 in H. rewrite Z.add_0_r in H. cbn [map app all_fresh] in H. destruct H as [H1 H2]. split.
    + intros i Hi. replace i with a by lia. rewrite Z.eqb_refl. exact H1.
    + change (Z.of_nat 0) with 0. rewrite Z.add_0_r. exact H2.
  - rewrite zrange_S in H. cbn [map app all_fresh] in H. destruct H as [H1 H2]. destruct (IH (a + 1) (f a) H2) as [I1 I2]. split.
    + intros i Hi. destruct (Z.eqb_spec i a) as [e0|e0]; [subst i; exact H1|]. specialize (I1 i ltac:(lia)). destruct (Z.eqb_spec i (a + 1)) as [e1|e1].
      * subst i. replace (a + 1 - 1) with a by lia. exact I1.
      * exact I1.
    + replace (a + Z.of_nat (Datatypes.S k)) with (a + 1 + Z.of_nat k) by lia. exact I2.
Qed.
Lemma fresh_series0 window f g rest n r : 1 <= n -> all_fresh window r (map (fun i => (f i, g i)) (zrange 0 (Z.to_nat n)) ++ rest) ->
  (forall i, 0 <= i < n -> fresh window (if i =? 0 then r else f (i - 1)) (f i) (g i)) /\ all_fresh window (f (n - 1)) rest.
Proof.
  intros Hn H. destruct (Z.to_nat n) as [|k] eqn:E; [lia|]. apply fresh_series in H. replace (0 + Z.of_nat k) with (n - 1) in H by lia.
  destruct H as [H1 H2]. split; [|exact H2]. intros i Hi. apply H1. lia.
Qed.

(** ** what starting a session leaves in the state *)
Section START.
Variable C : crypto.
Lemma start_tp_exact c0 eps n t name buf sid sk now c msg0 : start_tp C c0 eps n t name buf sid sk now = Ok (0, c, msg0) ->
  c = mkTp 0 (t_prev c0) sid n t (sig_pk (cS C) sk) sk (t_last c0) eps (t_pks c0) (t_lt c0) (t_com c0) (t_enc c0) [] (t_cmax c0) [] (t_chmax c0) (update_transcript str_transcript msg0).
Proof.
  unfold start_tp. destruct (Z.ltb_spec n 2); cbn [orb]; [discriminate|]. destruct (Z.leb_spec n t); cbn [orb]; [discriminate|].
  destruct (Z.ltb_spec 128 n); cbn [orb]; [discriminate|]. destruct (Z.ltb_spec (zlen name) 1); [discriminate|].
  destruct (Z.ltb_spec 1024 (zlen name)); [discriminate|]. destruct (Z.eqb_spec (zlen buf) msg0_SIZE); cbn [negb]; [|discriminate].
  intros HH. cbv zeta in HH. repeat (apply bind_ok in HH; destruct HH as (? & _ & HH)). injection HH as <- <-. reflexivity.
Qed.
Lemma start_peer_exact p0 eps lt msg0 now p : zlen msg0 = msg0_SIZE -> start_peer C p0 eps lt msg0 now = Ok (0, p) ->
  p = mkPeer C 0 (p_prev C p0) (p_sid C p) (p_n C p) (p_t C p) (p_index C p0) lt (p_sk C p0) (p_noise_sk C p0) (p_tp_pk C p) (p_tp_last C p) (p_last C p0) eps
    (p_pks C p0) (p_npks C p0) None (p_outs C p0) (p_ins C p0) (p_com C p0) (p_shares C p0) (p_xshares C p0) [] (p_cmax C p0) [] (p_mymax C p0)
    (update_transcript str_transcript msg0) (p_share C p0).
Proof.
  intros Hl. unfold start_peer. intros H. apply bind_ok in H. destruct H as (pk & _ & H). apply bind_ok in H. destruct H as (sid & Es & H).
  apply bind_ok in H. destruct H as ([ret last] & Rv & H). apply recv_codes in Rv. cbv zeta beta in H. destruct (Z.eqb_spec ret 0); cbn [negb] in H; [|injection H; intros; lia].
  apply bind_ok in H. destruct H as (bn & _ & H). apply bind_ok in H. destruct H as (bt & _ & H). cbv zeta beta in H.
  destruct (Z.ltb_spec (bz bt) 2); [discriminate|]. destruct (Z.leb_spec (bz bn) (bz bt)); [discriminate|]. destruct (Z.ltb_spec 128 (bz bn)); [discriminate|].
  rewrite rd_all in H by exact Hl. cbn [bind] in H. injection H as <-. reflexivity.
Qed.
End START.

Section WORLD.
Variable C : crypto.
Hypothesis HC : crypto_ok C.
Variable x : ceremony C.
Variable w : sched.
Hypothesis HH : honest C x w.
Variable d0 : nz_dev (cN C).
Variable s0 : nz_sess (cN C).
Variable tr0 : bytes.
Notation N := (cN C).
Notation n := (h_n C x).

(** ** the Noise devices *)
Definition key j := nz_pk N (pe_nsk (s_peer w j 0)).
Fixpoint devn (i : Z) (k : nat) : nz_dev N :=
  match k with
  | O => match nz_create N (i + 1) (pe_nsk (s_peer w i 0)) with Some d => d | None => d0 end
  | Datatypes.S k => match nz_add_peer N (devn i k) (Z.of_nat k + 1) (key (Z.of_nat k)) with Some (d, _) => d | None => d0 end
  end.
Definition idn i k : Z := match nz_add_peer N (devn i k) (Z.of_nat k + 1) (key (Z.of_nat k)) with Some (_, z) => z | None => 0 end.

Lemma devs i k : Z.of_nat k <= n -> nz_static N (devn i k) = pe_nsk (s_peer w i 0) /\
  nz_peers N (devn i k) = map (fun j => (idn i (Z.to_nat j), key j)) (zrange 0 k) /\ NoDup (map fst (nz_peers N (devn i k))) /\ nz_reach N (devn i k).
Proof.
  pose proof (ok_cN C HC) as HN. pose proof (hp_n C x w HH) as Hn. induction k as [|k IH]; intros Hk.
  - cbn [devn]. destruct (ok_nz_create N HN (i + 1) (pe_nsk (s_peer w i 0))) as (d & E1 & E2 & E3). rewrite E1, E2, E3. split; [reflexivity|]. split; [reflexivity|]. split; [constructor|]. exact (reach_create N _ _ _ E1).
  - destruct IH as (I1 & I2 & I3 & I4); [lia|]. cbn [devn].
    assert (Hni : ~ In (key (Z.of_nat k)) (map snd (nz_peers N (devn i k)))).
    { rewrite I2, map_map. cbn [snd]. intros Hin. apply in_map_iff in Hin. destruct Hin as (j & E & Hj). apply zrange_In in Hj. apply (hp_keys C x w HH j (Z.of_nat k)); try lia. exact E. }
    assert (Hlen : zlen (nz_peers N (devn i k)) < 2 ^ 32 - 2) by (rewrite I2; unfold zlen; rewrite map_length, zrange_length; lia).
    pose proof (ok_nz_pk_len N HN (pe_nsk (s_peer w (Z.of_nat k) 0))) as Hkl.
    destruct (ok_nz_add N HN (devn i k) (Z.of_nat k + 1) (key (Z.of_nat k)) I4 Hkl Hlen Hni) as (d' & id & E1 & E2 & E3). rewrite E1. split; [congruence|]. split; [|split].
    + rewrite E3, I2. change (Datatypes.S k) with (1 + k)%nat. rewrite Nat.add_comm, zrange_app. rewrite map_app, zrange_S. cbn [map]. change (zrange (0 + Z.of_nat k + 1) 0) with (@nil Z). cbn [map]. f_equal. f_equal.
      rewrite Z.add_0_l, Nat2Z.id. unfold idn at 1. rewrite E1. reflexivity.
    + rewrite E3, map_app. cbn [map fst]. pose proof (ok_nz_ids N HN _ _ _ _ _ I4 E1) as Hid.
      apply (NoDup_Add (a := id) (l := map fst (nz_peers N (devn i k)))); [|split; assumption]. pose proof (Add_app id (map fst (nz_peers N (devn i k))) []) as A. rewrite app_nil_r in A. exact A.
    + exact (reach_add N _ _ _ _ _ I4 Hkl E1).
Qed.
Lemma dev_add i k : Z.of_nat k < n -> nz_add_peer N (devn i k) (Z.of_nat k + 1) (key (Z.of_nat k)) = Some (devn i (Datatypes.S k), idn i k).
Proof.
  intros Hk. pose proof (ok_cN C HC) as HN. pose proof (hp_n C x w HH) as Hn. destruct (devs i k ltac:(lia)) as (_ & I2 & _ & I4).
  assert (Hni : ~ In (key (Z.of_nat k)) (map snd (nz_peers N (devn i k)))).
  { rewrite I2, map_map. cbn [snd]. intros Hin. apply in_map_iff in Hin. destruct Hin as (j & E & Hj). apply zrange_In in Hj. apply (hp_keys C x w HH j (Z.of_nat k)); try lia. exact E. }
  assert (Hlen : zlen (nz_peers N (devn i k)) < 2 ^ 32 - 2) by (rewrite I2; unfold zlen; rewrite map_length, zrange_length; lia).
  destruct (ok_nz_add N HN (devn i k) (Z.of_nat k + 1) (key (Z.of_nat k)) I4 (ok_nz_pk_len N HN _) Hlen Hni) as (d' & id & E1 & _). cbn [devn]. unfold idn. rewrite E1. reflexivity.
Qed.

Lemma zlen_share i v : zlen (share_bytes (mkShare i v)) = 33.
Proof. unfold share_bytes, zlen. cbn [s_index s_value length]. rewrite le_bytes_length. reflexivity. Qed.

(** ** the links *)
Definition dfl (o : option bytes) : bytes := match o with Some m => m | None => [] end.
Definition mlink (da db : nz_dev N) (id : Z) (r1 r2 p : bytes) : link C :=
  let si := match nz_initiator N da id r1 with Some s => s | None => s0 end in
  let sr := match nz_responder N db r2 with Some s => s | None => s0 end in
  let '(si1, m1) := nz_write N si [] in
  let '(sr1, _) := nz_read N sr (dfl m1) in
  let '(sr2, m2) := nz_write N sr1 [] in
  let '(si2, _) := nz_read N si1 (dfl m2) in
  let '(si3, m3) := nz_write N si2 [] in
  let '(si4, c) := nz_write N si3 p in
  let '(sr3, _) := nz_read N sr2 (dfl m3) in
  let '(sr4, _) := nz_read N sr3 (dfl c) in
  mkLink C si1 (dfl m1) sr2 (dfl m2) si2 si3 (dfl m3) si4 (dfl c) (dfl (nz_key N si4)) sr3 sr4.

Record link_ok (da db : nz_dev N) (id : Z) (r1 r2 p : bytes) (l : link C) : Prop := mkLinkOk {
  lo_1 : exists s, nz_initiator N da id r1 = Some s /\ nz_write N s [] = (l_o1 C l, Some (l_m1 C l));
  lo_2 : zlen (l_m1 C l) = 48;
  lo_3 : respond_noise C db (l_m1 C l) r2 = (Live (l_r2 C l), Some (l_m2 C l));
  lo_4 : zlen (l_m2 C l) = 48;
  lo_5 : forall d, In (id, nz_pk N (nz_static N db)) (nz_peers N d) -> nz_peer_known N d (l_o1 C l) = true;
  lo_6 : nz_read N (l_o1 C l) (l_m2 C l) = (l_o2 C l, Some []);
  lo_7 : nz_write N (l_o2 C l) [] = (l_o3 C l, Some (l_m3 C l));
  lo_8 : zlen (l_m3 C l) = 64;
  lo_9 : nz_write N (l_o3 C l) p = (l_o4 C l, Some (l_ct C l));
  lo_10 : zlen (l_ct C l) = zlen p + 16;
  lo_11 : nz_key N (l_o4 C l) = Some (l_key C l);
  lo_12 : nz_read N (l_r2 C l) (l_m3 C l) = (l_r3 C l, Some []);
  lo_13 : nz_key N (l_r3 C l) = Some (l_key C l);
  lo_14 : nz_read N (l_r3 C l) (l_ct C l) = (l_r4 C l, Some p)
}.
Lemma mlink_ok da db id r1 r2 p : nz_reach N da -> nz_reach N db -> zlen p <= 1024 ->
  In (id, nz_pk N (nz_static N db)) (nz_peers N da) -> NoDup (map fst (nz_peers N da)) -> In (nz_pk N (nz_static N da)) (map snd (nz_peers N db)) ->
  link_ok da db id r1 r2 p (mlink da db id r1 r2 p).
Proof.
  intros G1 G2 G3 H1 H2 H3. destruct (ok_nz_chain N (ok_cN C HC) da db id r1 r2 p G1 G2 G3 H1 H2 H3)
    as (si & si1 & si2 & si3 & si4 & sr & sr1 & sr2 & sr3 & sr4 & m1 & m2 & m3 & c & k & E1 & E2 & E3 & E4 & E5 & E6 & E7 & E8 & E9 & E10 & E11 & E12 & E13 & E14 & E15 & E16 & E17 & E18 & E19).
  assert (E : mlink da db id r1 r2 p = mkLink C si1 m1 sr2 m2 si2 si3 m3 si4 c k sr3 sr4).
  { unfold mlink. rewrite E1, E4, E2. cbn [dfl]. rewrite E5, E6. cbn [dfl]. rewrite E8, E9. cbn [dfl]. rewrite E11, E15. cbn [dfl]. rewrite E17, E13. reflexivity. }
  rewrite E. constructor; cbn [l_o1 l_m1 l_r2 l_m2 l_o2 l_o3 l_m3 l_o4 l_ct l_key l_r3 l_r4]; try assumption.
  - exists si. split; assumption.
  - unfold respond_noise. rewrite E4, E5, E6, E7. reflexivity.
Qed.

Definition lk_ i j : link C := mlink (devn i (Z.to_nat (j + 1))) (devn j (Z.to_nat n)) (idn i (Z.to_nat j)) (pe_ri (s_peer w i 1) j) (pe_rr (s_peer w j 2) i)
  (share_bytes (mkShare (j + 1) (poly (pe_a (s_peer w i 3)) (j + 1) mod L))).
Lemma lk_ok i j : 0 <= i < n -> 0 <= j < n ->
  link_ok (devn i (Z.to_nat (j + 1))) (devn j (Z.to_nat n)) (idn i (Z.to_nat j)) (pe_ri (s_peer w i 1) j) (pe_rr (s_peer w j 2) i)
    (share_bytes (mkShare (j + 1) (poly (pe_a (s_peer w i 3)) (j + 1) mod L))) (lk_ i j).
Proof.
  intros Hi Hj. destruct (devs i (Z.to_nat (j + 1)) ltac:(lia)) as (A1 & A2 & A3 & A4). destruct (devs j (Z.to_nat n) ltac:(lia)) as (B1 & B2 & B3 & B4). apply mlink_ok; [exact A4|exact B4|rewrite zlen_share; lia| | |].
  - rewrite B1, A2. apply in_map_iff. exists j. split; [reflexivity|]. apply zrange_In. lia.
  - exact A3.
  - rewrite A1, B2, map_map. cbn [snd]. apply in_map_iff. exists i. split; [reflexivity|]. apply zrange_In. lia.
Qed.

(** ** what is written into complaint messages when nobody is to blame *)
Definition A_ := zmap (fun i => pe_a (s_peer w i 3)) n.
Definition fl_ (i : Z) : list Z :=
  match dkg_verify_commitments (cR C) n (i + 1) (map (commitments_of (cR C)) A_) (column A_ (i + 1)) (repeat 0 (Z.to_nat n)) with Ok (_, f, _) => f | UB => [] end.
Lemma fl_ok i : 0 <= i < n -> zlen (fl_ i) = n /\ exists ret,
  dkg_verify_commitments (cR C) n (i + 1) (map (commitments_of (cR C)) A_) (column A_ (i + 1)) (repeat 0 (Z.to_nat n)) = Ok (ret, fl_ i, 0).
Proof.
  intros Hi. pose proof (hp_n C x w HH) as Hn. pose proof (ok_cR C HC) as HR.
  assert (HA : Z.of_nat (length A_) = n) by (apply (zlen_zmap _ n); lia).
  assert (HF : Forall (fun a => Z.of_nat (length a) = h_t C x /\ Forall random_scalar a) A_) by (apply Forall_zmap; intros k Hk; exact (hp_a C x w HH k Hk)).
  destruct (honest_recipient (cR C) HR n (h_t C x) A_ (i + 1) ltac:(lia) ltac:(lia) HA HF ltac:(unfold index_ok; lia)) as ((f0 & Hargs) & Hv & _).
  assert (HL : Z.of_nat (length (repeat 0 (Z.to_nat n))) = n) by (rewrite repeat_length; lia).
  assert (Hargs' : verify_args n (h_t C x) (i + 1) (map (commitments_of (cR C)) A_) (column A_ (i + 1)) (repeat 0 (Z.to_nat n))).
  { unfold verify_args in *. tauto. }
  destruct Hv as (g0 & g1 & G1 & G2).
  assert (Hargs0 : verify_args n (h_t C x) (i + 1) (map (commitments_of (cR C)) A_) (column A_ (i + 1)) g0) by (unfold verify_args in *; tauto).
  destruct (verify_commitments_spec (cR C) HR _ _ _ _ _ _ Hargs0) as (ret0 & f1 & named0 & E0 & _ & _ & _ & D0). rewrite G2 in E0. injection E0 as <- <- E0.
  destruct named0 as [|z0 named0]; [|cbn in E0; lia]. destruct D0 as [(u & _ & _ & _ & D0 & _)|(D1 & _ & D2)]; [discriminate|].
  destruct (verify_commitments_spec (cR C) HR _ _ _ _ _ _ Hargs') as (ret & f' & named & E & El & _ & _ & D).
  assert (named = []).
  { destruct named as [|z named]; [reflexivity|]. exfalso. destruct D as [(u & _ & D & _)|(_ & _ & D)]; [exact (D1 u D)|]. apply (D2 z). apply D. left. reflexivity. }
  subst named. unfold fl_. rewrite E. split; [unfold zlen; rewrite El; exact HL|]. exists ret. reflexivity.
Qed.

(** ** the time stamps the trusted party reads *)
Lemma to_fresh j : 0 <= j < n ->
  let eps := h_eps C x in let s := fun k i => pe_s (s_peer w j k) i in
  fresh eps (h_bufs C x) (s 0 0) (e_r (s_tp w 1) j) /\
  (forall i, 0 <= i < n -> fresh eps (if i =? 0 then s 0 0 else s 1 (i - 1)) (s 1 i) (e_r (s_tp w 2) (i * n + j))) /\
  (forall i, 0 <= i < n -> fresh eps (if i =? 0 then s 1 (n - 1) else s 2 (i - 1)) (s 2 i) (e_r (s_tp w 3) (i * n + j))) /\
  fresh eps (s 2 (n - 1)) (s 3 0) (e_r (s_tp w 4) j) /\
  (forall i, 0 <= i < n -> fresh eps (if i =? 0 then s 3 0 else s 4 (i - 1)) (s 4 i) (e_r (s_tp w 5) (i * n + j))) /\
  fresh eps (s 4 (n - 1)) (s 5 0) (e_r (s_tp w 6) j) /\ fresh eps (s 5 0) (s 8 0) (e_r (s_tp w 8) j) /\ fresh eps (s 8 0) (s 9 0) (e_r (s_tp w 9) j).
Proof.
  intros Hj. pose proof (hp_n C x w HH) as Hn. pose proof (hp_to_tp C x w HH j Hj) as H. unfold to_tp in H. cbv zeta. cbn [app all_fresh] in H.
  destruct H as (H0 & H). apply (fresh_series0 _ (fun i => pe_s (s_peer w j 1) i)) in H; [|lia]. destruct H as (H1 & H).
  apply (fresh_series0 _ (fun i => pe_s (s_peer w j 2) i)) in H; [|lia]. destruct H as (H2 & H). cbn [app all_fresh] in H. destruct H as (H3 & H).
  apply (fresh_series0 _ (fun i => pe_s (s_peer w j 4) i)) in H; [|lia]. destruct H as (H4 & H). cbn [all_fresh] in H. destruct H as (H5 & H8 & H9 & _).
  repeat (split; [assumption|]). assumption.
Qed.


(** ** the world *)
Definition W_ : world :=
  mkWorld C w n (h_t C x) (h_sid C x) (h_sk C x) (h_eps C x) (h_now C x) (h_bufs C x) tr0 (t_prev (h_tp C x))
    (h_com C x) (h_enc C x) (h_chmax C x) (h_pks C x)
    (h_lt C x) (h_peps C x) (h_pb C x)
    (fun i => p_prev C (h_peer C x i)) (fun i => p_index C (h_peer C x i)) (fun i => p_sk C (h_peer C x i)) (fun i => p_noise_sk C (h_peer C x i)) (fun i => p_share C (h_peer C x i))
    (fun i k => devn i (Z.to_nat k)) lk_ fl_.

Lemma W_ok : world_ok W_.
Proof.
  pose proof (hp_n C x w HH) as Hn.
  constructor; cbn [W_ wC wW wn wt wsid wtsk weps wnow wbufs wtr0 wtpv wcom wenc wchmax wpks wlt wpeps wB wpv wix wsk0 wnsk0 wsh0 wdv wlk wfl].
  - exact HC.
  - exact Hn.
  - exact (hp_sid C x w HH).
  - exact (hp_com C x w HH).
  - exact (hp_enc C x w HH).
  - exact (hp_pks C x w HH).
  - exact (hp_pb C x w HH).
  - exact (hp_out C x w HH).
  - apply (hp_clock C x w HH).
  - apply (hp_clock C x w HH).
  - intros i Hi. destruct (hp_from_tp C x w HH i Hi) as (A0 & A1 & A2 & A3 & A4 & A5 & _). assumption.
  - intros i Hi. destruct (hp_from_tp C x w HH i Hi) as (A0 & A1 & A2 & A3 & A4 & A5 & _). assumption.
  - intros i Hi. destruct (hp_from_tp C x w HH i Hi) as (A0 & A1 & A2 & A3 & A4 & A5 & _). assumption.
  - intros i Hi. destruct (hp_from_tp C x w HH i Hi) as (A0 & A1 & A2 & A3 & A4 & A5 & _). assumption.
  - intros i Hi. destruct (hp_from_tp C x w HH i Hi) as (A0 & A1 & A2 & A3 & A4 & A5 & _). assumption.
  - intros j Hj. destruct (to_fresh j Hj) as (B0 & B1 & B2 & B3 & B4 & B5 & B8 & B9). assumption.
  - intros j i Hj Hi. destruct (to_fresh j Hj) as (B0 & B1 & B2 & B3 & B4 & B5 & B8 & B9). apply B1. assumption.
  - intros j i Hj Hi. destruct (to_fresh j Hj) as (B0 & B1 & B2 & B3 & B4 & B5 & B8 & B9). apply B2. assumption.
  - intros j Hj. destruct (to_fresh j Hj) as (B0 & B1 & B2 & B3 & B4 & B5 & B8 & B9). assumption.
  - intros j i Hj Hi. destruct (to_fresh j Hj) as (B0 & B1 & B2 & B3 & B4 & B5 & B8 & B9). apply B4. assumption.
  - intros j Hj. destruct (to_fresh j Hj) as (B0 & B1 & B2 & B3 & B4 & B5 & B8 & B9). assumption.
  - intros j Hj. destruct (to_fresh j Hj) as (B0 & B1 & B2 & B3 & B4 & B5 & B8 & B9). assumption.
  - intros j Hj. destruct (to_fresh j Hj) as (B0 & B1 & B2 & B3 & B4 & B5 & B8 & B9). assumption.
  - intros i j Hi Hj. destruct (hp_between C x w HH i j Hi Hj) as (A0 & A1 & A2 & A3 & A4 & A5 & _). assumption.
  - intros i j Hi Hj. destruct (hp_between C x w HH i j Hi Hj) as (A0 & A1 & A2 & A3 & A4 & A5 & _). assumption.
  - intros i j Hi Hj. destruct (hp_between C x w HH i j Hi Hj) as (A0 & A1 & A2 & A3 & A4 & A5 & _). assumption.
  - intros i j Hi Hj. destruct (hp_between C x w HH i j Hi Hj) as (A0 & A1 & A2 & A3 & A4 & A5 & _). assumption.
  - intros i j Hi Hj. destruct (hp_between C x w HH i j Hi Hj) as (A0 & A1 & A2 & A3 & A4 & A5 & _). assumption.
  - intros i j Hi Hj. destruct (hp_between C x w HH i j Hi Hj) as (A0 & A1 & A2 & A3 & A4 & A5 & _). assumption.
  - exact (hp_a C x w HH).
  - exact (hp_lock C x w HH).
  - intros i Hi. pose proof (fl_ok i Hi) as F. unfold A_, column in F. rewrite !map_zmap in F. exact F.
  - intros i Hi. destruct (ok_nz_create N (ok_cN C HC) (i + 1) (pe_nsk (s_peer w i 0))) as (d & E1 & _). change (devn i (Z.to_nat 0)) with (devn i 0). cbn [devn]. unfold nsk. cbn [W_ wC wW]. rewrite E1. reflexivity.
  - intros i j sl Hi Hj. destruct (lo_1 _ _ _ _ _ _ _ (lk_ok i j Hi Hj)) as (s & E1 & E2). unfold init_noise.
    pose proof (dev_add i (Z.to_nat j) ltac:(lia)) as E. rewrite Z2Nat.id in E by lia. change (npk W_ j) with (key j). rewrite E.
    replace (Datatypes.S (Z.to_nat j)) with (Z.to_nat (j + 1)) by lia. rewrite E1, E2, (lo_2 _ _ _ _ _ _ _ (lk_ok i j Hi Hj)). reflexivity.
  - intros i j Hi Hj. exact (lo_2 _ _ _ _ _ _ _ (lk_ok i j Hi Hj)).
  - intros i j Hi Hj. exact (lo_3 _ _ _ _ _ _ _ (lk_ok i j Hi Hj)).
  - intros i j Hi Hj. exact (lo_4 _ _ _ _ _ _ _ (lk_ok i j Hi Hj)).
  - intros i j log Hi Hj. unfold finish_noise. change (lk W_ i j) with (lk_ i j). rewrite (lo_6 _ _ _ _ _ _ _ (lk_ok i j Hi Hj)).
    rewrite (lo_5 _ _ _ _ _ _ _ (lk_ok i j Hi Hj)); [rewrite andb_false_r; reflexivity|].
    destruct (devs i (Z.to_nat n) ltac:(lia)) as (_ & A2 & _). destruct (devs j (Z.to_nat n) ltac:(lia)) as (B1 & _ & _). rewrite A2, B1.
    apply in_map_iff. exists j. split; [reflexivity|]. apply zrange_In. lia.
  - intros i j Hi Hj. unfold noise_encrypt. change (lk W_ i j) with (lk_ i j). rewrite (lo_7 _ _ _ _ _ _ _ (lk_ok i j Hi Hj)), (lo_8 _ _ _ _ _ _ _ (lk_ok i j Hi Hj)). reflexivity.
  - intros i j Hi Hj. exact (lo_8 _ _ _ _ _ _ _ (lk_ok i j Hi Hj)).
  - intros i j Hi Hj. unfold noise_encrypt. change (lk W_ i j) with (lk_ i j). unfold sh, co. cbn [W_ wC wW]. rewrite zlen_share.
    rewrite (lo_9 _ _ _ _ _ _ _ (lk_ok i j Hi Hj)), (lo_10 _ _ _ _ _ _ _ (lk_ok i j Hi Hj)), zlen_share. reflexivity.
  - intros i j Hi Hj. change (lk W_ i j) with (lk_ i j). rewrite (lo_10 _ _ _ _ _ _ _ (lk_ok i j Hi Hj)), zlen_share. reflexivity.
  - intros i j Hi Hj. unfold session_key. change (lk W_ i j) with (lk_ i j). rewrite (lo_11 _ _ _ _ _ _ _ (lk_ok i j Hi Hj)). reflexivity.
  - intros i j Hi Hj. unfold noise_decrypt. change (lk W_ i j) with (lk_ i j). rewrite (lo_12 _ _ _ _ _ _ _ (lk_ok i j Hi Hj)), (lo_8 _ _ _ _ _ _ _ (lk_ok i j Hi Hj)). reflexivity.
  - intros i j Hi Hj. unfold session_key. change (lk W_ i j) with (lk_ i j). rewrite (lo_13 _ _ _ _ _ _ _ (lk_ok i j Hi Hj)). reflexivity.
  - intros i j Hi Hj. unfold noise_decrypt. change (lk W_ i j) with (lk_ i j). unfold sh, co. cbn [W_ wC wW].
    rewrite (lo_14 _ _ _ _ _ _ _ (lk_ok i j Hi Hj)), (lo_10 _ _ _ _ _ _ _ (lk_ok i j Hi Hj)), zlen_share. reflexivity.
Qed.
End WORLD.
