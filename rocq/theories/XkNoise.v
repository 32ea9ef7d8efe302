(** The Noise interface of TpCrypto.v, which the model of tp-dkg.c is written against, obtained from
    the model of the Noise XK library; and a proof that it satisfies the laws assumed there. *)
From Coq Require Import ZArith Lia List Bool.
From Coq.Strings Require Import Byte.
From Verif Require Import Bytes Res Mem Sodium TpCrypto XkModel XkSpec XkProofs XkChannel XkSession XkRegistry XkNonces.
Import ListNotations.
Open Scope list_scope.
Open Scope Z_scope.

(** the prologue "dpkg p2p v0.1", src/tp-dkg.c:838 *)
Definition dkg_prologue : bytes := map zb [100; 112; 107; 103; 32; 112; 50; 112; 32; 118; 48; 46; 49].
(** the name "dkg peer %02x", src/tp-dkg.c:834, 856 *)
Definition hex_digit (d : Z) : Z := if d <? 10 then 48 + d else 87 + d.
Definition dkg_name (i : Z) : bytes :=
  map zb [100; 107; 103; 32; 112; 101; 101; 114; 32; hex_digit (i / 16 mod 16); hex_digit (i mod 16)].

(** src/tp-dkg.c:358-365 *)
Definition session_get_key (s : xsess) : option bytes :=
  match s_st s with
  | Transport t => Some (if s_init s then t_skey t else t_rkey t)
  | Handshake _ => None
  end.

Section Instance.
Variable X : xprims.

(** The calls of tp-dkg.c.  The device of a session is the one it was created from (see
    TpCrypto.v).  Creating a session increments a counter of the device; the counter only fails
    after 2^32 - 2 sessions and a device of tp-dkg makes at most 256, so devices are not changed
    here.  Handshake messages are written with NOISE_XK_CONF_ZERO and without payload; the level is
    not looked at for an empty payload, so level 5 stands for both uses.  Messages 1 and 2 are
    unpacked with NOISE_XK_AUTH_ZERO, the others with level 2, which they always have, so level 0
    stands for both uses. *)
Definition xkN : noise := {|
  nz_dev := xdev;
  nz_sess := xdev * xsess;
  nz_pk := x_base X;
  nz_create := fun i sk => device_create X dkg_prologue (dkg_name i) (zeros 32) sk;   (* src/tp-dkg.c:833-838 *)
  nz_static := d_spriv;
  nz_peers := fun d => map (fun p => (p_id p, p_s p)) (rev (d_peers d));
  nz_add_peer := fun d i pk =>                                                          (* src/tp-dkg.c:164-167 *)
    match device_add_peer d (dkg_name i) pk with Some (d', p) => Some (d', p_id p) | None => None end;
  nz_initiator := fun d id r =>                                                         (* src/tp-dkg.c:168 *)
    match session_create_initiator X d id r with Some (_, s) => Some (d, s) | None => None end;
  nz_responder := fun d r =>                                                            (* src/tp-dkg.c:202 *)
    match session_create_responder X d r with Some (_, s) => Some (d, s) | None => None end;
  nz_write := fun s p =>                                                                (* src/tp-dkg.c:171-178, 221-228, 298-305 *)
    match session_write X (pack_message_with_conf_level 5 p) (snd s) with
    | (s', RSuccess, m) => ((fst s, s'), m)
    | (s', _, _) => ((fst s, s'), None)
    end;
  nz_read := fun s c =>                                                                 (* src/tp-dkg.c:205-218, 266-280, 328-343 *)
    match session_read X (fst s) (snd s) c with
    | (s', RSuccess, Some e) => ((fst s, s'), unpack_message_with_auth_level 0 e)
    | (s', _, _) => ((fst s, s'), None)
    end;
  nz_key := fun s => session_get_key (snd s);
  nz_peer_known := fun d s => match lookup_peer_by_id d (session_get_peer_id (snd s)) with Some _ => true | None => false end;
  nz_aead_decrypt := fun k c => aead_decrypt X k 0 [] c
|}.

Hypothesis OK : xprims_ok X.
Notation N := xkN.

(** devices as tp-dkg makes them *)
Record good_dev (d : xdev) : Prop := mkGd {
  gd_pro : d_prologue d = dkg_prologue;
  gd_states : d_states d = 1;
  gd_pub : d_spub d = x_base X (d_spriv d);
  gd_keys : Forall (fun p => zlen (p_s p) = 32) (d_peers d);
  gd_ids : Forall (fun p => 1 <= p_id p < d_pcount d) (d_peers d);
  gd_count : d_pcount d = 1 + zlen (d_peers d);
  gd_max : d_pcount d <= 4294967295
}.
Lemma reach_good d : nz_reach N d -> good_dev d.
Proof.
  induction 1 as [i sk d E|d name pk d' id R IH L E].
  - cbn in E. unfold device_create in E. injection E as <-. constructor; cbn; try reflexivity; try constructor; lia.
  - destruct IH as [A1 A2 A3 A4 A5 A6 A7]. cbn in E. unfold device_add_peer in E.
    destruct (d_pcount d =? 4294967295) eqn:M; [discriminate|]. destruct (lookup_peer_by_static d pk); [discriminate|].
    cbn [orb] in E. injection E as <- <-. apply Z.eqb_neq in M. pose proof (zlen_nonneg (d_peers d)).
    rewrite u32_small by lia. constructor; cbn [d_prologue d_states d_spub d_spriv d_peers d_pcount]; auto.
    + constructor; [cbn; lia|]. eapply Forall_impl; [|exact A5]. cbn. intros; lia.
    + rewrite zlen_cons. lia.
    + lia.
Qed.

Lemma peers_snd d : map snd (nz_peers N d) = map p_s (rev (d_peers d)).
Proof. cbn. rewrite map_map. reflexivity. Qed.
Lemma peers_fst d : map fst (nz_peers N d) = map p_id (rev (d_peers d)).
Proof. cbn. rewrite map_map. reflexivity. Qed.

Lemma find_id l p : In p l -> NoDup (map p_id l) -> find (fun q => p_id q =? p_id p) l = Some p.
Proof.
  intros Hin Hn. destruct (find_in (fun q => p_id q =? p_id p) l p Hin (Z.eqb_refl _)) as (q & E). rewrite E. f_equal.
  apply find_some in E. destruct E as (Hq & E). apply Z.eqb_eq in E. exact (nodup_map_inj p_id l q p Hn Hq Hin E).
Qed.
Lemma lookup_static d key : Forall (fun p => zlen (p_s p) = 32) (d_peers d) -> zlen key = 32 -> In key (map p_s (d_peers d)) ->
  exists e, lookup_peer_by_static d key = Some e.
Proof.
  intros HF Hk Hin. unfold lookup_peer_by_static. apply in_map_iff in Hin. destruct Hin as (p & <- & Hp).
  apply (find_in _ _ p Hp). rewrite lbytes_eq_spec; [apply bytes_eqb_refl| |]; assumption.
Qed.

Lemma sec_five_empty c : sec_ok c (pack_message_with_conf_level 5 []) = sec_ok c (pack_message_with_conf_level 0 []).
Proof. reflexivity. Qed.
Lemma write_empty s : session_write X (pack_message_with_conf_level 5 []) s = session_write X (pack_message_with_conf_level 0 []) s.
Proof. unfold session_write. rewrite !sec_five_empty. reflexivity. Qed.

Lemma chain : forall da db id r1 r2 p, nz_reach N da -> nz_reach N db -> zlen p <= 1024 ->
    In (id, nz_pk N (nz_static N db)) (nz_peers N da) -> NoDup (map fst (nz_peers N da)) ->
    In (nz_pk N (nz_static N da)) (map snd (nz_peers N db)) ->
    exists si si1 si2 si3 si4 sr sr1 sr2 sr3 sr4 m1 m2 m3 c k,
      nz_initiator N da id r1 = Some si /\
      nz_write N si [] = (si1, Some m1) /\ zlen m1 = 48 /\
      nz_responder N db r2 = Some sr /\
      nz_read N sr m1 = (sr1, Some []) /\
      nz_write N sr1 [] = (sr2, Some m2) /\ zlen m2 = 48 /\
      nz_read N si1 m2 = (si2, Some []) /\
      nz_write N si2 [] = (si3, Some m3) /\ zlen m3 = 64 /\
      nz_write N si3 p = (si4, Some c) /\ zlen c = zlen p + 16 /\ nz_key N si4 = Some k /\ zlen k = 32 /\
      nz_read N sr2 m3 = (sr3, Some []) /\ nz_key N sr3 = Some k /\
      nz_read N sr3 c = (sr4, Some p) /\
      nz_aead_decrypt N k c = Some p /\
      (forall d, In (id, nz_pk N (nz_static N db)) (nz_peers N d) -> nz_peer_known N d si1 = true).
Proof.
  intros da db id r1 r2 p Ra Rb Lp Hin Hnd Hkey.
  destruct (reach_good _ Ra) as [A1 A2 A3 A4 A5 A6 A7]. destruct (reach_good _ Rb) as [B1 B2 B3 B4 B5 B6 B7].
  rewrite peers_fst in Hnd. rewrite peers_snd in Hkey. cbn [N nz_peers nz_pk nz_static] in Hin, Hkey.
  apply in_map_iff in Hin. destruct Hin as (peer & Epeer & Hpeer). injection Epeer as Eid Eps. apply in_rev in Hpeer.
  rewrite map_rev in Hnd, Hkey. apply in_rev in Hkey. apply NoDup_rev in Hnd. rewrite rev_involutive in Hnd.
  destruct (lookup_static db _ B4 (ok_base_len X OK _) Hkey) as (entry & Hentry).
  assert (Hid : 1 <= p_id peer) by (apply (proj1 (Forall_forall _ _) A5) in Hpeer; lia).
  assert (Hl : lookup_peer_by_id da id = Some peer).
  { unfold lookup_peer_by_id. subst id. replace (p_id peer =? 0) with false by (symmetry; apply Z.eqb_neq; lia). apply find_id; assumption. }
  assert (HP : honest_pair X da db id peer entry).
  { unfold honest_pair. split; [congruence|]. split; [exact A3|]. split; [exact B3|]. split; [exact Hl|]. split; [congruence|].
    rewrite A3. exact Hentry. }
  destruct (session_create_initiator X da id r1) as [[da' si]|] eqn:Ci.
  2:{ exfalso. unfold session_create_initiator in Ci. rewrite A2, Hl in Ci. discriminate. }
  destruct (session_create_responder X db r2) as [[db' sr]|] eqn:Cr.
  2:{ exfalso. unfold session_create_responder in Cr. rewrite B2 in Cr. discriminate. }
  pose proof (eq_refl : zlen (@nil byte) = 0) as L0.
  destruct (handshake_completes X OK da db id peer entry r1 r2 da' db' si sr [] [] [] HP Ci Cr ltac:(lia) ltac:(lia) ltac:(lia))
    as (m1 & m2 & m3 & si1 & si2 & si3 & sr1 & sr2 & sr3 & ti & tr & W1 & R1 & W2 & R2 & W3 & R3 & L1 & L2 & L3 & Ti & Tr & Th & K1 & K2 & Z1 & Z2 & N1 & N2 & N3 & N4 & I1 & I2 & P1 & P2).
  pose proof (transport_write X si3 ti p Ti ltac:(lia) ltac:(lia)) as W4.
  rewrite N1 in W4. set (c := aead_encrypt X (t_skey ti) 0 [] p) in *.
  assert (Lc : zlen c = zlen p + 16) by apply (ok_seal_len X OK).
  assert (Oc : aead_decrypt X (t_skey ti) 0 [] c = Some p) by apply (ok_open_seal X OK).
  assert (R4 := transport_read X OK db sr3 tr c p Tr ltac:(lia) ltac:(lia)). rewrite <- K1, N4 in R4. specialize (R4 Oc).
  exists (da, si), (da, si1), (da, si2), (da, si3), (da, with_st si3 (Transport (mkTr (t_h ti) (t_recv ti) (t_skey ti) (0 + 1) (t_rkey ti) (t_rn ti)))),
    (db, sr), (db, sr1), (db, sr2), (db, sr3), (db, with_st sr3 (Transport (mkTr (t_h tr) true (t_skey tr) (t_sn tr) (t_skey ti) (0 + 1)))), m1, m2, m3, c, (t_skey ti).
  cbn [N nz_initiator nz_write nz_responder nz_read nz_key nz_aead_decrypt nz_peer_known nz_peers nz_pk nz_static fst snd].
  rewrite Ci, Cr, !write_empty, W1, W2, W3, R1, R2, R3.
  split; [reflexivity|]. split; [reflexivity|]. split; [lia|]. split; [reflexivity|]. split; [reflexivity|].
  split; [reflexivity|]. split; [lia|]. split; [reflexivity|]. split; [reflexivity|]. split; [lia|].
  split; [change (pack_message_with_conf_level 5 p) with (pack_message p); rewrite W4; reflexivity|].
  split; [lia|]. split; [unfold session_get_key; cbn [with_st s_st s_init]; rewrite I1; reflexivity|]. split; [exact Z1|].
  split; [reflexivity|]. split; [unfold session_get_key; rewrite Tr, I2; congruence|].
  split; [rewrite R4; unfold unpack_message_with_auth_level; cbn [em_msg em_level]; destruct (zlen p =? 0); reflexivity|].
  split; [exact Oc|].
  intros d Hd. apply in_map_iff in Hd. destruct Hd as (q & Eq & Hq). injection Eq as Eq _. apply in_rev in Hq.
  assert (Es : session_get_peer_id si1 = id).
  { destruct (initiator_identity X da id r1 da' si peer [GWrite (pack_message_with_conf_level 0 [])] si1 [(GWrite (pack_message_with_conf_level 0 []), RSuccess, GMessage m1)] Hl Ci) as (E & _).
    - cbn [grun gstep]. rewrite W1. reflexivity.
    - exact E. }
  rewrite Es. unfold lookup_peer_by_id. replace (id =? 0) with false by (symmetry; apply Z.eqb_neq; lia).
  destruct (find_in (fun q => p_id q =? id) (d_peers d) q Hq) as (z & Ez); [rewrite Eq; apply Z.eqb_refl|]. rewrite Ez. reflexivity.
Qed.

(** ** a session that went through the handshake is in transport mode *)
Lemma split_key init h : exists t, split X init h = Transport t /\ t_sn t = 0 /\ t_rn t = 0 /\ zlen (if init then t_skey t else t_rkey t) = 32.
Proof.
  unfold split. destruct (kdf_len X OK (h_ck h) []) as (A & B). destruct (kdf X (h_ck h) []) as [k1 k2]. cbn [fst snd] in A, B.
  destruct init; eexists; (split; [reflexivity|]); (split; [reflexivity|]); (split; [reflexivity|]); cbn [t_skey t_rkey]; rewrite zlen_firstn, A; reflexivity.
Qed.
Definition keyed (s : xsess) : Prop := exists t, s_st s = Transport t /\ t_sn t = 0 /\ t_rn t = 0 /\ zlen (if s_init s then t_skey t else t_rkey t) = 32.
Definition in_step (s : xsess) (init : bool) (n : Z) : Prop := s_init s = init /\ exists h, s_st s = Handshake h /\ h_step h = n.

Lemma write_advances s p s' m init n : in_step (snd s) init n -> nz_write N s p = (s', Some m) ->
  if n =? 2 then s_init (snd s') = init /\ keyed (snd s') else in_step (snd s') init (n + 1).
Proof.
  intros (I & h & Es & Eh) W. cbn [N nz_write] in W.
  destruct (session_write X (pack_message_with_conf_level 5 p) (snd s)) as [[t c] o] eqn:E.
  destruct c; [|discriminate|discriminate]. injection W as <- ->. cbn [snd].
  assert (G : gstep X (GWrite (pack_message_with_conf_level 5 p)) (snd s) = (t, RSuccess, GMessage m)) by (cbn [gstep]; rewrite E; reflexivity).
  destruct (handshake_success X _ _ h _ _ Es G) as (_ & (h' & Eh' & Es') & _).
  assert (It : s_init t = init) by (rewrite (proj1 (step_outcome X _ _ _ _ _ G)); exact I).
  rewrite Eh in Es', Eh'. rewrite I in Es'. destruct (n =? 2).
  - split; [exact It|]. unfold keyed. rewrite Es', It. apply split_key.
  - split; [exact It|]. exists h'. split; assumption.
Qed.
Lemma read_advances s c s' p init n : in_step (snd s) init n -> nz_read N s c = (s', Some p) ->
  if n =? 2 then s_init (snd s') = init /\ keyed (snd s') else in_step (snd s') init (n + 1).
Proof.
  intros (I & h & Es & Eh) W. cbn [N nz_read] in W.
  destruct (session_read X (fst s) (snd s) c) as [[t rc] [e|]] eqn:E; destruct rc; try discriminate.
  injection W as <- Eu. cbn [snd].
  assert (G : gstep X (GRead (fst s) c) (snd s) = (t, RSuccess, GPayload e)) by (cbn [gstep]; rewrite E; reflexivity).
  destruct (handshake_success X _ _ h _ _ Es G) as (_ & (h' & Eh' & Es') & _).
  assert (It : s_init t = init) by (rewrite (proj1 (step_outcome X _ _ _ _ _ G)); exact I).
  rewrite Eh in Es', Eh'. rewrite I in Es'. destruct (n =? 2).
  - split; [exact It|]. unfold keyed. rewrite Es', It. apply split_key.
  - split; [exact It|]. exists h'. split; assumption.
Qed.
Lemma keyed_write s p s' m : s_init (snd s) = true -> keyed (snd s) -> nz_write N s p = (s', Some m) ->
  exists k, nz_key N s' = Some k /\ zlen k = 32 /\ nz_aead_decrypt N k m = Some p.
Proof.
  intros I (t & Es & Z0 & _ & L) W. cbn [N nz_write] in W. unfold session_write in W. rewrite Es in W.
  destruct (compute_next_message_len _ _) as [o|]; [|discriminate]. destruct (sec_ok _ _); [|discriminate].
  unfold state_transport_write in W. destruct (negb _); [discriminate|]. destruct (_ <=? _); [discriminate|].
  injection W as <- <-. rewrite Z0. cbn [N nz_key nz_aead_decrypt snd]. unfold session_get_key. cbn [with_st s_st s_init]. rewrite I in L |- *.
  eexists. split; [reflexivity|]. cbn [t_skey]. split; [exact L|]. apply (ok_open_seal X OK).
Qed.
Lemma keyed_read s : s_init (snd s) = false -> keyed (snd s) -> exists k, nz_key N s = Some k /\ zlen k = 32 /\
  (forall c s' p, nz_read N s c = (s', Some p) -> nz_aead_decrypt N k c = Some p /\ nz_key N s' = Some k).
Proof.
  intros I (t & Es & _ & Z0 & L). cbn [N nz_key]. unfold session_get_key. rewrite Es. rewrite I in L |- *. exists (t_rkey t). split; [reflexivity|]. split; [exact L|].
  intros c s' p R. cbn [N nz_read] in R. unfold session_read in R. rewrite Es in R. destruct (payload_len _ _) as [o|]; [|discriminate].
  unfold state_transport_read in R. destruct (negb _); [discriminate|]. destruct (_ <=? _); [discriminate|]. rewrite Z0 in R.
  destruct (aead_decrypt X (t_rkey t) 0 [] c) as [q|] eqn:E; [|discriminate]. injection R as <- U. cbn [N nz_aead_decrypt snd with_st s_st s_init]. rewrite E, I. split; [|reflexivity].
  unfold unpack_message_with_auth_level in U. cbn [em_msg em_level] in U. destruct (zlen q =? 0); [exact U|]. destruct (0 <=? _); [exact U|discriminate].
Qed.

Theorem xk_noise_ok : noise_ok N.
Proof.
  constructor.
  - intros sk. apply (ok_base_len X OK).
  - intros i sk. eexists. split; [reflexivity|]. split; reflexivity.
  - intros d name pk R L M Hni. destruct (reach_good _ R) as [A1 A2 A3 A4 A5 A6 A7]. rewrite peers_snd in Hni.
    cbn [N nz_peers] in M. assert (M' : zlen (map (fun p => (p_id p, p_s p)) (rev (d_peers d))) = zlen (d_peers d)) by (unfold zlen; rewrite map_length, rev_length; reflexivity).
    rewrite M' in M. cbn [N nz_add_peer]. unfold device_add_peer.
    replace (d_pcount d =? 4294967295) with false by (symmetry; apply Z.eqb_neq; lia).
    destruct (lookup_peer_by_static d pk) as [q|] eqn:Q.
    + exfalso. apply Hni. unfold lookup_peer_by_static in Q. apply find_some in Q. destruct Q as (Hq & E).
      rewrite lbytes_eq_spec in E; [|apply (proj1 (Forall_forall _ _) A4 _ Hq)|exact L]. apply bytes_eqb_eq in E. subst pk.
      apply in_map_iff. exists q. split; [reflexivity|]. apply -> in_rev. exact Hq.
    + cbn [orb]. eexists _, _. split; [reflexivity|]. split; [reflexivity|]. cbn [N nz_peers d_peers p_id rev]. rewrite map_app. reflexivity.
  - intros d name pk d' id R E. cbn [N nz_add_peer] in E. unfold device_add_peer in E. destruct (_ || _); [discriminate|]. injection E as <- <-.
    split; [reflexivity|]. cbn [N nz_peers d_peers p_id rev]. rewrite map_app. reflexivity.
  - intros d name pk d' id R E. destruct (reach_good _ R) as [A1 A2 A3 A4 A5 A6 A7]. rewrite peers_fst. cbn [N nz_add_peer] in E. unfold device_add_peer in E.
    destruct (_ || _); [discriminate|]. injection E as <- <-. cbn [p_id]. intros H. rewrite map_rev in H. apply in_rev in H.
    apply in_map_iff in H. destruct H as (q & Eq & Hq). apply (proj1 (Forall_forall _ _) A5) in Hq. lia.
  - exact chain.
  - intros d id r s s1 m1 m2 s2 p2 s3 m3 p s4 c E W1 R2 W3 W4.
    assert (S0 : in_step (snd s) true 0).
    { cbn [N nz_initiator] in E. unfold session_create_initiator in E. destruct (_ =? _); [discriminate|]. destruct (lookup_peer_by_id d id); [|discriminate].
      injection E as <-. split; [reflexivity|]. eexists. split; reflexivity. }
    pose proof (write_advances _ _ _ _ _ _ S0 W1) as S1. cbn in S1.
    pose proof (read_advances _ _ _ _ _ _ S1 R2) as S2. cbn in S2.
    destruct (write_advances _ _ _ _ _ _ S2 W3) as (I3 & S3). exact (keyed_write _ _ _ _ I3 S3 W4).
  - intros d r s m1 s1 p1 s2 m2 m3 s3 p3 L E R1 W2 R3.
    assert (S0 : in_step (snd s) false 0).
    { cbn [N nz_responder] in E. unfold session_create_responder in E. destruct (_ =? _); [discriminate|].
      injection E as <-. split; [reflexivity|]. eexists. split; reflexivity. }
    pose proof (read_advances _ _ _ _ _ _ S0 R1) as S1. cbn in S1.
    pose proof (write_advances _ _ _ _ _ _ S1 W2) as S2. cbn in S2.
    destruct (read_advances _ _ _ _ _ _ S2 R3) as (I3 & S3). exact (keyed_read _ I3 S3).
Qed.

End Instance.
