(** Proofs about the Noise functions of the Python package. *)
From Coq Require Import ZArith Lia List Bool.
From Coq.Strings Require Import Byte.
From Verif Require Import Bytes Res Mem PyModel XkModel XkSpec XkProofs XkChannel XkSession XkRegistry XkNonces XkNoise PyNoise PyNoiseSpec.
Import ListNotations.
Open Scope list_scope.
Open Scope Z_scope.

Arguments zeros : simpl never.
Arguments le_bytes : simpl never.
Arguments firstn : simpl never.

Lemma clear_code c : negb (code_int clear c =? 0) = match c with RSuccess => false | _ => true end.
Proof. destruct c; reflexivity. Qed.
Lemma firstn_len {A} (l : list A) : zlen l < 2 ^ 32 -> firstn (Z.to_nat (zlen l mod 2 ^ 32)) l = l.
Proof. intros H. pose proof (zlen_nonneg l). rewrite Z.mod_small by lia. unfold zlen. rewrite Nat2Z.id. apply firstn_all. Qed.
Lemma c_int_small z : 0 <= z < 2 ^ 32 -> c_int z = Ret z.
Proof.
  intros H. unfold c_int. replace (- 2 ^ 63 <=? z) with true by (symmetry; apply Z.leb_le; lia).
  replace (z <? 2 ^ 64) with true by (symmetry; apply Z.ltb_lt; lia). cbn [andb]. rewrite Z.mod_small by lia. reflexivity.
Qed.
Lemma key32_view k : zlen k = 32 -> c_key k = Ret k.
Proof.
  intros H. unfold c_key. rewrite H. change (32 <? 31) with false. cbv iota. rewrite firstn_app.
  unfold zlen in H. replace (32 - length k)%nat with 0%nat by lia. rewrite firstn_all2 by lia. change (firstn 0 (zeros 1)) with (@nil byte). rewrite app_nil_r. reflexivity.
Qed.
Lemma view_ok s : arg_ok s -> exists m, c_view s = Ret m /\ py_len s <= zlen m /\ firstn (Z.to_nat (py_len s)) m = prologue_of s.
Proof.
  intros (H & HF). destruct s as [b|l]; cbn [c_view py_len prologue_of] in *.
  - eexists. split; [reflexivity|]. rewrite zlen_app. split; [pose proof (zlen_nonneg (zeros 1)); lia|].
    unfold zlen. rewrite Nat2Z.id. rewrite firstn_app, Nat.sub_diag. change (firstn 0 (zeros 1)) with (@nil byte). rewrite app_nil_r. apply firstn_all.
  - replace (existsb (Z.eqb 0) l) with false.
    2:{ symmetry. apply not_true_is_false. intros E. apply existsb_exists in E. destruct E as (x & Hx & E). apply Z.eqb_eq in E. subst x.
        apply (proj1 (Forall_forall _ _) HF) in Hx. lia. }
    assert (Hl : (length (flat_map (le_bytes 4) l) = 4 * length l)%nat).
    { clear. induction l as [|c l IH]; [reflexivity|]. cbn [flat_map length]. rewrite app_length, IH, le_bytes_length. lia. }
    eexists. split; [reflexivity|]. unfold zlen. rewrite app_length, Hl. split; [lia|].
    rewrite Nat2Z.id. rewrite firstn_app, Hl. replace (length l - 4 * length l)%nat with 0%nat by lia.
    change (firstn 0 (zeros 4)) with (@nil byte). apply app_nil_r.
Qed.

Section P.
Variable X : xprims.

(** ** devices *)
Lemma create_device_ok pro name k : arg_ok pro -> arg_ok name -> zlen k = 32 -> exists info,
  py_create_device X pro name k = Ret (mkXdev info (zeros 32) k (x_base X k) (prologue_of pro) 1 [] 1).
Proof.
  intros Hp Hn Hk. unfold py_create_device. rewrite c_int_small by (destruct Hp as (Hp & _); split; [destruct pro; apply zlen_nonneg|exact Hp]). cbn [pbind].
  destruct (view_ok pro Hp) as (m & -> & Lm & Em). destruct (view_ok name Hn) as (m' & -> & _). rewrite (key32_view k Hk). cbn [pbind].
  replace (zlen m <? py_len pro) with false by (symmetry; apply Z.ltb_ge; exact Lm). rewrite Em. unfold device_create. eexists. reflexivity.
Qed.

(** a device with the given keys *)
Record pdev (pro k : bytes) (d : xdev) : Prop := mkPdev {
  pd_pro : d_prologue d = pro;
  pd_priv : d_spriv d = k;
  pd_pub : d_spub d = x_base X k;
  pd_states : d_states d = 1;
  pd_keys : Forall (fun p => zlen (p_s p) = 32) (d_peers d);
  pd_count : 1 <= d_pcount d;
  pd_len : d_pcount d = 1 + zlen (d_peers d)
}.
Lemma add_peer_ok pro k d name key : pdev pro k d -> arg_ok name -> zlen key = 32 -> d_pcount d < 4294967295 -> exists d' p,
  py_add_peer d name key = Ret (d', p) /\ pdev pro k d' /\ d_pcount d' <= d_pcount d + 1 /\
  In key (map p_s (d_peers d')) /\ (forall q, In q (d_peers d') <-> In q (d_peers d) \/ p = Some q) /\
  (forall q, p = Some q -> p_id q = d_pcount d /\ p_s q = key /\ d_peers d' = q :: d_peers d) /\
  (~ In key (map p_s (d_peers d)) -> p <> None).
Proof.
  intros [A1 A2 A3 A4 A5 A6 A7] Hn Hk Hc. unfold py_add_peer. destruct (view_ok name Hn) as (m & -> & _). rewrite (key32_view key Hk). cbn [pbind].
  unfold device_add_peer. replace (d_pcount d =? 4294967295) with false by (symmetry; apply Z.eqb_neq; lia).
  pose proof (zlen_nonneg (d_peers d)) as Z0.
  destruct (lookup_peer_by_static d key) as [q|] eqn:Q; cbn [orb].
  - assert (Hin : In key (map p_s (d_peers d))).
    { unfold lookup_peer_by_static in Q. apply find_some in Q. destruct Q as (Hq & E). rewrite lbytes_eq_spec in E; [|apply (proj1 (Forall_forall _ _) A5 _ Hq)|exact Hk].
      apply bytes_eqb_eq in E. subst key. apply in_map. exact Hq. }
    exists d, None. split; [reflexivity|]. split; [constructor; assumption|]. split; [lia|]. split; [exact Hin|].
    split; [intros q'; split; [auto|intros [H|H]; [exact H|discriminate]]|]. split; [discriminate|]. intros N. contradiction.
  - eexists _, (Some _). split; [reflexivity|]. cbn [d_prologue d_spriv d_spub d_states d_peers d_pcount].
    split.
    { constructor; cbn [d_prologue d_spriv d_spub d_states d_peers d_pcount]; try assumption.
      - constructor; [exact Hk|exact A5].
      - rewrite u32_small by lia. lia.
      - rewrite u32_small, zlen_cons by lia. lia. }
    split; [rewrite u32_small by lia; lia|]. split; [left; reflexivity|].
    split; [intros q'; split; [intros [H|H]; [right; congruence|auto]|intros [H|H]; [right; exact H|left; congruence]]|].
    split; [intros q' E; injection E as <-; repeat split|discriminate].
Qed.

Lemma add_peers_ok pro k auth : forall d, pdev pro k d ->
  Forall (fun kn => zlen (fst kn) = 32 /\ arg_ok (snd kn)) auth -> d_pcount d + zlen auth < 4294967295 -> exists d',
  py_add_peers d auth = Ret d' /\ pdev pro k d' /\ (forall key, In key (map p_s (d_peers d')) <-> In key (map p_s (d_peers d)) \/ In key (map fst auth)).
Proof.
  induction auth as [|[key name] auth IH]; intros d Hd HF Hc.
  - exists d. split; [reflexivity|]. split; [exact Hd|]. intros key. cbn. tauto.
  - inversion HF as [|? ? (F1 & F2) F3]; subst. cbn [fst snd] in F1, F2. rewrite zlen_cons in Hc. pose proof (zlen_nonneg auth) as Z0.
    destruct (add_peer_ok pro k d name key Hd F2 F1 ltac:(lia)) as (d1 & p & E1 & D1 & C1 & I1 & M1 & M2 & _).
    destruct (IH d1 D1 F3 ltac:(lia)) as (d' & E2 & D2 & M3).
    exists d'. cbn [py_add_peers]. rewrite E1. cbn [pbind]. split; [exact E2|]. split; [exact D2|].
    intros key'. rewrite M3. cbn [map fst In]. split.
    + intros [H|H]; [|tauto]. apply in_map_iff in H. destruct H as (q & <- & Hq). apply M1 in Hq. destruct Hq as [Hq|Hq]; [left; apply in_map; exact Hq|].
      destruct (M2 q Hq) as (_ & Eq & _). right. left. congruence.
    + intros [H|[H|H]]; [|subst key'; left; exact I1|right; exact H]. left. apply in_map_iff in H. destruct H as (q & <- & Hq). apply in_map. apply M1. left. exact Hq.
Qed.

(** ** sessions *)
Lemma read_count d s m : session_read X (count_session d) s m = session_read X d s m.
Proof. unfold session_read, state_handshake_read, read_msg, lookup_peer_by_static. reflexivity. Qed.

Lemma py_write_clear s m s' c : session_write X m s = (s', RSuccess, Some c) -> py_write X clear (Some s) m = (Some s', Ret c).
Proof. intros E. unfold py_write. rewrite E. reflexivity. Qed.
Lemma py_read_clear d s l m s' e p : zlen m < 2 ^ 32 -> session_read X d s m = (s', RSuccess, Some e) -> unpack_message_with_auth_level l e = Some p ->
  py_read X clear d (Some s) l m = (Some s', Ret p).
Proof. intros L E U. unfold py_read. rewrite (firstn_len m L), E, U. reflexivity. Qed.
Lemma unpack_high l k p : l <= k -> unpack_message_with_auth_level l (mkEncap (Auth_level k) p) = Some p.
Proof. intros H. unfold unpack_message_with_auth_level. cbn [em_msg em_level]. destruct (zlen p =? 0); [reflexivity|]. replace (l <=? k) with true by (symmetry; apply Z.leb_le; exact H). reflexivity. Qed.

Hypothesis OK : xprims_ok X.

Lemma send_transport d s t p : s_st s = Transport t -> zlen p <= 4294967215 -> 0 <= t_sn t < 18446744073709551615 ->
  py_send X clear (d, Some s) p
  = ((d, Some (with_st s (Transport (mkTr (t_h t) (t_recv t) (t_skey t) (t_sn t + 1) (t_rkey t) (t_rn t))))), Ret (aead_encrypt X (t_skey t) (t_sn t) [] p)).
Proof.
  intros Es L B. pose proof (zlen_nonneg p) as Zp. unfold py_send, py_send_msg. cbn [fst snd]. rewrite c_int_small by lia.
  assert (Ep : firstn (Z.to_nat (zlen p)) p = p) by (unfold zlen; rewrite Nat2Z.id; apply firstn_all).
  rewrite Ep. change (pack_message_with_conf_level 5 p) with (pack_message p).
  rewrite (py_write_clear _ _ _ _ (transport_write X s t p Es ltac:(lia) B)). reflexivity.
Qed.
Lemma recv_transport d s t k n p : s_st s = Transport t -> zlen p <= 4294967215 -> 0 <= t_rn t < 18446744073709551615 -> k = t_rkey t -> n = t_rn t ->
  py_recv X clear (d, Some s) (aead_encrypt X k n [] p)
  = ((d, Some (with_st s (Transport (mkTr (t_h t) true (t_skey t) (t_sn t) (t_rkey t) (t_rn t + 1))))), Ret p).
Proof.
  intros Es L B -> ->. pose proof (zlen_nonneg p) as Zp. set (c := aead_encrypt X (t_rkey t) (t_rn t) [] p).
  assert (Lc : zlen c = zlen p + 16) by apply (ok_seal_len X OK).
  assert (Oc : aead_decrypt X (t_rkey t) (t_rn t) [] c = Some p) by apply (ok_open_seal X OK).
  unfold py_recv, py_read_msg. cbn [fst snd].
  rewrite (py_read_clear d s 2 c _ _ p ltac:(lia) (transport_read X OK d s t c p Es ltac:(lia) B Oc) (unpack_high 2 2 p ltac:(lia))). reflexivity.
Qed.

(** *** both ends in transport mode *)
Lemma py_channel_delivers es : forall di dr si sr ti tr qr qi,
  s_st si = Transport ti -> s_st sr = Transport tr ->
  t_skey ti = t_rkey tr -> t_rkey ti = t_skey tr ->
  t_sn ti = t_rn tr + zlen qr -> t_sn tr = t_rn ti + zlen qi ->
  0 <= t_rn ti -> 0 <= t_rn tr ->
  t_sn ti + zlen es <= 2 ^ 64 - 1 -> t_sn tr + zlen es <= 2 ^ 64 - 1 ->
  Forall (fun e => zlen (payload_of e) <= 4294967215) es ->
  Forall (fun p => zlen p <= 4294967215) qr -> Forall (fun p => zlen p <= 4294967215) qi ->
  py_channel X clear es (di, Some si) (dr, Some sr) (sealed X (t_skey ti) (t_rn tr) qr) (sealed X (t_skey tr) (t_rn ti) qi) = Some (queues es qr qi).
Proof.
  change (2 ^ 64 - 1) with 18446744073709551615.
  induction es as [|e es IH]; intros di dr si sr ti tr qr qi Si Sr K1 K2 N1 N2 B1 B2 M1 M2 F Fr Fi; [reflexivity|].
  inversion F as [|? ? Fp F']; subst. rewrite zlen_cons in M1, M2.
  pose proof (zlen_nonneg qr) as Zr. pose proof (zlen_nonneg qi) as Zi. pose proof (zlen_nonneg es) as Ze.
  destruct e as [[|] p|[|]]; cbn [payload_of] in Fp; cbn [py_channel queues].
  - rewrite (send_transport di si ti p Si ltac:(lia) ltac:(lia)).
    assert (E : sealed X (t_skey ti) (t_rn tr) qr ++ [aead_encrypt X (t_skey ti) (t_sn ti) [] p] = sealed X (t_skey ti) (t_rn tr) (qr ++ [p])).
    { rewrite sealed_app. rewrite N1. reflexivity. }
    rewrite E.
    apply (IH di dr _ sr (mkTr (t_h ti) (t_recv ti) (t_skey ti) (t_sn ti + 1) (t_rkey ti) (t_rn ti)) tr); cbn [t_skey t_sn t_rn t_rkey]; try assumption; try reflexivity; try lia.
    + rewrite zlen_app, zlen_cons, zlen_nil. lia.
    + apply Forall_app. split; [assumption|]. constructor; [assumption|constructor].
  - rewrite (send_transport dr sr tr p Sr ltac:(lia) ltac:(lia)).
    assert (E : sealed X (t_skey tr) (t_rn ti) qi ++ [aead_encrypt X (t_skey tr) (t_sn tr) [] p] = sealed X (t_skey tr) (t_rn ti) (qi ++ [p])).
    { rewrite sealed_app. rewrite N2. reflexivity. }
    rewrite E.
    apply (IH di dr si _ ti (mkTr (t_h tr) (t_recv tr) (t_skey tr) (t_sn tr + 1) (t_rkey tr) (t_rn tr))); cbn [t_skey t_sn t_rn t_rkey]; try assumption; try reflexivity; try lia.
    + rewrite zlen_app, zlen_cons, zlen_nil. lia.
    + apply Forall_app. split; [assumption|]. constructor; [assumption|constructor].
  - destruct qi as [|p qi]; cbn [sealed].
    { change (@nil bytes) with (sealed X (t_skey tr) (t_rn ti) []). rewrite (IH di dr si sr ti tr qr []); try assumption; try lia; try constructor. }
    inversion Fi as [|? ? Fq Fi']; subst. rewrite zlen_cons in *. pose proof (zlen_nonneg p) as Np. pose proof (zlen_nonneg qi) as Zq.
    rewrite (recv_transport di si ti _ _ p Si ltac:(lia) ltac:(lia) (eq_sym K2) eq_refl).
    rewrite (IH di dr _ sr (mkTr (t_h ti) true (t_skey ti) (t_sn ti) (t_rkey ti) (t_rn ti + 1)) tr); cbn [t_skey t_sn t_rn t_rkey]; try assumption; try reflexivity; try lia.
  - destruct qr as [|p qr]; cbn [sealed].
    { change (@nil bytes) with (sealed X (t_skey ti) (t_rn tr) []) at 1. rewrite (IH di dr si sr ti tr [] qi); try assumption; try lia; try constructor. }
    inversion Fr as [|? ? Fq Fr']; subst. rewrite zlen_cons in *. pose proof (zlen_nonneg p) as Np. pose proof (zlen_nonneg qr) as Zq.
    rewrite (recv_transport dr sr tr _ _ p Sr ltac:(lia) ltac:(lia) K1 eq_refl).
    rewrite (IH di dr si _ ti (mkTr (t_h tr) true (t_skey tr) (t_sn tr) (t_rkey tr) (t_rn tr + 1))); cbn [t_skey t_sn t_rn t_rkey]; try assumption; try reflexivity; try lia.
Qed.

(** *** before the third message has arrived *)
Lemma phase_b es : forall di dr si sr ti m3 p0 ps sr3 tr,
  s_st si = Transport ti -> py_recv X clear (dr, Some sr) m3 = ((dr, Some sr3), Ret p0) ->
  s_st sr3 = Transport tr -> t_skey ti = t_rkey tr -> t_rkey ti = t_skey tr ->
  t_rn ti = 0 -> t_rn tr = 0 -> t_sn tr = 0 -> t_sn ti = zlen ps ->
  t_sn ti + zlen es <= 2 ^ 64 - 1 ->
  Forall (fun e => zlen (payload_of e) <= 4294967215) es -> Forall (fun p => zlen p <= 4294967215) ps ->
  responder_waits es true ->
  py_channel X clear es (di, Some si) (dr, Some sr) (m3 :: sealed X (t_skey ti) 0 ps) [] = Some (queues es (p0 :: ps) []).
Proof.
  induction es as [|e es IH]; intros di dr si sr ti m3 p0 ps sr3 tr Si R Sr K1 K2 N1 N2 N3 N4 M F Fp W; [reflexivity|].
  inversion F as [|? ? Fe F']; subst. rewrite zlen_cons in M. pose proof (zlen_nonneg ps) as Zp. pose proof (zlen_nonneg es) as Ze.
  destruct e as [[|] p|[|]]; cbn [payload_of] in Fe; cbn [responder_waits] in W; cbn [py_channel queues].
  - rewrite (send_transport di si ti p Si ltac:(lia) ltac:(lia)).
    assert (E : (m3 :: sealed X (t_skey ti) 0 ps) ++ [aead_encrypt X (t_skey ti) (t_sn ti) [] p] = m3 :: sealed X (t_skey ti) 0 (ps ++ [p])).
    { cbn [app]. rewrite sealed_app, N4. reflexivity. }
    rewrite E. cbn [app].
    apply (IH di dr _ sr (mkTr (t_h ti) (t_recv ti) (t_skey ti) (t_sn ti + 1) (t_rkey ti) (t_rn ti)) m3 p0 (ps ++ [p]) sr3 tr); cbn [t_skey t_sn t_rn t_rkey]; try assumption; try reflexivity; try lia.
    + rewrite zlen_app, zlen_cons, zlen_nil. lia.
    + apply Forall_app. split; [assumption|]. constructor; [assumption|constructor].
  - destruct W.
  - rewrite (IH di dr si sr ti m3 p0 ps sr3 tr); try assumption; try reflexivity; try lia.
  - rewrite R.
    pose proof (py_channel_delivers es di dr si sr3 ti tr ps []) as D. rewrite N1, N2, N3 in D. cbn [sealed] in D.
    rewrite D; try assumption; try reflexivity; try lia; try constructor.
Qed.
Lemma phase_a es : forall di dr si sr,
  (forall p, zlen p <= 4294967215 -> exists si3 m3 sr3 ti tr,
     py_send X clear (di, Some si) p = ((di, Some si3), Ret m3) /\ py_recv X clear (dr, Some sr) m3 = ((dr, Some sr3), Ret p) /\
     s_st si3 = Transport ti /\ s_st sr3 = Transport tr /\ t_skey ti = t_rkey tr /\ t_rkey ti = t_skey tr /\
     t_rn ti = 0 /\ t_rn tr = 0 /\ t_sn tr = 0 /\ t_sn ti = 0) ->
  zlen es <= 2 ^ 64 - 1 -> Forall (fun e => zlen (payload_of e) <= 4294967215) es -> responder_waits es false ->
  py_channel X clear es (di, Some si) (dr, Some sr) [] [] = Some (queues es [] []).
Proof.
  induction es as [|e es IH]; intros di dr si sr H M F W; [reflexivity|].
  inversion F as [|? ? Fe F']; subst. rewrite zlen_cons in M. pose proof (zlen_nonneg es) as Ze.
  destruct e as [[|] p|[|]]; cbn [payload_of] in Fe; cbn [responder_waits] in W; cbn [py_channel queues].
  - destruct (H p Fe) as (si3 & m3 & sr3 & ti & tr & E1 & E2 & Si & Sr & K1 & K2 & N1 & N2 & N3 & N4). rewrite E1. cbn [app].
    apply (phase_b es di dr si3 sr ti m3 p [] sr3 tr); try assumption; try constructor. lia.
  - destruct W.
  - rewrite (IH di dr si sr H); try assumption; try reflexivity; lia.
  - rewrite (IH di dr si sr H); try assumption; try reflexivity; lia.
Qed.

Lemma write_msg_five s h p : s_st s = Handshake h -> h_step h = 2 -> session_write X (pack_message_with_conf_level 5 p) s = session_write X (pack_message_with_conf_level 0 p) s.
Proof.
  intros Es Eh. unfold session_write. rewrite Es. unfold conf_level. rewrite Eh. cbn [Z.eqb]. rewrite sec_zero.
  change (pack_message_with_conf_level 5 p) with (pack_message p). rewrite sec_max by reflexivity. reflexivity.
Qed.

(** ** C74: set up a session and use it *)
Theorem python_session_delivers a b pa pb ea eb iname rname name dsti dstr auth :
  zlen a = 32 -> zlen b = 32 -> py_pubkey X a = Ret pa -> py_pubkey X b = Ret pb ->
  arg_ok (arg_of iname default_iname) -> arg_ok (arg_of rname default_rname) -> arg_ok (arg_of name default_rname) ->
  arg_ok (arg_of dsti default_dst) -> arg_ok (arg_of dstr default_dst) ->
  prologue_of (arg_of dsti default_dst) = prologue_of (arg_of dstr default_dst) ->
  Forall (fun kn => zlen (fst kn) = 32 /\ arg_ok (snd kn)) auth -> zlen auth < 2 ^ 32 - 2 -> In pa (map fst auth) ->
  exists si m1 sr m2 si',
    py_initiator_session X clear a pb iname rname dsti ea = Ret (si, m1)
    /\ py_responder_session X clear b auth m1 dstr name eb = Ret (sr, m2)
    /\ py_initiator_session_complete X clear si m2 = (si', Ret tt)
    /\ forall es, zlen es <= 2 ^ 64 - 1 -> Forall (fun e => zlen (payload_of e) <= 4294967215) es -> responder_waits es false ->
         py_channel X clear es si' sr [] [] = Some (queues es [] []).
Proof.
  intros La Lb Pa Pb An1 An2 An3 Ad1 Ad2 Epro FA Lauth Hin.
  unfold py_pubkey in Pa, Pb. rewrite (key32_view a La) in Pa. rewrite (key32_view b Lb) in Pb. cbn [pbind] in Pa, Pb. injection Pa as <-. injection Pb as <-.
  pose proof (ok_base_len X OK) as Lbase.
  destruct (create_device_ok _ _ _ Ad1 An1 La) as (info1 & D1). destruct (create_device_ok _ _ _ Ad2 An3 Lb) as (info2 & D2).
  set (pro1 := prologue_of (arg_of dsti default_dst)) in *. set (pro2 := prologue_of (arg_of dstr default_dst)) in *.
  set (d1 := mkXdev info1 (zeros 32) a (x_base X a) pro1 1 [] 1) in *. set (d2 := mkXdev info2 (zeros 32) b (x_base X b) pro2 1 [] 1) in *.
  assert (Q1 : pdev pro1 a d1) by (constructor; cbn; try reflexivity; try constructor; lia).
  assert (Q2 : pdev pro2 b d2) by (constructor; cbn; try reflexivity; try constructor; lia).
  destruct (add_peer_ok pro1 a d1 (arg_of rname default_rname) (x_base X b) Q1 An2 (Lbase b) ltac:(cbn; lia)) as (di & op & E1 & QI & _ & _ & _ & M2 & M3).
  destruct op as [peer|]; [|exfalso; apply M3; [intros []|reflexivity]]. destruct (M2 peer eq_refl) as (Eid & Eps & Epeers). cbn [d1 d_pcount d_peers] in Eid, Epeers.
  destruct (add_peers_ok pro2 b auth d2 Q2 FA ltac:(cbn [d2 d_pcount]; lia)) as (dr & E2 & QR & M4).
  assert (Hkey : In (x_base X a) (map p_s (d_peers dr))) by (apply M4; right; exact Hin).
  destruct QI as [I1 I2 I3 I4 I5 I6 I7]. destruct QR as [R1 R2 R3 R4 R5 R6 R7].
  destruct (lookup_static dr (x_base X a) R5 (Lbase a) Hkey) as (entry & Hentry).
  assert (Hl : lookup_peer_by_id di (p_id peer) = Some peer).
  { unfold lookup_peer_by_id. rewrite Epeers, Eid. cbn [Z.eqb find]. rewrite Eid. reflexivity. }
  assert (HP : honest_pair X di dr (p_id peer) peer entry).
  { unfold honest_pair. rewrite I1, I2, I3, R1, R2, R3. split; [exact Epro|]. split; [reflexivity|]. split; [reflexivity|]. split; [exact Hl|]. split; [exact Eps|exact Hentry]. }
  destruct (session_create_initiator X di (p_id peer) ea) as [[di' si]|] eqn:Ci.
  2:{ exfalso. unfold session_create_initiator in Ci. rewrite I4, Hl in Ci. discriminate. }
  destruct (session_create_responder X dr eb) as [[dr' sr]|] eqn:Cr.
  2:{ exfalso. unfold session_create_responder in Cr. rewrite R4 in Cr. discriminate. }
  assert (Edi : di' = count_session di) by (unfold session_create_initiator in Ci; rewrite I4, Hl in Ci; injection Ci as <- _; reflexivity).
  assert (Edr : dr' = count_session dr) by (unfold session_create_responder in Cr; rewrite R4 in Cr; injection Cr as <- _; reflexivity).
  assert (S0 : in_step si true 0).
  { unfold session_create_initiator in Ci. rewrite I4, Hl in Ci. injection Ci as _ <-. split; [reflexivity|]. eexists. split; reflexivity. }
  pose proof (eq_refl : zlen (@nil byte) = 0) as L0.
  destruct (handshake_completes X OK di dr (p_id peer) peer entry ea eb di' dr' si sr [] [] [] HP Ci Cr ltac:(lia) ltac:(lia) ltac:(lia))
    as (m1 & m2 & m3 & si1 & si2 & si3 & sr1 & sr2 & sr3 & ti & tr & W1 & V1 & W2 & V2 & W3 & V3 & L1 & L2 & L3 & _).
  assert (S2 : exists h, s_st si2 = Handshake h /\ h_step h = 2).
  { destruct S0 as (_ & h & Es & Eh).
    assert (G : gstep X (GWrite (pack_message_with_conf_level 0 [])) si = (si1, RSuccess, GMessage m1)) by (cbn [gstep]; rewrite W1; reflexivity).
    destruct (handshake_success X _ _ h _ _ Es G) as (_ & (h1 & Eh1 & Es1) & _). rewrite Eh in Es1, Eh1. cbn in Es1.
    assert (G1 : gstep X (GRead di m2) si1 = (si2, RSuccess, GPayload (mkEncap (Auth_level 2) []))) by (cbn [gstep]; rewrite V2; reflexivity).
    destruct (handshake_success X _ _ h1 _ _ Es1 G1) as (_ & (h2 & Eh2 & Es2) & _). rewrite Eh1 in Es2, Eh2. exists h2. split; [exact Es2|exact Eh2]. }
  destruct S2 as (h2 & Es2 & Eh2).
  exists (di', Some si1), m1, (dr', Some sr2), m2, (di', Some si2).
  assert (A1 : py_initiator_session X clear a (x_base X b) iname rname dsti ea = Ret ((di', Some si1), m1)).
  { unfold py_initiator_session, py_pubkey. rewrite (key32_view a La). cbn [pbind].
    unfold arg_of in D1, E1. unfold or_default. rewrite D1. cbn [pbind]. rewrite E1. cbn [pbind py_get_peerid].
    unfold py_create_session_initiator. rewrite Ci. cbn [pbind]. unfold py_initiator_1st_msg. rewrite (py_write_clear _ _ _ _ W1). reflexivity. }
  assert (A2 : py_responder_session X clear b auth m1 dstr name eb = Ret ((dr', Some sr2), m2)).
  { unfold py_responder_session, py_pubkey. rewrite (key32_view b Lb). cbn [pbind].
    unfold arg_of in D2. unfold or_default. rewrite D2. cbn [pbind]. rewrite E2. cbn [pbind].
    unfold py_create_session_responder. rewrite Cr. cbn [pbind]. unfold py_responder_1st_msg. rewrite Edr.
    rewrite (py_read_clear (count_session dr) sr 0 m1 sr1 _ [] ltac:(lia) (eq_trans (read_count dr sr m1) V1) eq_refl).
    unfold py_initiator_1st_msg. rewrite (py_write_clear _ _ _ _ W2). reflexivity. }
  assert (A3 : py_initiator_session_complete X clear (di', Some si1) m2 = ((di', Some si2), Ret tt)).
  { unfold py_initiator_session_complete, py_initiator_handshake_finish. cbn [fst snd]. rewrite Edi.
    rewrite (py_read_clear (count_session di) si1 0 m2 si2 _ [] ltac:(lia) (eq_trans (read_count di si1 m2) V2) eq_refl). reflexivity. }
  split; [exact A1|]. split; [exact A2|]. split; [exact A3|].
  intros es Les Fes Wes. apply phase_a; try assumption. clear es Les Fes Wes.
  intros p Lp.
  destruct (handshake_completes X OK di dr (p_id peer) peer entry ea eb di' dr' si sr [] [] p HP Ci Cr ltac:(lia) ltac:(lia) ltac:(lia))
    as (n1 & n2 & n3 & ti1 & ti2 & ti3 & tr1 & tr2 & tr3 & ui & ur & X1 & Y1 & X2 & Y2 & X3 & Y3 & _ & _ & Ln3 & Ti & Tr & Th & K1 & K2 & _ & _ & N1 & N2 & N3 & N4 & _).
  rewrite W1 in X1. injection X1 as <- <-. rewrite V1 in Y1. injection Y1 as <-. rewrite W2 in X2. injection X2 as <- <-. rewrite V2 in Y2. injection Y2 as <-.
  exists ti3, n3, tr3, ui, ur. pose proof (zlen_nonneg p) as Zp.
  split.
  { unfold py_send, py_send_msg. cbn [fst snd]. rewrite c_int_small by lia.
    assert (Ep : firstn (Z.to_nat (zlen p)) p = p) by (unfold zlen; rewrite Nat2Z.id; apply firstn_all). rewrite Ep.
    rewrite (py_write_clear si2 _ ti3 n3); [reflexivity|]. rewrite (write_msg_five si2 h2 p Es2 Eh2). exact X3. }
  split.
  { unfold py_recv, py_read_msg. cbn [fst snd]. rewrite Edr.
    rewrite (py_read_clear (count_session dr) sr2 2 n3 tr3 _ p ltac:(lia) (eq_trans (read_count dr sr2 n3) Y3) (unpack_high 2 2 p ltac:(lia))). reflexivity. }
  repeat (split; [assumption|]). assumption.
Qed.

End P.
