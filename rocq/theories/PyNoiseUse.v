(** What any use of the Noise functions of the Python package can lead to. *)
From Coq Require Import ZArith Lia List Bool.
From Coq.Strings Require Import Byte.
From Verif Require Import Bytes Res Mem PyModel XkModel XkSpec XkProofs XkChannel XkSession XkRegistry XkNonces XkNoise PyNoise PyNoiseSpec PyNoiseProofs.
Import ListNotations.
Open Scope list_scope.
Open Scope Z_scope.

Arguments zeros : simpl never.
Arguments le_bytes : simpl never.
Arguments firstn : simpl never.

Lemma key_view k : 31 <= zlen k -> exists k', c_key k = Ret k'.
Proof. intros H. unfold c_key. replace (zlen k <? 31) with false by (symmetry; apply Z.ltb_ge; exact H). eauto. Qed.
Lemma view_len s m : c_view s = Ret m -> py_len s <= zlen m.
Proof.
  destruct s as [b|l]; cbn [c_view py_len].
  - intros E. injection E as <-. rewrite zlen_app. pose proof (zlen_nonneg (zeros 1)). lia.
  - destruct (existsb _ l); [discriminate|]. intros E. injection E as <-.
    assert (Hl : (length (flat_map (le_bytes 4) l) = 4 * length l)%nat).
    { clear. induction l as [|c l IH]; [reflexivity|]. cbn [flat_map length]. rewrite app_length, IH, le_bytes_length. lia. }
    unfold zlen. rewrite app_length, Hl. lia.
Qed.
Lemma view_nb s : c_view s <> Bad.
Proof. destruct s as [b|l]; cbn [c_view]; [discriminate|]. destruct (existsb _ l); discriminate. Qed.

Section U.
Variable X : xprims.
Variable J : junk.

(** ** C75: no undefined behaviour *)
Lemma create_device_cases pro name k : 31 <= zlen k -> py_create_device X pro name k = Raise \/
  exists d, py_create_device X pro name k = Ret d /\ d_states d = 1 /\ d_pcount d = 1 /\ d_peers d = [].
Proof.
  intros Hk. unfold py_create_device. destruct (key_view k Hk) as (k' & ->).
  assert (Hl : 0 <= py_len pro) by (destruct pro; apply zlen_nonneg).
  unfold c_int. destruct ((- 2 ^ 63 <=? py_len pro) && (py_len pro <? 2 ^ 64)); cbn [pbind]; [|left; reflexivity].
  pose proof (view_nb pro) as N1. destruct (c_view pro) as [m| |] eqn:V; cbn [pbind]; [|left; reflexivity|contradiction].
  pose proof (view_nb name) as N2. destruct (c_view name) as [m'| |]; cbn [pbind]; [|left; reflexivity|contradiction].
  apply view_len in V. pose proof (Z.mod_le (py_len pro) (2 ^ 32) Hl ltac:(lia)).
  replace (zlen m <? py_len pro mod 2 ^ 32) with false by (symmetry; apply Z.ltb_ge; lia).
  right. unfold device_create. eexists. split; [reflexivity|]. repeat split.
Qed.
Lemma add_peer_cases d name key : 31 <= zlen key -> py_add_peer d name key = Raise \/
  exists d' p, py_add_peer d name key = Ret (d', p) /\ d_states d' = d_states d /\
    (forall q, p = Some q -> lookup_peer_by_id d' (p_id q) = Some q \/ p_id q = 0) /\
    (d_peers d = [] -> d_pcount d = 1 -> exists q, p = Some q /\ p_id q = 1 /\ lookup_peer_by_id d' 1 = Some q).
Proof.
  intros Hk. unfold py_add_peer. destruct (key_view key Hk) as (k' & ->). pose proof (view_nb name) as N1.
  destruct (c_view name) as [m| |]; cbn [pbind]; [|left; reflexivity|contradiction]. right.
  destruct (device_add_peer d (c_string m) k') as [[d' p]|] eqn:A; unfold device_add_peer in A.
  - destruct (_ || _); [discriminate|]. injection A as <- <-. eexists _, (Some _). split; [reflexivity|]. split; [reflexivity|]. split.
    + intros q E. injection E as <-. unfold lookup_peer_by_id. cbn [p_id d_peers find]. destruct (d_pcount d =? 0) eqn:Z0; [right; apply Z.eqb_eq; exact Z0|]. rewrite Z.eqb_refl. left. reflexivity.
    + intros _ E. eexists. split; [reflexivity|]. cbn [p_id]. split; [exact E|]. unfold lookup_peer_by_id. cbn [d_peers find p_id]. rewrite E. reflexivity.
  - exists d, None. split; [reflexivity|]. split; [reflexivity|]. split; [discriminate|]. intros E1 E2.
    unfold lookup_peer_by_static in A. rewrite E1, E2 in A. discriminate.
Qed.
Lemma add_peers_cases auth : forall d, Forall (fun kn => 31 <= zlen (fst kn)) auth -> py_add_peers d auth = Raise \/
  exists d', py_add_peers d auth = Ret d' /\ d_states d' = d_states d.
Proof.
  induction auth as [|[key name] auth IH]; intros d F; cbn [py_add_peers].
  - right. eauto.
  - inversion F as [|? ? F1 F2]; subst. cbn [fst] in F1. destruct (add_peer_cases d name key F1) as [ -> |(d1 & p & -> & S1 & _)]; [left; reflexivity|]. cbn [pbind].
    destruct (IH d1 F2) as [ -> |(d' & -> & S2)]; [left; reflexivity|]. right. exists d'. split; [reflexivity|congruence].
Qed.

Hypothesis JO : junk_ok J.

Lemma code_zero c : code_int J c = 0 -> c = RSuccess /\ j_code J = 0.
Proof. destruct JO as (H & _). unfold code_int. destruct c; [split; [reflexivity|lia]| |]; lia. Qed.
Lemma write_cases s m : exists s', fst (py_write X J (Some s) m) = Some s' /\ snd (py_write X J (Some s) m) <> Bad.
Proof.
  unfold py_write. destruct (session_write X m s) as [[s1 c] r]. cbn [fst snd]. exists s1. split; [reflexivity|].
  destruct (negb _); [discriminate|]. destruct r; discriminate.
Qed.
Lemma read_cases d s l m : exists s', fst (py_read X J d (Some s) l m) = Some s' /\ snd (py_read X J d (Some s) l m) <> Bad.
Proof.
  unfold py_read. destruct (session_read X d s _) as [[s1 c] r] eqn:R. cbn [fst snd]. exists s1. split; [reflexivity|].
  destruct (code_int J c =? 0) eqn:E; cbn [negb]; [|discriminate]. apply Z.eqb_eq in E. apply code_zero in E. destruct E as (-> & _).
  destruct r as [e|].
  - destruct (unpack_message_with_auth_level l e); destruct (_ =? 0); discriminate.
  - exfalso. unfold session_read in R. destruct (s_st s) as [h|t].
    + destruct (4 <=? h_step h); [discriminate|]. destruct (_ && _); [|discriminate]. destruct (payload_len _ _); [|discriminate].
      destruct (state_handshake_read _ _ _ _ _ _) as [s2 [e|p]]; discriminate.
    + destruct (payload_len _ _); [|discriminate]. destruct (state_transport_read _ _ _ _) as [t' [e|p]]; discriminate.
Qed.
Lemma step_cases o d s : exists s', fst (pystep X J o (d, Some s)) = (d, Some s') /\ snd (pystep X J o (d, Some s)) <> Bad.
Proof.
  destruct o as [m|p|c]; cbn [pystep].
  - unfold py_initiator_session_complete, py_initiator_handshake_finish. cbn [fst snd]. destruct (read_cases d s 0 m) as (s' & E1 & E2).
    destruct (py_read X J d (Some s) 0 m) as [s1 r]. cbn [fst snd] in *. subst s1. exists s'. split; [reflexivity|]. destruct r; try discriminate. contradiction.
  - unfold py_send, py_send_msg. cbn [fst snd]. unfold c_int. destruct (_ && _).
    + destruct (write_cases s (pack_message_with_conf_level 5 (firstn (Z.to_nat (zlen p mod 2 ^ 32)) p))) as (s' & E1 & E2).
      destruct (py_write X J (Some s) _) as [s1 r]. cbn [fst snd] in *. subst s1. exists s'. split; [reflexivity|exact E2].
    + exists s. split; [reflexivity|discriminate].
  - unfold py_recv, py_read_msg. cbn [fst snd]. destruct (read_cases d s 2 c) as (s' & E1 & E2).
    destruct (py_read X J d (Some s) 2 c) as [s1 r]. cbn [fst snd] in *. subst s1. exists s'. split; [reflexivity|exact E2].
Qed.
Lemma run_cases ops : forall d s, Forall (fun e => snd e <> Bad) (snd (pyrun X J ops (d, Some s))).
Proof.
  induction ops as [|o ops IH]; intros d s; cbn [pyrun]; [constructor|].
  destruct (step_cases o d s) as (s' & E1 & E2). destruct (pystep X J o (d, Some s)) as [ps1 r]. cbn [fst snd] in *. subst ps1.
  specialize (IH d s'). destruct (pyrun X J ops (d, Some s')) as [ps2 tr]. cbn [snd] in *. constructor; [exact E2|exact IH].
Qed.

Theorem high_level_safe :
  (forall a rpub iname rname dst e, 31 <= zlen a -> 31 <= zlen rpub ->
     py_initiator_session X J a rpub iname rname dst e <> Bad
     /\ forall ps m ops, py_initiator_session X J a rpub iname rname dst e = Ret (ps, m) -> Forall (fun r => snd r <> Bad) (snd (pyrun X J ops ps)))
  /\ (forall b auth msg dst name e, 31 <= zlen b -> Forall (fun kn => 31 <= zlen (fst kn)) auth ->
     py_responder_session X J b auth msg dst name e <> Bad
     /\ forall ps m ops, py_responder_session X J b auth msg dst name e = Ret (ps, m) -> Forall (fun r => snd r <> Bad) (snd (pyrun X J ops ps))).
Proof.
  split.
  - intros a rpub iname rname dst e Ha Hr. unfold py_initiator_session, py_pubkey. destruct (key_view a Ha) as (k & ->). cbn [pbind].
    destruct (create_device_cases (or_default dst default_dst) (or_default iname default_iname) a Ha) as [ -> |(d & -> & D1 & D2 & D3)]; cbn [pbind]; [split; discriminate|].
    destruct (add_peer_cases d (or_default rname default_rname) rpub Hr) as [ -> |(d1 & p & -> & E1 & _ & E2)]; cbn [pbind]; [split; discriminate|].
    destruct (E2 D3 D2) as (q & -> & Q1 & Q2). cbn [py_get_peerid pbind]. rewrite Q1.
    unfold py_create_session_initiator, session_create_initiator. rewrite E1, D1, Q2. change (1 =? 4294967295) with false. cbn [pbind].
    match goal with |- context [py_initiator_1st_msg X J (Some ?s)] => set (s0 := s) end.
    destruct (write_cases s0 (pack_message_with_conf_level 0 [])) as (s' & W1 & W2). unfold py_initiator_1st_msg.
    destruct (py_write X J (Some s0) _) as [s1 r]. cbn [fst snd] in *. subst s1.
    destruct r as [m| |]; cbn [pbind]; [|split; discriminate|contradiction]. split; [discriminate|].
    intros ps m' ops E. injection E as <- <-. apply run_cases.
  - intros b auth msg dst name e Hb Hf. unfold py_responder_session, py_pubkey. destruct (key_view b Hb) as (k & ->). cbn [pbind].
    destruct (create_device_cases (or_default dst default_dst) (or_default name default_rname) b Hb) as [ -> |(d & -> & D1 & D2 & D3)]; cbn [pbind]; [split; discriminate|].
    destruct (add_peers_cases auth d Hf) as [ -> |(d1 & -> & E1)]; cbn [pbind]; [split; discriminate|].
    unfold py_create_session_responder, session_create_responder. rewrite E1, D1. change (1 =? 4294967295) with false. cbn [pbind].
    match goal with |- context [py_responder_1st_msg X J ?d (Some ?s) msg] => set (s0 := s); set (d0 := d) end.
    unfold py_responder_1st_msg. destruct (read_cases d0 s0 0 msg) as (s' & W1 & W2).
    destruct (py_read X J d0 (Some s0) 0 msg) as [s1 r]. cbn [fst snd] in *. subst s1.
    destruct r as [m| |]; cbn [pbind]; [|split; discriminate|contradiction].
    unfold py_initiator_1st_msg. destruct (write_cases s' (pack_message_with_conf_level 0 [])) as (s2 & V1 & V2).
    destruct (py_write X J (Some s') _) as [s3 r]. cbn [fst snd] in *. subst s3.
    destruct r as [m'| |]; cbn [pbind]; [|split; discriminate|contradiction]. split; [discriminate|].
    intros ps m0 ops E. injection E as <- <-. apply run_cases.
Qed.

End U.

(** ** C76: who a responder talks to *)
Section I.
Variable X : xprims.
Hypothesis OK : xprims_ok X.

Definition gop_of (d : xdev) (o : pyop) : gop :=
  match o with
  | PComplete m => GRead d (firstn (Z.to_nat (zlen m mod 2 ^ 32)) m)
  | PSend p => GWrite (pack_message_with_conf_level 5 (firstn (Z.to_nat (zlen p mod 2 ^ 32)) p))
  | PRecv c => GRead d (firstn (Z.to_nat (zlen c mod 2 ^ 32)) c)
  end.
Lemma firstn_mod_len (m : bytes) : zlen (firstn (Z.to_nat (zlen m mod 2 ^ 32)) m) < 2 ^ 32.
Proof. pose proof (Z.mod_pos_bound (zlen m) (2 ^ 32) ltac:(lia)). rewrite zlen_firstn. lia. Qed.
Lemma gop_of_ok d o : gop_ok (gop_of d o).
Proof. destruct o; cbn [gop_of gop_ok em_msg pack_message_with_conf_level]; apply firstn_mod_len. Qed.

Lemma step_gop o d s : pyop_len o < 2 ^ 32 -> exists s' c r, gstep X (gop_of d o) s = (s', c, r) /\ fst (pystep X clear o (d, Some s)) = (d, Some s') /\
  (forall p, snd (pystep X clear o (d, Some s)) = Ret p -> c = RSuccess).
Proof.
  intros Hl. destruct o as [m|p|m]; cbn [pystep gop_of gstep pyop_len] in *.
  - unfold py_initiator_session_complete, py_initiator_handshake_finish, py_read. cbn [fst snd].
    destruct (session_read X d s _) as [[s1 c] r]. cbn [fst snd]. eexists _, _, _. split; [reflexivity|]. split; [reflexivity|].
    intros p. destruct c; [reflexivity| |]; discriminate.
  - unfold py_send, py_send_msg. cbn [fst snd]. unfold c_int. pose proof (zlen_nonneg p).
    replace (- 2 ^ 63 <=? zlen p) with true by (symmetry; apply Z.leb_le; lia). replace (zlen p <? 2 ^ 64) with true by (symmetry; apply Z.ltb_lt; lia).
    cbn [andb]. unfold py_write. destruct (session_write X _ s) as [[s1 c] r]. cbn [fst snd]. eexists _, _, _. split; [reflexivity|]. split; [reflexivity|].
    intros q. destruct c; [reflexivity| |]; discriminate.
  - unfold py_recv, py_read_msg, py_read. cbn [fst snd].
    destruct (session_read X d s _) as [[s1 c] r]. cbn [fst snd]. eexists _, _, _. split; [reflexivity|]. split; [reflexivity|].
    intros p. destruct c; [reflexivity| |]; discriminate.
Qed.
Lemma run_gop ops : forall d s ps tr, Forall (fun o => pyop_len o < 2 ^ 32) ops -> pyrun X clear ops (d, Some s) = (ps, tr) -> exists s' gtr,
  ps = (d, Some s') /\ grun X (map (gop_of d) ops) s = (s', gtr) /\ ((exists o p, In (o, Ret p) tr) -> (1 <= length (filter succeeded gtr))%nat).
Proof.
  induction ops as [|o ops IH]; intros d s ps tr F R; cbn [pyrun map grun] in *.
  - injection R as <- <-. exists s, []. split; [reflexivity|]. split; [reflexivity|]. intros (o & p & []).
  - inversion F as [|? ? F1 F2]; subst. destruct (step_gop o d s F1) as (s1 & c & r & G & E1 & E2).
    destruct (pystep X clear o (d, Some s)) as [ps1 out]. cbn [fst snd] in *. subst ps1.
    destruct (pyrun X clear ops (d, Some s1)) as [ps2 tr2] eqn:R2. injection R as <- <-.
    destruct (IH _ _ _ _ F2 R2) as (s' & gtr & P1 & P2 & P3). rewrite G, P2. exists s', ((gop_of d o, c, r) :: gtr). split; [exact P1|]. split; [reflexivity|].
    intros (o' & p & [Hin|Hin]).
    + injection Hin as _ Eo. rewrite (E2 p Eo). cbn. lia.
    + specialize (P3 (ex_intro _ o' (ex_intro _ p Hin))). cbn [filter]. destruct (succeeded _); cbn [length]; lia.
Qed.

Lemma grun_app a : forall b s, grun X (a ++ b) s = let '(s1, t1) := grun X a s in let '(s2, t2) := grun X b s1 in (s2, t1 ++ t2).
Proof.
  induction a as [|o a IH]; intros b s; cbn [app grun].
  - destruct (grun X b s). reflexivity.
  - destruct (gstep X o s) as [[s1 c] r]. rewrite IH. destruct (grun X a s1) as [s2 t1]. destruct (grun X b s2) as [s3 t2]. reflexivity.
Qed.

Lemma grun_ops ops : forall s s' trc, grun X ops s = (s', trc) -> map (fun e => fst (fst e)) trc = ops.
Proof.
  induction ops as [|o ops IH]; intros s s' trc R; cbn [grun] in R.
  - injection R as _ <-. reflexivity.
  - destruct (gstep X o s) as [[s1 c] r]. destruct (grun X ops s1) as [s2 t2] eqn:R2. injection R as _ <-. cbn [map fst]. f_equal. exact (IH _ _ _ R2).
Qed.
Lemma success_alive o s s' r : gstep X o s = (s', RSuccess, r) -> forall h, s_st s' = Handshake h -> h_step h < 4.
Proof.
  destruct o as [m|d i]; unfold gstep.
  - destruct (session_write X m s) as [[s1 c1] r1] eqn:E. intros E2; injection E2 as <- -> <-.
    unfold session_write in E. destruct (s_st s) as [h|t] eqn:Es.
    + destruct (4 <=? h_step h); [discriminate|]. destruct (compute_next_message_len _ _) as [o|]; [|discriminate]. destruct (sec_ok _ _); [|discriminate].
      unfold state_handshake_write in E. destruct (write_msg X (s_init s) h (em_msg m) o) as [h' [e|b]] eqn:W; [discriminate|].
      injection E as <- _. apply write_msg_success in W. intros h0. cbn [s_st with_st]. destruct (h_step h =? 2).
      * destruct (split_transport X (s_init s) h') as (t & ->). discriminate.
      * intros E0. injection E0 as <-. lia.
    + destruct (compute_next_message_len _ _) as [o|]; [|discriminate]. destruct (sec_ok _ _); [|discriminate].
      destruct (state_transport_write X t (em_msg m) o) as [t' [e|b]]; [discriminate|]. injection E as <- _. discriminate.
  - destruct (session_read X d s i) as [[s1 c1] r1] eqn:E. intros E2; injection E2 as <- -> <-.
    unfold session_read in E. destruct (s_st s) as [h|t] eqn:Es.
    + destruct (4 <=? h_step h); [discriminate|]. destruct (Bool.eqb _ _ && _); [|discriminate]. destruct (payload_len _ _) as [o|]; [|discriminate].
      unfold state_handshake_read in E. destruct (read_msg X (s_init s) d h o i) as [h' [e|[b q]]] eqn:W; [discriminate|].
      apply read_msg_success in W. intros h0.
      assert (Es1 : s_st s1 = (if h_step h =? 2 then split X (s_init s) h' else Handshake h')) by (destruct q; injection E as <- _; reflexivity).
      rewrite Es1. destruct (h_step h =? 2).
      * destruct (split_transport X (s_init s) h') as (t & ->). discriminate.
      * intros E0. injection E0 as <-. lia.
    + destruct (payload_len _ _) as [o|]; [|discriminate].
      destruct (state_transport_read X t o i) as [t' [e|b]]; [discriminate|]. injection E as <- _. discriminate.
Qed.
Lemma stage_success ops : forall s s' trc k, Forall gop_ok ops -> stage (s_st s) k -> keys32 (s_st s) -> (2 <= k)%nat -> grun X ops s = (s', trc) ->
  (exists t, s_st s = Transport t) \/ (1 <= length (filter succeeded trc))%nat -> in_transport s'.
Proof.
  induction ops as [|o ops IH]; intros s s' trc k F St K Hk R H; cbn [grun] in R.
  - injection R as <- <-. destruct H as [(t & E)|H]; [|cbn in H; lia]. unfold in_transport, session_get_status. rewrite E. reflexivity.
  - inversion F as [|? ? Fo F']; subst.
    destruct (gstep X o s) as [[s1 c1] r1] eqn:G. destruct (grun X ops s1) as [s2 tr2] eqn:R2. injection R as <- <-.
    destruct (good_step X OK _ _ _ _ _ _ Fo St K G) as (_ & K1 & S1).
    pose proof (step_outcome X _ _ _ _ _ G) as (_ & _ & C).
    destruct c1 as [|e|e]; cbn [succeeded] in S1.
    + apply (IH _ _ _ _ F' S1 K1 ltac:(lia) R2). left. destruct (s_st s1) as [h|t] eqn:Es1; [|eauto]. exfalso.
      destruct S1 as [(_ & L)|E4]; [lia|].
      pose proof (success_alive _ _ _ _ G h Es1). lia.
    + destruct C as (-> & _). apply (IH _ _ _ _ F' S1 K1 Hk R2). cbn [filter succeeded] in H. destruct H; [left|right]; assumption.
    + destruct C as (D & _ & _ & (h & Eh)). exfalso. destruct H as [(t & E)|H]; [rewrite Eh in E; discriminate|].
      cbn [filter succeeded] in H.
      apply (is_dead_dead X) in D. clear -D H R2 F'. revert s1 s2 tr2 D H R2. induction ops as [|o' ops IH2]; intros s1 s2 tr2 D H R2; cbn [grun] in R2.
      * injection R2 as _ <-. cbn in H. lia.
      * inversion F' as [|? ? Fo' F'']; subst. rewrite (D o' Fo') in R2. destruct (grun X ops s1) as [s3 t3] eqn:R3. injection R2 as _ <-. cbn [filter succeeded] in H. exact (IH2 F'' _ _ _ D H R3).
Qed.
Definition dev_ids (d : xdev) : Prop := NoDup (map p_id (d_peers d)) /\ (forall p, In p (d_peers d) -> 1 <= p_id p < d_pcount d).
Lemma add_peers_ids pro k auth : forall d d', pdev X pro k d -> dev_ids d ->
  Forall (fun kn => zlen (fst kn) = 32 /\ arg_ok (snd kn)) auth -> d_pcount d + zlen auth < 4294967295 ->
  py_add_peers d auth = Ret d' -> dev_ids d'.
Proof.
  induction auth as [|[key name] auth IH]; intros d d' Hd Hi HF Hc E; cbn [py_add_peers] in E.
  - injection E as <-. exact Hi.
  - inversion HF as [|? ? (F1 & F2) F3]; subst. cbn [fst snd] in F1, F2. rewrite zlen_cons in Hc. pose proof (zlen_nonneg auth) as Z0.
    destruct (add_peer_ok X pro k d name key Hd F2 F1 ltac:(lia)) as (d1 & p & E1 & D1 & C1 & _). rewrite E1 in E. cbn [pbind] in E.
    apply (IH d1 d' D1); [|exact F3|lia|exact E].
    unfold py_add_peer in E1. destruct (view_ok name F2) as (m & Em & _). rewrite Em, (key32_view key F1) in E1. cbn [pbind] in E1.
    unfold device_add_peer in E1. destruct (_ || _); injection E1 as <- <-; [exact Hi|].
    destruct Hi as (N & I). pose proof (pd_len _ _ _ _ Hd) as Ln. pose proof (zlen_nonneg (d_peers d)) as Z1.
    assert (U : u32 (d_pcount d + 1) = d_pcount d + 1) by (apply u32_small; lia).
    split; cbn [d_peers d_pcount map p_id]; rewrite ?U.
    + constructor; [|exact N]. intros Hin. apply in_map_iff in Hin. destruct Hin as (q & Eq & Hq). specialize (I q Hq). lia.
    + intros q [ <- |Hq]; [cbn [p_id]; lia|]. specialize (I q Hq). lia.
Qed.

Theorem responder_peer b auth msg dst name e ps m2 ops ps' tr :
  zlen b = 32 -> arg_ok (arg_of dst default_dst) -> arg_ok (arg_of name default_rname) ->
  Forall (fun kn => zlen (fst kn) = 32 /\ arg_ok (snd kn)) auth -> zlen auth < 2 ^ 32 - 2 ->
  py_responder_session X clear b auth msg dst name e = Ret (ps, m2) ->
  Forall (fun o => pyop_len o < 2 ^ 32) ops -> pyrun X clear ops ps = (ps', tr) ->
  (exists o p, In (o, Ret p) tr) ->
  exists k, py_get_pubkey (snd ps') (fst ps') = Ret k /\ In k (map fst auth)
    /\ exists c kk h, (In (PRecv c) ops \/ In (PComplete c) ops \/ c = msg) /\ x_open X kk (nonce12 1) h (firstn 48 c) = Some k.
Proof.
  intros Lb Ad An FA La E FO R Hin. unfold py_responder_session, py_pubkey in E. rewrite (key32_view b Lb) in E. cbn [pbind] in E.
  change (or_default dst default_dst) with (arg_of dst default_dst) in E. change (or_default name default_rname) with (arg_of name default_rname) in E.
  destruct (create_device_ok X _ _ _ Ad An Lb) as (info & D). rewrite D in E. cbn [pbind] in E.
  set (d0 := mkXdev info (zeros 32) b (x_base X b) (prologue_of (arg_of dst default_dst)) 1 [] 1) in *.
  assert (Q : pdev X (prologue_of (arg_of dst default_dst)) b d0) by (constructor; cbn; try reflexivity; try constructor; lia).
  assert (Lc : d_pcount d0 + zlen auth < 4294967295) by (change (d_pcount d0) with 1; lia).
  destruct (add_peers_ok X _ b auth d0 Q FA Lc) as (dr & E2 & [R1 R2 R3 R4 R5 R6 R7] & M). rewrite E2 in E. cbn [pbind] in E.
  unfold py_create_session_responder in E. destruct (session_create_responder X dr e) as [[d s0]|] eqn:Cr; [|exfalso; unfold session_create_responder in Cr; rewrite R4 in Cr; discriminate].
  cbn [pbind] in E. assert (Ed : d = count_session dr) by (unfold session_create_responder in Cr; rewrite R4 in Cr; injection Cr as <- _; reflexivity).
  set (m' := firstn (Z.to_nat (zlen msg mod 2 ^ 32)) msg) in *.
  unfold py_responder_1st_msg, py_read in E. fold m' in E.
  destruct (session_read X d s0 m') as [[s1 c1] r1] eqn:V1. rewrite clear_code in E. destruct c1; [|discriminate|discriminate].
  destruct r1 as [e1|]; [|discriminate].
  assert (E' : (let '(s, r) := py_initiator_1st_msg X clear (Some s1) in get m <- r ;; Ret (d, s, m)) = Ret (ps, m2)).
  { destruct (unpack_message_with_auth_level 0 e1); [exact E|discriminate E]. }
  clear E. unfold py_initiator_1st_msg, py_write in E'. destruct (session_write X (pack_message_with_conf_level 0 []) s1) as [[s2 c2] r2] eqn:V2.
  rewrite clear_code in E'. destruct c2; [|discriminate|discriminate].
  assert (ps = (d, Some s2)) as -> by (destruct r2; injection E' as <- _; reflexivity). clear E'.
  destruct (run_gop ops d s2 ps' tr FO R) as (s' & gtr & -> & G & Hs). specialize (Hs Hin).
  assert (G2 : exists o2, grun X [GRead d m'; GWrite (pack_message_with_conf_level 0 [])] s0 = (s2, [(GRead d m', RSuccess, GPayload e1); (GWrite (pack_message_with_conf_level 0 []), RSuccess, o2)])).
  { eexists. cbn [grun gstep]. rewrite V1, V2. reflexivity. }
  destruct G2 as (o2 & G2).
  assert (G3 : grun X ([GRead d m'; GWrite (pack_message_with_conf_level 0 [])] ++ map (gop_of d) ops) s0
    = (s', [(GRead d m', RSuccess, GPayload e1); (GWrite (pack_message_with_conf_level 0 []), RSuccess, o2)] ++ gtr)) by (rewrite grun_app, G2, G; reflexivity).
  assert (FG : Forall gop_ok ([GRead d m'; GWrite (pack_message_with_conf_level 0 [])] ++ map (gop_of d) ops)).
  { apply Forall_app. split.
    - constructor; [apply firstn_mod_len|]. constructor; [change (0 < 2 ^ 32); lia|constructor].
    - apply Forall_forall. intros g Hg. apply in_map_iff in Hg. destruct Hg as (o & <- & _). apply gop_of_ok. }
  destruct (created_hs X _ 0 _ _ _ (or_introl Cr)) as (h & Eh & Zh & H1 & H2 & _).
  assert (St : stage (s_st s0) 0) by (rewrite Eh; left; split; [exact Zh|lia]).
  assert (K : keys32 (s_st s0)) by (rewrite Eh; split; [rewrite H2; apply (ok_base_len X OK)|rewrite H1, R3; apply (ok_base_len X OK)]).
  assert (St2 : stage (s_st s2) 2 /\ keys32 (s_st s2)).
  { inversion FG as [|? ? G1a G1b]; subst. inversion G1b as [|? ? G1c _]; subst.
    destruct (good_step X OK _ _ _ _ _ _ G1a St K ltac:(cbn [gstep]; rewrite V1; reflexivity)) as (_ & Ka & Sa).
    cbn [succeeded] in Sa.
    destruct (good_step X OK _ _ _ _ _ _ G1c Sa Ka ltac:(cbn [gstep]; rewrite V2; reflexivity)) as (_ & Kb & Sb).
    split; [exact Sb|exact Kb]. }
  assert (T : in_transport s').
  { apply Forall_app in FG. destruct FG as (_ & FG). refine (stage_success _ _ _ _ 2 FG (proj1 St2) (proj2 St2) _ G _); [lia|]. right. exact Hs. }
  destruct (responder_identity X _ _ _ _ _ _ _ Cr FG G3) as (_ & P). destruct (P T) as (dev & input & out & q & kk & hh & key & Ht & L48 & Hq & Hid & _ & Ho & Hl). clear P.
  assert (Hgr : In (GRead dev input) ([GRead d m'; GWrite (pack_message_with_conf_level 0 [])] ++ map (gop_of d) ops)).
  { rewrite <- (grun_ops _ _ _ _ G3). apply in_map_iff. exists (GRead dev input, RSuccess, out). split; [reflexivity|exact Ht]. }
  assert (Hdev : dev = d /\ exists c, (In (PRecv c) ops \/ In (PComplete c) ops \/ c = msg) /\ x_open X kk (nonce12 1) hh (firstn 48 c) = Some key).
  { assert (Hcut : forall c, input = firstn (Z.to_nat (zlen c mod 2 ^ 32)) c -> x_open X kk (nonce12 1) hh (firstn 48 c) = Some key).
    { intros c Ec. rewrite <- Ho, Ec. f_equal. rewrite firstn_firstn.
      rewrite Ec, zlen_firstn in L48. rewrite Nat.min_l by lia. reflexivity. }
    apply in_app_or in Hgr. destruct Hgr as [[Hg|[Hg|[]]]|Hg].
    - injection Hg as <- <-. split; [reflexivity|]. exists msg. split; [auto|]. apply Hcut. reflexivity.
    - discriminate.
    - apply in_map_iff in Hg. destruct Hg as (o & Eo & Ho2). destruct o as [c|p|c]; cbn [gop_of] in Eo; try discriminate;
        injection Eo as <- <-; (split; [reflexivity|]); exists c; (split; [auto|apply Hcut; reflexivity]). }
  destruct Hdev as (-> & Hc).
  assert (Hi : dev_ids d).
  { subst d. change (dev_ids (count_session dr)) with (dev_ids dr). refine (add_peers_ids _ b auth d0 dr Q _ FA _ E2).
    - split; cbn; [constructor|intros p []].
    - exact Lc. }
  destruct Hi as (Hn & Hr). exists (p_s q).
  assert (Hpk : py_get_pubkey (Some s') d = Ret (p_s q)).
  { cbn [py_get_pubkey]. rewrite Hid. unfold lookup_peer_by_id. pose proof (Hr q Hq). replace (p_id q =? 0) with false by (symmetry; apply Z.eqb_neq; lia).
    rewrite (find_id _ _ Hq Hn). reflexivity. }
  split; [exact Hpk|].
  assert (Hkeys : Forall (fun p => zlen (p_s p) = 32) (d_peers d)) by (subst d; exact R5).
  split.
  { assert (Hm : In (p_s q) (map p_s (d_peers dr))) by (subst d; apply in_map; exact Hq). apply M in Hm. destruct Hm as [[]|Hm]. exact Hm. }
  assert (Ek : key = p_s q).
  { pose proof (ok_open_len X OK _ _ _ _ _ Ho) as Lo. rewrite zlen_firstn in Lo. unfold lookup_peer_by_static in Hl. apply find_some in Hl. destruct Hl as (_ & Hl).
    rewrite lbytes_eq_spec in Hl; [|apply (proj1 (Forall_forall _ _) Hkeys _ Hq)|lia]. apply bytes_eqb_eq in Hl. congruence. }
  rewrite <- Ek. destruct Hc as (c & H3 & H4). exists c, kk, hh. split; [exact H3|exact H4].
Qed.
End I.

(** ** C74: failures after the handshake, and long messages *)
Section F.
Variable X : xprims.

Lemma failure_keeps o d s : pyop_len o < 2 ^ 32 -> in_transport s -> snd (pystep X clear o (d, Some s)) = Raise -> fst (pystep X clear o (d, Some s)) = (d, Some s).
Proof.
  intros Hl T. assert (Es : exists t, s_st s = Transport t).
  { unfold in_transport, session_get_status in T. destruct (s_st s) as [h|t]; [destruct (Bool.eqb _ _); discriminate|eauto]. }
  destruct Es as (t & Es).
  destruct o as [m|p|m]; cbn [pystep pyop_len] in *.
  - unfold py_initiator_session_complete, py_initiator_handshake_finish, py_read. cbn [fst snd].
    set (m' := firstn _ m). assert (Ok : gop_ok (GRead d m')) by apply firstn_mod_len.
    destruct (session_read X d s m') as [[s1 c] r] eqn:R. cbn [fst snd].
    destruct (transport_step X (GRead d m') s t s1 c (match r with Some e => GPayload e | None => GNothing end) Ok Es) as (t' & H1 & H2 & H3 & H4 & H5 & H6 & H7).
    { unfold gstep. rewrite R. reflexivity. }
    destruct c as [|x|x].
    + destruct r as [e|]; [|contradiction]. destruct H7 as (_ & _ & H7 & _). destruct e as [lv b]; cbn [em_level] in H7; subst lv. rewrite unpack_high by lia. discriminate.
    + intros _. destruct r; [contradiction|]. destruct H7 as (-> & _). reflexivity.
    + destruct r; contradiction.
  - unfold py_send, py_send_msg. cbn [fst snd]. unfold c_int. destruct (_ && _); [|reflexivity]. unfold py_write.
    set (m' := pack_message_with_conf_level 5 _). assert (Ok : gop_ok (GWrite m')) by (cbn [gop_ok m' em_msg pack_message_with_conf_level]; apply firstn_mod_len).
    destruct (session_write X m' s) as [[s1 c] r] eqn:R. cbn [fst snd].
    destruct (transport_step X (GWrite m') s t s1 c (match r with Some e => GMessage e | None => GNothing end) Ok Es) as (t' & H1 & H2 & H3 & H4 & H5 & H6 & H7).
    { unfold gstep. rewrite R. reflexivity. }
    destruct c as [|x|x].
    + destruct r; discriminate.
    + intros _. destruct r; [contradiction|]. destruct H7 as (-> & _). reflexivity.
    + destruct r; contradiction.
  - unfold py_recv, py_read_msg, py_read. cbn [fst snd].
    set (m' := firstn _ m). assert (Ok : gop_ok (GRead d m')) by apply firstn_mod_len.
    destruct (session_read X d s m') as [[s1 c] r] eqn:R. cbn [fst snd].
    destruct (transport_step X (GRead d m') s t s1 c (match r with Some e => GPayload e | None => GNothing end) Ok Es) as (t' & H1 & H2 & H3 & H4 & H5 & H6 & H7).
    { unfold gstep. rewrite R. reflexivity. }
    destruct c as [|x|x].
    + destruct r as [e|]; [|contradiction]. destruct H7 as (_ & _ & H7 & _). destruct e as [lv b]; cbn [em_level] in H7; subst lv. rewrite unpack_high by lia. discriminate.
    + intros _. destruct r; [contradiction|]. destruct H7 as (-> & _). reflexivity.
    + destruct r; contradiction.
Qed.

Lemma send_truncates J ps p : 2 ^ 32 <= zlen p < 2 ^ 63 -> exists p', zlen p' < zlen p /\ py_send X J ps p = py_send X J ps p'.
Proof.
  intros (L1 & L2). pose proof (Z.mod_pos_bound (zlen p) (2 ^ 32) ltac:(lia)) as B. exists (firstn (Z.to_nat (zlen p mod 2 ^ 32)) p).
  assert (Lf : zlen (firstn (Z.to_nat (zlen p mod 2 ^ 32)) p) = zlen p mod 2 ^ 32) by (rewrite zlen_firstn; lia).
  split; [lia|]. unfold py_send, py_send_msg, c_int. rewrite Lf.
  replace (- 2 ^ 63 <=? zlen p) with true by (symmetry; apply Z.leb_le; lia). replace (zlen p <? 2 ^ 64) with true by (symmetry; apply Z.ltb_lt; lia).
  replace (- 2 ^ 63 <=? zlen p mod 2 ^ 32) with true by (symmetry; apply Z.leb_le; lia). replace (zlen p mod 2 ^ 32 <? 2 ^ 64) with true by (symmetry; apply Z.ltb_lt; lia).
  cbn [andb]. rewrite Z.mod_mod by lia. rewrite firstn_firstn, Nat.min_id. reflexivity.
Qed.
End F.
