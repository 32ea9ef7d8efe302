(** Two honest ends: the handshake completes and the channel delivers. *)
From Coq Require Import ZArith Lia List Bool.
From Coq.Strings Require Import Byte.
From Verif Require Import Bytes Res Mem XkModel XkSpec XkProofs.
Import ListNotations.
Open Scope list_scope.
Open Scope Z_scope.
Arguments firstn : simpl never.
Arguments skipn : simpl never.
Arguments le_bytes : simpl never.
Arguments zeros : simpl never.

Lemma firstn_app_z (a b : bytes) k : zlen a = Z.of_nat k -> firstn k (a ++ b) = a.
Proof. intros L. unfold zlen in L. rewrite firstn_app, firstn_all2 by lia. replace (k - length a)%nat with 0%nat by lia. apply app_nil_r. Qed.
Lemma skipn_app_z (a b : bytes) k : zlen a = Z.of_nat k -> skipn k (a ++ b) = b.
Proof. intros L. unfold zlen in L. rewrite skipn_app, skipn_all2 by lia. replace (k - length a)%nat with 0%nat by lia. reflexivity. Qed.

Section C.
Variable X : xprims.
Hypothesis OK : xprims_ok X.

Lemma dah s n c p : aead_decrypt X (h_k s) n (h_h s) c = Some p ->
  decrypt_and_hash X s n c = (set_h s (mix_hash X (h_h s) c), Some p).
Proof. intros E. unfold decrypt_and_hash. rewrite E. reflexivity. Qed.

(** keys, hash and ciphertext after "mix a DH result, encrypt a payload" *)
Definition nk (ck dk : bytes) : bytes := firstn 32 (snd (kdf X ck dk)).
Definition nck (ck dk : bytes) : bytes := fst (kdf X ck dk).
Definition ct (ck dk h p : bytes) : bytes := aead_encrypt X (nk ck dk) 0 h p.
Definition nh (ck dk h p : bytes) : bytes := mix_hash X h (ct ck dk h p).

Lemma ct_len ck dk h p : zlen (ct ck dk h p) = zlen p + 16.
Proof. apply (ok_seal_len X OK). Qed.
Lemma ct_open ck dk h p : aead_decrypt X (nk ck dk) 0 h (ct ck dk h p) = Some p.
Proof. apply (ok_open_seal X OK). Qed.
Lemma nk_len ck dk : zlen (nk ck dk) = 32.
Proof. unfold nk. rewrite zlen_firstn. rewrite (proj2 (kdf_len X OK ck dk)). reflexivity. Qed.

Definition write_in (init : bool) (step : Z) : Prop := (init = true /\ step = 0) \/ (init = false /\ step = 1).
Lemma write_e init step k ck h sp sb ep eb rs re p dk :
  write_in init step -> zlen p <= 4294967215 ->
  x_dh X ep (if init then rs else re) = Some dk ->
  state_handshake_write X init (mkHs step k ck h sp sb ep eb rs re) p (u32 (zlen p + 48))
  = (Handshake (mkHs (step + 1) (nk ck dk) (nck ck dk) (nh ck dk (mix_hash X h eb) p) sp sb ep eb rs re),
     inr (eb ++ ct ck dk (mix_hash X h eb) p)).
Proof.
  intros W L D. pose proof (zlen_nonneg p) as N. rewrite u32_small by lia.
  unfold state_handshake_write, write_msg, nh, ct, nk, nck.
  cbn [h_step h_k h_ck h_h h_spriv h_spub h_epriv h_epub h_rs h_re set_h].
  destruct W as [[-> ->]|[-> ->]].
  - change (3 <=? 0) with false. change (0 =? 2) with false. change (0 mod 2 =? 0) with true. change (0 =? 0) with true.
    cbn [Bool.eqb negb andb]. rewrite (Z.add_comm 48).
    replace ((zlen p <=? 4294967215) && (zlen p + 48 =? u32 (zlen p + 48))) with true
      by (symmetry; apply andb_true_iff; split; [apply Z.leb_le; lia|apply Z.eqb_eq; rewrite u32_small by lia; lia]).
    unfold mix_dh. cbn [negb set_h h_step h_k h_ck h_h h_spriv h_spub h_epriv h_epub h_rs h_re]. rewrite D.
    destruct (kdf X ck dk) as [a b]. reflexivity.
  - change (3 <=? 1) with false. change (1 =? 2) with false. change (1 mod 2 =? 0) with false. change (1 =? 0) with false.
    cbn [Bool.eqb negb andb]. rewrite (Z.add_comm 48).
    replace ((zlen p <=? 4294967215) && (zlen p + 48 =? u32 (zlen p + 48))) with true
      by (symmetry; apply andb_true_iff; split; [apply Z.leb_le; lia|apply Z.eqb_eq; rewrite u32_small by lia; lia]).
    unfold mix_dh. cbn [negb set_h h_step h_k h_ck h_h h_spriv h_spub h_epriv h_epub h_rs h_re]. rewrite D.
    destruct (kdf X ck dk) as [a b]. reflexivity.
Qed.

Definition read_in (init : bool) (step : Z) : Prop := (init = false /\ step = 0) \/ (init = true /\ step = 1).
Lemma read_e init step id pid pinfo d k ck h sp sb ep eb rs re tk p dk :
  read_in init step -> zlen p <= 4294967215 -> zlen tk = 32 ->
  x_dh X (if init then ep else sp) tk = Some dk ->
  let s := mkHs step k ck h sp sb ep eb rs re in
  state_handshake_read X (mkXsess init (Handshake s) id pid pinfo) s d (zlen p)
    (tk ++ ct ck dk (mix_hash X h tk) p)
  = (mkXsess init (Handshake (mkHs (step + 1) (nk ck dk) (nck ck dk) (nh ck dk (mix_hash X h tk) p) sp sb ep eb rs tk)) id pid pinfo, inr p).
Proof.
  intros W L Lt D s. subst s. pose proof (zlen_nonneg p) as N.
  unfold state_handshake_read, read_msg. cbn [s_init s_st s_id s_pid s_pinfo h_step].
  rewrite (firstn_app_z tk _ 32) by exact Lt. rewrite (skipn_app_z tk _ 32) by exact Lt.
  assert (Z1 : (zlen p <=? 4294967215) && (zlen (tk ++ ct ck dk (mix_hash X h tk) p) =? u32 (48 + zlen p)) = true).
  { apply andb_true_iff; split; [apply Z.leb_le; lia|]. apply Z.eqb_eq. rewrite u32_small by lia. rewrite zlen_app, ct_len. lia. }
  pose proof (ct_open ck dk (mix_hash X h tk) p) as O. unfold nk in O.
  unfold nh, nk, nck.
  destruct W as [[-> ->]|[-> ->]].
  - change (3 <=? 0) with false. change (0 =? 2) with false. change (0 mod 2 =? 1) with false. change (0 =? 0) with true.
    cbn [Bool.eqb negb andb]. rewrite Z1.
    unfold mix_dh. cbn [negb set_h set_re h_step h_k h_ck h_h h_spriv h_spub h_epriv h_epub h_rs h_re]. rewrite D.
    unfold ct, nk in *. destruct (kdf X ck dk) as [a b]. cbn [fst snd] in *.
    unfold decrypt_and_hash. cbn [set_keys set_h set_re set_rs h_step h_k h_ck h_h h_spriv h_spub h_epriv h_epub h_rs h_re].
    rewrite O. reflexivity.
  - change (3 <=? 1) with false. change (1 =? 2) with false. change (1 mod 2 =? 1) with true. change (1 =? 0) with false.
    cbn [Bool.eqb negb andb]. rewrite Z1.
    unfold mix_dh. cbn [negb set_h set_re h_step h_k h_ck h_h h_spriv h_spub h_epriv h_epub h_rs h_re]. rewrite D.
    unfold ct, nk in *. destruct (kdf X ck dk) as [a b]. cbn [fst snd] in *.
    unfold decrypt_and_hash. cbn [set_keys set_h set_re set_rs h_step h_k h_ck h_h h_spriv h_spub h_epriv h_epub h_rs h_re].
    rewrite O. reflexivity.
Qed.

Definition sct (k h sb : bytes) : bytes := aead_encrypt X k 1 h sb.
Definition tkeys (ck : bytes) : bytes * bytes := let '(a, b) := kdf X ck [] in (firstn 32 a, firstn 32 b).

Lemma write_s k ck h sp sb ep eb rs re p dk :
  zlen p <= 4294967215 -> x_dh X sp re = Some dk ->
  let h1 := mix_hash X h (sct k h sb) in
  state_handshake_write X true (mkHs 2 k ck h sp sb ep eb rs re) p (u32 (zlen p + 64))
  = (Transport (mkTr (nh ck dk h1 p) false (fst (tkeys (nck ck dk))) 0 (snd (tkeys (nck ck dk))) 0),
     inr (sct k h sb ++ ct ck dk h1 p)).
Proof.
  intros L D h1. subst h1. pose proof (zlen_nonneg p) as N. rewrite u32_small by lia.
  unfold state_handshake_write, write_msg. cbn [h_step h_k h_ck h_h h_spriv h_spub h_epriv h_epub h_rs h_re set_h].
  change (3 <=? 2) with false. change (2 =? 2) with true. change (2 mod 2 =? 0) with true. change (2 =? 0) with false.
  cbn [Bool.eqb negb andb]. rewrite (Z.add_comm 64).
  replace ((zlen p <=? 4294967215) && (zlen p + 64 =? u32 (zlen p + 64))) with true
    by (symmetry; apply andb_true_iff; split; [apply Z.leb_le; lia|apply Z.eqb_eq; rewrite u32_small by lia; lia]).
  cbn [negb encrypt_and_hash]. unfold mix_dh. cbn [set_h h_step h_k h_ck h_h h_spriv h_spub h_epriv h_epub h_rs h_re]. rewrite D.
  unfold ct, nh, nk, nck, sct, tkeys, split. unfold ct, nk. destruct (kdf X ck dk) as [a b]. cbn [fst snd].
  cbn [set_keys set_h set_step h_step h_k h_ck h_h h_spriv h_spub h_epriv h_epub h_rs h_re].
  destruct (kdf X a []) as [t1 t2]. reflexivity.
Qed.

Lemma read_s id pid pinfo d k ck h sp sb ep eb rs0 re rs p dk peer :
  zlen p <= 4294967215 -> zlen rs = 32 -> x_dh X ep rs = Some dk ->
  lookup_peer_by_static d rs = Some peer ->
  let s := mkHs 2 k ck h sp sb ep eb rs0 re in
  let h1 := mix_hash X h (sct k h rs) in
  state_handshake_read X (mkXsess false (Handshake s) id pid pinfo) s d (zlen p) (sct k h rs ++ ct ck dk h1 p)
  = (mkXsess false (Transport (mkTr (nh ck dk h1 p) true (snd (tkeys (nck ck dk))) 0 (fst (tkeys (nck ck dk))) 0)) id (p_id peer) (p_info peer),
     inr p).
Proof.
  intros L Lr D Lk s h1. subst s h1. pose proof (zlen_nonneg p) as N.
  assert (Ls : zlen (sct k h rs) = 48) by (unfold sct, aead_encrypt; rewrite (ok_seal_len X OK); lia).
  unfold state_handshake_read, read_msg. cbn [s_init s_st s_id s_pid s_pinfo h_step].
  rewrite (firstn_app_z (sct k h rs) _ 48) by exact Ls. rewrite (skipn_app_z (sct k h rs) _ 48) by exact Ls.
  assert (Z1 : (zlen p <=? 4294967215) && (zlen (sct k h rs ++ ct ck dk (mix_hash X h (sct k h rs)) p) =? u32 (64 + zlen p)) = true).
  { apply andb_true_iff; split; [apply Z.leb_le; lia|]. apply Z.eqb_eq. rewrite u32_small by lia. rewrite zlen_app, ct_len. lia. }
  pose proof (ct_open ck dk (mix_hash X h (sct k h rs)) p) as O. unfold nk in O.
  assert (O1 : aead_decrypt X k 1 h (sct k h rs) = Some rs) by apply (ok_open_seal X OK).
  change (3 <=? 2) with false. change (2 =? 2) with true. change (2 mod 2 =? 1) with false. change (2 =? 0) with false.
  cbn [Bool.eqb negb andb]. rewrite Z1. cbn [negb].
  rewrite (dah (mkHs 2 k ck h sp sb ep eb rs0 re) 1 _ rs) by exact O1.
  cbn [set_h set_rs h_step h_k h_ck h_h h_spriv h_spub h_epriv h_epub h_rs h_re]. rewrite Lk.
  unfold mix_dh. cbn [set_h set_rs h_step h_k h_ck h_h h_spriv h_spub h_epriv h_epub h_rs h_re]. rewrite D.
  unfold nh, nk, nck, tkeys, split. unfold ct in *. unfold nk in *. destruct (kdf X ck dk) as [a b]. cbn [fst snd] in *.
  erewrite dah by exact O.
  cbn [set_keys set_h set_step h_ck h_h h_step].
  destruct (kdf X a []) as [t1 t2]. reflexivity.
Qed.

(** at the level of sessions *)
Lemma sec_zero c p : sec_ok c (pack_message_with_conf_level 0 p) = true.
Proof. unfold sec_ok. cbn. destruct (zlen p =? 0); reflexivity. Qed.

Lemma session_write_hs init step k ck h sp sb ep eb rs re id pid pinfo p over st m :
  (step = 0 \/ step = 1 \/ step = 2) -> over = (if step =? 2 then 64 else 48) -> zlen p <= 4294967215 ->
  let s := mkHs step k ck h sp sb ep eb rs re in
  state_handshake_write X init s p (u32 (zlen p + over)) = (st, inr m) ->
  session_write X (pack_message_with_conf_level 0 p) (mkXsess init (Handshake s) id pid pinfo)
  = (mkXsess init st id pid pinfo, RSuccess, Some m).
Proof.
  intros S -> L s E. subst s. unfold session_write. cbn [s_st h_step em_msg pack_message_with_conf_level s_init].
  replace (4 <=? step) with false by (symmetry; apply Z.leb_gt; lia).
  unfold compute_next_message_len. cbn [h_step].
  replace (zlen p <=? 4294967215) with true by (symmetry; apply Z.leb_le; lia).
  change (mkEncap (Conf_level 0) p) with (pack_message_with_conf_level 0 p). rewrite sec_zero.
  destruct S as [ -> |[ -> | -> ]]; cbn [Z.eqb Pos.eqb] in *; rewrite E; reflexivity.
Qed.
Lemma session_read_hs init step k ck h sp sb ep eb rs re id pid pinfo d m over sn' p :
  (step = 0 \/ step = 1 \/ step = 2) -> Bool.eqb init (step mod 2 =? 1) = true ->
  over = (if step =? 2 then 64 else 48) -> over <= zlen m ->
  let s := mkHs step k ck h sp sb ep eb rs re in
  state_handshake_read X (mkXsess init (Handshake s) id pid pinfo) s d (zlen m - over) m = (sn', inr p) ->
  session_read X d (mkXsess init (Handshake s) id pid pinfo) m
  = (sn', RSuccess, Some (mkEncap (Auth_level (if step =? 0 then 0 else 2)) p)).
Proof.
  intros S T -> L s E. subst s. unfold session_read. cbn [s_st h_step s_init auth_level].
  replace (4 <=? step) with false by (symmetry; apply Z.leb_gt; lia). rewrite T.
  replace (step <? 3) with true by (symmetry; apply Z.ltb_lt; lia). cbn [andb].
  unfold payload_len. cbn [h_step].
  destruct S as [ -> |[ -> | -> ]]; cbn [Z.eqb Pos.eqb orb] in *;
    match goal with |- context [?a <=? zlen m] => replace (a <=? zlen m) with true by (symmetry; apply Z.leb_le; lia) end;
    rewrite E; reflexivity.
Qed.

(** The handshake of two honest devices, with payloads. *)
Theorem handshake_completes di dr pid peer entry ei er di' dr' si sr p1 p2 p3 :
  honest_pair X di dr pid peer entry ->
  session_create_initiator X di pid ei = Some (di', si) ->
  session_create_responder X dr er = Some (dr', sr) ->
  zlen p1 <= 4294967215 -> zlen p2 <= 4294967215 -> zlen p3 <= 4294967215 ->
  exists m1 m2 m3 si1 si2 si3 sr1 sr2 sr3 ti tr,
    session_write X (pack_message_with_conf_level 0 p1) si = (si1, RSuccess, Some m1)
    /\ session_read X dr sr m1 = (sr1, RSuccess, Some (mkEncap (Auth_level 0) p1))
    /\ session_write X (pack_message_with_conf_level 0 p2) sr1 = (sr2, RSuccess, Some m2)
    /\ session_read X di si1 m2 = (si2, RSuccess, Some (mkEncap (Auth_level 2) p2))
    /\ session_write X (pack_message_with_conf_level 0 p3) si2 = (si3, RSuccess, Some m3)
    /\ session_read X dr sr2 m3 = (sr3, RSuccess, Some (mkEncap (Auth_level 2) p3))
    /\ zlen m1 = zlen p1 + 48 /\ zlen m2 = zlen p2 + 48 /\ zlen m3 = zlen p3 + 64
    /\ s_st si3 = Transport ti /\ s_st sr3 = Transport tr
    /\ t_h ti = t_h tr /\ t_skey ti = t_rkey tr /\ t_rkey ti = t_skey tr
    /\ zlen (t_skey ti) = 32 /\ zlen (t_rkey ti) = 32
    /\ t_sn ti = 0 /\ t_rn ti = 0 /\ t_sn tr = 0 /\ t_rn tr = 0
    /\ s_init si3 = true /\ s_init sr3 = false
    /\ s_pid si3 = pid /\ s_pid sr3 = p_id entry.
Proof.
  intros (Epro & Ei & Er & Lp & Es & Lk) Ci Cr L1 L2 L3.
  unfold session_create_initiator in Ci. rewrite Lp in Ci. destruct (d_states di =? 4294967295); [discriminate|].
  unfold session_create_responder in Cr. destruct (d_states dr =? 4294967295); [discriminate|].
  injection Ci as <- <-. injection Cr as <- <-.
  rewrite Es, Er, Epro. rewrite Ei in *.
  destruct (ok_dh X OK ei (d_spriv dr)) as (k1 & D1 & D1').
  destruct (ok_dh X OK ei er) as (k2 & D2 & D2').
  destruct (ok_dh X OK (d_spriv di) er) as (k3 & D3 & D3').
  set (h0 := mix_hash X (mix_hash X initial_hash (d_prologue dr)) (x_base X (d_spriv dr))).
  pose proof (zlen_nonneg p1) as N1. pose proof (zlen_nonneg p2) as N2. pose proof (zlen_nonneg p3) as N3.
  pose proof (ok_base_len X OK ei) as Le. pose proof (ok_base_len X OK er) as Lr. pose proof (ok_base_len X OK (d_spriv di)) as Ls.
  (* first message *)
  eexists (x_base X ei ++ ct initial_hash k1 (mix_hash X h0 (x_base X ei)) p1).
  set (h1 := nh initial_hash k1 (mix_hash X h0 (x_base X ei)) p1).
  set (ck1 := nck initial_hash k1).
  exists (x_base X er ++ ct ck1 k2 (mix_hash X h1 (x_base X er)) p2).
  set (h2 := nh ck1 k2 (mix_hash X h1 (x_base X er)) p2).
  set (ck2 := nck ck1 k2). set (kk := nk ck1 k2).
  exists (sct kk h2 (x_base X (d_spriv di)) ++ ct ck2 k3 (mix_hash X h2 (sct kk h2 (x_base X (d_spriv di)))) p3).
  eexists _, _, _, _, _, _, _, _.
  split. { eapply session_write_hs; [lia|reflexivity|exact L1|]. apply write_e; [left; auto|exact L1|exact D1]. }
  split. { eapply session_read_hs; [lia|reflexivity|reflexivity| |].
           - rewrite zlen_app, ct_len. change (0 =? 2) with false. cbv iota. lia.
           - replace (zlen _ - _) with (zlen p1) by (rewrite zlen_app, ct_len; change (0 =? 2) with false; cbv iota; lia).
             apply read_e; [left; auto|exact L1|exact Le|exact D1']. }
  split. { eapply session_write_hs; [cbn; lia|reflexivity|exact L2|]. apply write_e; [right; auto|exact L2|exact D2']. }
  split. { eapply (session_read_hs true (0 + 1)); [lia|reflexivity|reflexivity| |].
           - rewrite zlen_app, ct_len. change (0 + 1 =? 2) with false. cbv iota. lia.
           - replace (zlen _ - _) with (zlen p2) by (rewrite zlen_app, ct_len; change (0 + 1 =? 2) with false; cbv iota; lia).
             apply read_e; [right; auto|exact L2|exact Lr|exact D2]. }
  split. { eapply session_write_hs; [cbn; lia|reflexivity|exact L3|]. apply write_s; [exact L3|exact D3]. }
  split. { eapply (session_read_hs false (0 + 1 + 1)); [lia|reflexivity|reflexivity| |].
           - rewrite zlen_app, ct_len. unfold sct, aead_encrypt. rewrite (ok_seal_len X OK). change (0 + 1 + 1 =? 2) with true. cbv iota. lia.
           - replace (zlen _ - _) with (zlen p3)
               by (rewrite zlen_app, ct_len; unfold sct, aead_encrypt; rewrite (ok_seal_len X OK); change (0 + 1 + 1 =? 2) with true; cbv iota; lia).
             apply read_s; [exact L3|exact Ls|exact D3'|exact Lk]. }
  rewrite !zlen_app, !ct_len. unfold sct at 1. unfold aead_encrypt. rewrite (ok_seal_len X OK).
  repeat match goal with |- _ /\ _ => split end; try reflexivity; try lia;
    cbn [s_st t_skey t_rkey]; unfold tkeys; destruct (kdf X (nck ck2 k3) []) as [a b] eqn:E; cbn [fst snd]; rewrite zlen_firstn.
  - pose proof (proj1 (kdf_len X OK (nck ck2 k3) [])) as K. rewrite E in K. cbn [fst] in K. lia.
  - pose proof (proj2 (kdf_len X OK (nck ck2 k3) [])) as K. rewrite E in K. cbn [snd] in K. lia.
Qed.

(** * The channel *)
Lemma sec_max c p : c = 5 -> sec_ok c (pack_message p) = true.
Proof. intros ->. unfold sec_ok. cbn. destruct (zlen p =? 0); reflexivity. Qed.

Lemma transport_write sn t p : s_st sn = Transport t -> zlen p <= 4294967279 -> 0 <= t_sn t < 18446744073709551615 ->
  session_write X (pack_message p) sn
  = (with_st sn (Transport (mkTr (t_h t) (t_recv t) (t_skey t) (t_sn t + 1) (t_rkey t) (t_rn t))), RSuccess,
     Some (aead_encrypt X (t_skey t) (t_sn t) [] p)).
Proof.
  intros E L B. unfold session_write. rewrite E. unfold compute_next_message_len, conf_level.
  change (em_msg (pack_message p)) with p.
  replace (zlen p <=? 4294967279) with true by (symmetry; apply Z.leb_le; lia).
  rewrite sec_max by reflexivity. unfold state_transport_write.
  replace (zlen p <=? 4294967279) with true by (symmetry; apply Z.leb_le; lia).
  rewrite Z.eqb_refl. cbn [andb negb].
  replace (18446744073709551615 <=? t_sn t) with false by (symmetry; apply Z.leb_gt; lia).
  assert (U : u64 (t_sn t + 1) = t_sn t + 1) by (unfold u64; apply Z.mod_small; lia). rewrite U. reflexivity.
Qed.
Lemma transport_read d sn t c p : s_st sn = Transport t -> zlen c < 2 ^ 32 -> 0 <= t_rn t < 18446744073709551615 ->
  aead_decrypt X (t_rkey t) (t_rn t) [] c = Some p ->
  session_read X d sn c
  = (with_st sn (Transport (mkTr (t_h t) true (t_skey t) (t_sn t) (t_rkey t) (t_rn t + 1))), RSuccess,
     Some (mkEncap (Auth_level 2) p)).
Proof.
  intros E L B O. pose proof (ok_open_len X OK _ _ _ _ _ O) as Lc. pose proof (zlen_nonneg p) as N.
  unfold session_read. rewrite E. unfold payload_len, auth_level.
  replace (16 <=? zlen c) with true by (symmetry; apply Z.leb_le; lia).
  unfold state_transport_read. rewrite u32_small by lia. replace (zlen c - 16 + 16) with (zlen c) by lia.
  replace (zlen c - 16 <=? 4294967279) with true by (symmetry; apply Z.leb_le; lia).
  rewrite Z.eqb_refl. cbn [andb negb].
  replace (18446744073709551615 <=? t_rn t) with false by (symmetry; apply Z.leb_gt; lia).
  rewrite O.
  assert (U : u64 (t_rn t + 1) = t_rn t + 1) by (unfold u64; apply Z.mod_small; lia). rewrite U. reflexivity.
Qed.

(** the messages in flight are the payloads sealed with consecutive nonces *)
Fixpoint sealed (k : bytes) (n : Z) (ps : list bytes) : list bytes :=
  match ps with [] => [] | p :: ps' => aead_encrypt X k n [] p :: sealed k (n + 1) ps' end.
Lemma sealed_app k ps p : forall n, sealed k n (ps ++ [p]) = sealed k n ps ++ [aead_encrypt X k (n + zlen ps) [] p].
Proof.
  induction ps as [|q ps IH]; intros n; cbn.
  - rewrite Z.add_0_r. reflexivity.
  - rewrite IH. replace (n + 1 + zlen ps) with (n + zlen (q :: ps)) by (rewrite zlen_cons; lia). reflexivity.
Qed.

Theorem channel_delivers es : forall di dr si sr ti tr qr qi,
  s_st si = Transport ti -> s_st sr = Transport tr ->
  t_skey ti = t_rkey tr -> t_rkey ti = t_skey tr ->
  t_sn ti = t_rn tr + zlen qr -> t_sn tr = t_rn ti + zlen qi ->
  0 <= t_rn ti -> 0 <= t_rn tr ->
  t_sn ti + zlen es <= 2 ^ 64 - 1 -> t_sn tr + zlen es <= 2 ^ 64 - 1 ->
  Forall (fun e => zlen (payload_of e) <= 4294967279) es ->
  Forall (fun p => zlen p <= 4294967279) qr -> Forall (fun p => zlen p <= 4294967279) qi ->
  channel X es di dr si sr (sealed (t_skey ti) (t_rn tr) qr) (sealed (t_skey tr) (t_rn ti) qi) = queues es qr qi.
Proof.
  change (2 ^ 64 - 1) with 18446744073709551615.
  induction es as [|e es IH]; intros di dr si sr ti tr qr qi Si Sr K1 K2 N1 N2 B1 B2 M1 M2 F Fr Fi; [reflexivity|].
  inversion F as [|? ? Fp F']; subst. rewrite zlen_cons in M1, M2.
  pose proof (zlen_nonneg qr) as Zr. pose proof (zlen_nonneg qi) as Zi. pose proof (zlen_nonneg es) as Ze.
  destruct e as [[|] p|[|]]; cbn [payload_of] in Fp; cbn [channel queues].
  - rewrite (transport_write si ti p Si Fp) by lia.
    assert (E : sealed (t_skey ti) (t_rn tr) qr ++ [aead_encrypt X (t_skey ti) (t_sn ti) [] p] = sealed (t_skey ti) (t_rn tr) (qr ++ [p])).
    { rewrite sealed_app. rewrite N1. reflexivity. }
    rewrite E.
    apply (IH di dr _ sr (mkTr (t_h ti) (t_recv ti) (t_skey ti) (t_sn ti + 1) (t_rkey ti) (t_rn ti)) tr); cbn [t_skey t_sn t_rn t_rkey]; try assumption; try reflexivity; try lia.
    + rewrite zlen_app, zlen_cons, zlen_nil. lia.
    + apply Forall_app. split; [assumption|]. constructor; [assumption|constructor].
  - rewrite (transport_write sr tr p Sr Fp) by lia.
    assert (E : sealed (t_skey tr) (t_rn ti) qi ++ [aead_encrypt X (t_skey tr) (t_sn tr) [] p] = sealed (t_skey tr) (t_rn ti) (qi ++ [p])).
    { rewrite sealed_app. rewrite N2. reflexivity. }
    rewrite E.
    apply (IH di dr si _ ti (mkTr (t_h tr) (t_recv tr) (t_skey tr) (t_sn tr + 1) (t_rkey tr) (t_rn tr))); cbn [t_skey t_sn t_rn t_rkey]; try assumption; try reflexivity; try lia.
    + rewrite zlen_app, zlen_cons, zlen_nil. lia.
    + apply Forall_app. split; [assumption|]. constructor; [assumption|constructor].
  - destruct qi as [|p qi]; cbn [sealed].
    { f_equal. apply (IH di dr si sr ti tr qr []); try assumption; try lia. }
    inversion Fi as [|? ? Fq Fi']; subst. rewrite zlen_cons in *. pose proof (zlen_nonneg p) as Np. pose proof (zlen_nonneg qi) as Zq.
    rewrite (transport_read di si ti _ p Si); [| |lia|].
    2:{ unfold aead_encrypt. rewrite (ok_seal_len X OK). lia. }
    2:{ rewrite K2. apply (ok_open_seal X OK). }
    f_equal.
    { unfold unpack_message, unpack_message_with_auth_level. cbn [em_msg em_level]. destruct (zlen p =? 0); reflexivity. }
    apply (IH di dr _ sr (mkTr (t_h ti) true (t_skey ti) (t_sn ti) (t_rkey ti) (t_rn ti + 1)) tr); cbn [t_skey t_sn t_rn t_rkey]; try assumption; try reflexivity; try lia.
  - destruct qr as [|p qr]; cbn [sealed].
    { f_equal. apply (IH di dr si sr ti tr [] qi); try assumption; try lia. }
    inversion Fr as [|? ? Fq Fr']; subst. rewrite zlen_cons in *. pose proof (zlen_nonneg p) as Np. pose proof (zlen_nonneg qr) as Zq.
    rewrite (transport_read dr sr tr _ p Sr); [| |lia|].
    2:{ unfold aead_encrypt. rewrite (ok_seal_len X OK). lia. }
    2:{ rewrite <- K1. apply (ok_open_seal X OK). }
    f_equal.
    { unfold unpack_message, unpack_message_with_auth_level. cbn [em_msg em_level]. destruct (zlen p =? 0); reflexivity. }
    apply (IH di dr si _ ti (mkTr (t_h tr) true (t_skey tr) (t_sn tr) (t_rkey tr) (t_rn tr + 1))); cbn [t_skey t_sn t_rn t_rkey]; try assumption; try reflexivity; try lia.
Qed.
End C.
