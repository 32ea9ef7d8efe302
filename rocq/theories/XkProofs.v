(** Proofs about the Noise XK library: conformance to the Noise framework. *)
From Coq Require Import ZArith Lia List Bool.
From Coq.Strings Require Import Byte.
From Verif Require Import Bytes Res Mem XkModel XkSpec.
Import ListNotations.
Open Scope list_scope.
Open Scope Z_scope.

Lemma xor_twice : forall b, zb (Z.lxor (bz (zb (Z.lxor (bz b) 54))) (Z.lxor 54 92)) = zb (Z.lxor (bz b) 92).
Proof. destruct b; reflexivity. Qed.
Lemma xor_key_twice l : xor_key (xor_key l 54) (Z.lxor 54 92) = xor_key l 92.
Proof. unfold xor_key. rewrite map_map. apply map_ext. exact xor_twice. Qed.
Lemma xor_bytes_repeat l v n : (length l <= n)%nat -> xor_bytes l (repeat (zb v) n) = map (fun b => zb (Z.lxor (bz b) (bz (zb v)))) l.
Proof.
  unfold xor_bytes. revert n. induction l as [|b l IH]; intros [|n] L; cbn in *; try lia; try reflexivity.
  rewrite IH by lia. reflexivity.
Qed.

Lemma u32_small z : 0 <= z < 2 ^ 32 -> u32 z = z.
Proof. intros. unfold u32. apply Z.mod_small. assumption. Qed.
Lemma zlen_nonneg {A} (l : list A) : 0 <= zlen l.
Proof. unfold zlen. lia. Qed.
Lemma zlen_firstn {A} k (l : list A) : zlen (firstn k l) = Z.min (Z.of_nat k) (zlen l).
Proof. unfold zlen. rewrite firstn_length. lia. Qed.
Lemma zlen_skipn {A} k (l : list A) : zlen (skipn k l) = Z.max 0 (zlen l - Z.of_nat k).
Proof. unfold zlen. rewrite skipn_length. lia. Qed.

(** comparison without early exit decides equality *)
Lemma fold_lor_zero l acc : 0 <= acc ->
  (fold_left (fun a '(x, y) => Z.lor (Z.lxor (bz x) (bz y)) a) l acc =? 0) = (acc =? 0) && forallb (fun '(x, y) => Z.lxor (bz x) (bz y) =? 0) l.
Proof.
  revert acc. induction l as [|[x y] l IH]; intros acc P; cbn.
  - rewrite andb_true_r. reflexivity.
  - assert (Q : 0 <= Z.lxor (bz x) (bz y)).
    { apply Z.lxor_nonneg. pose proof (bz_range x). pose proof (bz_range y). lia. }
    rewrite IH by (apply Z.lor_nonneg; lia).
    rewrite andb_assoc. f_equal.
    destruct (Z.eqb_spec (Z.lor (Z.lxor (bz x) (bz y)) acc) 0) as [E|N].
    + apply Z.lor_eq_0_iff in E. destruct E as [-> ->]. reflexivity.
    + destruct (Z.eqb_spec acc 0) as [->|]; [|reflexivity].
      destruct (Z.eqb_spec (Z.lxor (bz x) (bz y)) 0) as [E|]; [|reflexivity].
      rewrite E in N. contradiction.
Qed.
Lemma xor_zero x y : (Z.lxor (bz x) (bz y) =? 0) = Byte.eqb x y.
Proof.
  destruct (Byte.eqb x y) eqn:E.
  - apply Byte.byte_dec_bl in E. subst y. rewrite Z.lxor_nilpotent. reflexivity.
  - apply Z.eqb_neq. intros Q. apply Z.lxor_eq in Q. apply (f_equal zb) in Q. rewrite !zb_bz in Q. subst y.
    rewrite Byte.byte_dec_lb in E; [discriminate|reflexivity].
Qed.
Lemma lbytes_eq_spec a b : zlen a = 32 -> zlen b = 32 -> lbytes_eq 32 a b = bytes_eqb a b.
Proof.
  intros La Lb. unfold lbytes_eq. rewrite fold_lor_zero by lia. cbn [Z.eqb andb].
  rewrite !firstn_all2 by (unfold zlen in *; lia).
  assert (L : length a = length b) by (unfold zlen in *; lia). clear La Lb.
  destruct (bytes_eqb a b) eqn:E.
  - apply bytes_eqb_eq in E. subst b. clear L. induction a as [|x a IH]; cbn; [reflexivity|].
    rewrite Z.lxor_nilpotent. exact IH.
  - apply bytes_eqb_neq in E. revert b L E. induction a as [|x a IH]; intros [|y b] L E; try discriminate; [congruence|].
    cbn. destruct (Z.eqb_spec (Z.lxor (bz x) (bz y)) 0) as [Q|Q]; [|reflexivity].
    cbn. apply IH; [injection L; auto|]. intros ->. apply E. f_equal.
    apply Z.lxor_eq in Q. apply (f_equal zb) in Q. rewrite !zb_bz in Q. exact Q.
Qed.
Lemma find_existsb {A} (f : A -> bool) l : existsb f l = match find f l with Some _ => true | None => false end.
Proof. induction l as [|a l IH]; cbn; [reflexivity|]. destruct (f a); [reflexivity|exact IH]. Qed.

Arguments firstn : simpl never.
Arguments skipn : simpl never.
Arguments le_bytes : simpl never.
Arguments zeros : simpl never.
Arguments XK : simpl never.

Section P.
Variable X : xprims.
Hypothesis OK : xprims_ok X.

Lemma hmac_spec key text : hmac X key text = HMAC X key text.
Proof.
  unfold hmac, HMAC, HASH. cbv zeta. rewrite xor_key_twice.
  assert (E : (if zlen key <=? 128 then key ++ zeros (128 - length key) else x_hash X key ++ zeros 64)
    = (if 128 <? zlen key then x_hash X key ++ zeros (128 - 64) else key ++ zeros (128 - length key))).
  { rewrite Z.leb_antisym. destruct (128 <? zlen key); reflexivity. }
  rewrite E.
  set (K0 := if 128 <? zlen key then _ else _).
  assert (L : (length K0 <= 128)%nat).
  { subst K0. destruct (Z.ltb_spec 128 (zlen key)) as [G|G].
    - rewrite app_length. pose proof (ok_hash_len X OK key) as H. unfold zlen in H. unfold zeros. rewrite repeat_length. lia.
    - rewrite app_length. unfold zeros. rewrite repeat_length. unfold zlen in G. lia. }
  rewrite !xor_bytes_repeat by exact L. reflexivity.
Qed.
Lemma kdf_spec ck key : kdf X ck key = HKDF X ck key.
Proof. unfold kdf, HKDF. cbv zeta. rewrite !hmac_spec. reflexivity. Qed.
Lemma hmac_len key text : zlen (hmac X key text) = 64.
Proof. apply (ok_hash_len X OK). Qed.
Lemma kdf_len ck key : zlen (fst (kdf X ck key)) = 64 /\ zlen (snd (kdf X ck key)) = 64.
Proof. split; apply (ok_hash_len X OK). Qed.

(** A handshake of the library and a handshake state of the framework that correspond. *)
Record sim (init : bool) (s : hs) (n : hand_state) : Prop := mkSim {
  sim_step : h_step s = 0 \/ h_step s = 1 \/ h_step s = 2;
  sim_pat : hs_patterns n = skipn (Z.to_nat (h_step s)) XK;
  sim_init : hs_initiator n = init;
  sim_s : hs_s n = (h_spriv s, h_spub s);
  sim_e : hs_e n = (h_epriv s, h_epub s);
  sim_ck : ss_ck (hs_sym n) = h_ck s;
  sim_h : ss_h (hs_sym n) = h_h s;
  sim_k : 0 < h_step s -> ss_c (hs_sym n) = mkCS (Some (h_k s)) 1;
  sim_rs : init = true -> hs_rs n = Some (h_rs s);
  sim_re : (if init then 1 else 0) < h_step s -> hs_re n = Some (h_re s)
}.
Definition sim_st (init : bool) (st : xst) (n : nsess) : Prop :=
  match st, n with
  | Handshake s, NHandshake h => sim init s h
  | Handshake s, NDead => h_step s = 4
  | Transport t, NTransport h c1 c2 =>
      h = t_h t /\ c1 = mkCS (Some (t_skey t)) (t_sn t) /\ c2 = mkCS (Some (t_rkey t)) (t_rn t)
      /\ 0 <= t_sn t <= 2 ^ 64 - 1 /\ 0 <= t_rn t <= 2 ^ 64 - 1
  | _, _ => False
  end.

Ltac three S := destruct S as [S|[S|S]]; rewrite S in *; cbn [Z.to_nat Pos.to_nat Pos.iter_op Nat.add skipn XK] in *.

Lemma sim_turn init s n : sim init s n -> my_turn n = Bool.eqb init (h_step s mod 2 =? 0).
Proof.
  intros [S P I _ _ _ _ _ _ _]. unfold my_turn. rewrite P, I.
  destruct S as [S|[S|S]]; rewrite S; reflexivity.
Qed.
Lemma sim_overhead init s n : sim init s n -> overhead (NHandshake n) = if h_step s =? 2 then 64 else 48.
Proof.
  intros [S P _ _ _ _ _ _ _ _]. unfold overhead. rewrite P.
  destruct S as [S|[S|S]]; rewrite S; reflexivity.
Qed.

Lemma sim_advance init s n :
  hs_patterns n = [] -> hs_initiator n = init -> ss_ck (hs_sym n) = h_ck s -> ss_h (hs_sym n) = h_h s ->
  sim_st init (split X init s) (advance X n).
Proof.
  intros P I C H. unfold advance, split, Split. rewrite P, I, C, H, kdf_spec.
  destruct (HKDF X (h_ck s) []) as [k1 k2]. destruct init; cbn; repeat split; lia.
Qed.

(** writing a handshake message *)
Lemma sim_write init s n p :
  sim init s n -> zlen p <= 4294967215 ->
  let outlen := zlen p + (if h_step s =? 2 then 64 else 48) in
  if Bool.eqb init (h_step s mod 2 =? 0) then
    match WriteMessage X n p with
    | Some (n', m) => exists st, state_handshake_write X init s p outlen = (st, inr m) /\ sim_st init st (advance X n')
    | None => exists s' e, state_handshake_write X init s p outlen = (Handshake s', inl e) /\ h_step s' = 4
    end
  else exists s' e, state_handshake_write X init s p outlen = (Handshake s', inl e) /\ h_step s' = 4.
Proof.
  intros Sim Lp. cbv zeta.
  pose proof (zlen_nonneg p) as Np.
  destruct s as [step k ck h spriv spub epriv epub rs re].
  destruct n as [[c nck nh] ns ne nrs nre ni np].
  destruct Sim as [S P I Es Ee Eck Eh Ek Ers Ere].
  cbn [h_step h_k h_ck h_h h_spriv h_spub h_epriv h_epub h_rs h_re hs_sym hs_s hs_e hs_rs hs_re hs_initiator hs_patterns ss_c ss_ck ss_h] in *.
  subst ni nck nh ns ne.
  destruct (Bool.eqb init (step mod 2 =? 0)) eqn:T.
  2:{ unfold state_handshake_write, write_msg. cbn [h_step].
      replace (3 <=? step) with false by (symmetry; apply Z.leb_gt; lia).
      rewrite T. cbn [negb]. eexists _, _. split; reflexivity. }
  destruct S as [S|[S|S]]; subst step; destruct init; try discriminate T; clear T.
  - (* initiator, first *)
    rewrite Ers in * by reflexivity. subst np. change (skipn (Z.to_nat 0) XK) with [[TE; TES]; [TE; TEE]; [TS; TSE]].
    unfold WriteMessage. cbn [hd hs_patterns write_tokens write_token hs_e snd set_sym hs_sym].
    cbn [dh_of hs_initiator hs_e hs_rs DH fst set_sym MixHash ss_c ss_ck ss_h].
    unfold state_handshake_write, write_msg. cbn [h_step h_h h_epub h_epriv h_rs set_h h_ck h_k h_spriv h_spub h_re].
    change (3 <=? 0) with false. change (0 =? 2) with false. change (0 mod 2 =? 0) with true. change (0 =? 0) with true.
    cbn [Bool.eqb negb andb]. rewrite (Z.add_comm 48).
    replace ((zlen p <=? 4294967215) && (zlen p + 48 =? u32 (zlen p + 48))) with true
      by (symmetry; apply andb_true_iff; split; [apply Z.leb_le; lia|apply Z.eqb_eq; rewrite u32_small by lia; lia]).
    cbn [negb]. unfold mix_dh. cbn [set_h set_re set_rs h_step h_k h_ck h_h h_spriv h_spub h_epriv h_epub h_rs h_re].
    destruct (x_dh X epriv rs) as [dk|]; [|cbv beta iota zeta; eexists _, _; split; reflexivity].
    rewrite kdf_spec. unfold MixKey. cbn [ss_ck ss_h MixHash].
    destruct (HKDF X ck dk) as [ck' tk].
    cbn. rewrite app_nil_r. eexists. split; [reflexivity|]. constructor; cbn; auto; try reflexivity; try discriminate; lia.
  - (* responder, second *)
    rewrite Ek, Ere in * by lia. subst np. change (skipn (Z.to_nat 1) XK) with [[TE; TEE]; [TS; TSE]].
    unfold WriteMessage. cbn [hd hs_patterns write_tokens write_token hs_e snd set_sym hs_sym].
    cbn [dh_of hs_initiator hs_e hs_re DH fst set_sym MixHash ss_c ss_ck ss_h].
    unfold state_handshake_write, write_msg. cbn [h_step h_h h_epub h_epriv h_rs set_h h_ck h_k h_spriv h_spub h_re].
    change (3 <=? 1) with false. change (1 =? 2) with false. change (1 mod 2 =? 0) with false. change (1 =? 0) with false.
    cbn [Bool.eqb negb andb]. rewrite (Z.add_comm 48).
    replace ((zlen p <=? 4294967215) && (zlen p + 48 =? u32 (zlen p + 48))) with true
      by (symmetry; apply andb_true_iff; split; [apply Z.leb_le; lia|apply Z.eqb_eq; rewrite u32_small by lia; lia]).
    cbn [negb]. unfold mix_dh. cbn [set_h set_re set_rs h_step h_k h_ck h_h h_spriv h_spub h_epriv h_epub h_rs h_re].
    destruct (x_dh X epriv re) as [dk|]; [|cbv beta iota zeta; eexists _, _; split; reflexivity].
    rewrite kdf_spec. unfold MixKey. cbn [ss_ck ss_h MixHash].
    destruct (HKDF X ck dk) as [ck' tk].
    cbn. rewrite app_nil_r. eexists. split; [reflexivity|]. constructor; cbn; auto; try reflexivity; try discriminate; lia.
  - (* initiator, third *)
    rewrite Ek, Ere in * by lia. rewrite Ers in * by reflexivity. subst np.
    change (skipn (Z.to_nat 2) XK) with [[TS; TSE]].
    unfold WriteMessage. cbn [hd hs_patterns write_tokens write_token hs_e hs_s snd set_sym hs_sym].
    unfold EncryptAndHash at 1. cbn [EncryptWithAd ss_c ss_h cs_k cs_n]. change (1 =? 2 ^ 64 - 1) with false. cbv iota.
    cbn [dh_of hs_initiator hs_e hs_s hs_re DH fst set_sym MixHash ss_c ss_ck ss_h hs_sym].
    unfold state_handshake_write, write_msg. cbn [h_step h_h h_epub h_epriv h_rs set_h h_ck h_k h_spriv h_spub h_re].
    change (3 <=? 2) with false. change (2 =? 2) with true. change (2 mod 2 =? 0) with true. change (2 =? 0) with false.
    cbn [Bool.eqb negb andb]. rewrite (Z.add_comm 64).
    replace ((zlen p <=? 4294967215) && (zlen p + 64 =? u32 (zlen p + 64))) with true
      by (symmetry; apply andb_true_iff; split; [apply Z.leb_le; lia|apply Z.eqb_eq; rewrite u32_small by lia; lia]).
    cbn [negb encrypt_and_hash]. unfold mix_dh. cbn [set_h set_re set_rs h_step h_k h_ck h_h h_spriv h_spub h_epriv h_epub h_rs h_re].
    destruct (x_dh X spriv re) as [dk|]; [|cbv beta iota zeta; eexists _, _; split; reflexivity].
    rewrite kdf_spec. unfold MixKey. cbn [ss_ck ss_h MixHash].
    destruct (HKDF X ck dk) as [ck' tk].
    cbn [EncryptAndHash EncryptWithAd hs_sym set_sym ss_c ss_h cs_k cs_n ss_ck]. change (0 =? 2 ^ 64 - 1) with false.
    cbv iota. eexists. split; [|apply sim_advance].
    { rewrite app_nil_r. reflexivity. }
    all: reflexivity.
Qed.

(** reading a handshake message *)
Lemma sim_read sn s n d m :
  sim (s_init sn) s n -> Bool.eqb (s_init sn) (h_step s mod 2 =? 1) = true ->
  zlen m <= 2 ^ 32 - 64 -> Forall (fun q => zlen (p_s q) = 32) (d_peers d) ->
  let over := if h_step s =? 2 then 64 else 48 in
  over <= zlen m ->
  match ReadMessage X n m with
  | Some (n', p) =>
      if s_init sn || (negb (h_step s =? 2)) || existsb (fun q => bytes_eqb (p_s q) (match hs_rs n' with Some k => k | None => [] end)) (d_peers d)
      then exists sn', state_handshake_read X sn s d (zlen m - over) m = (sn', inr p)
           /\ s_init sn' = s_init sn /\ sim_st (s_init sn) (s_st sn') (advance X n')
      else exists sn' s' e, state_handshake_read X sn s d (zlen m - over) m = (sn', inl e)
           /\ s_init sn' = s_init sn /\ s_st sn' = Handshake s' /\ h_step s' = 4
  | None => exists sn' s' e, state_handshake_read X sn s d (zlen m - over) m = (sn', inl e)
           /\ s_init sn' = s_init sn /\ s_st sn' = Handshake s' /\ h_step s' = 4
  end.
Proof.
  intros Sim T Lm Ld. cbv zeta. intros Lo.
  destruct sn as [init st id pid pinfo]. cbn [s_init s_st] in *.
  destruct s as [step k ck h spriv spub epriv epub rs re].
  destruct n as [[c nck nh] ns ne nrs nre ni np].
  destruct Sim as [S P I Es Ee Eck Eh Ek Ers Ere].
  cbn [h_step h_k h_ck h_h h_spriv h_spub h_epriv h_epub h_rs h_re hs_sym hs_s hs_e hs_rs hs_re hs_initiator hs_patterns ss_c ss_ck ss_h] in *.
  subst ni nck nh ns ne.
  destruct S as [S|[S|S]]; subst step; destruct init; try discriminate T; clear T.
  - (* responder, first *)
    subst np. change (skipn (Z.to_nat 0) XK) with [[TE; TES]; [TE; TEE]; [TS; TSE]]. change (0 =? 2) with false in *. cbv iota in Lo.
    unfold ReadMessage. cbn [hd hs_patterns read_tokens read_token hs_e snd set_sym hs_sym].
    cbn [dh_of hs_initiator hs_s hs_e hs_re DH fst set_sym MixHash ss_c ss_ck ss_h hs_sym].
    unfold state_handshake_read, read_msg. cbn [s_init h_step].
    change (3 <=? 0) with false. change (0 =? 2) with false. change (0 mod 2 =? 1) with false. change (0 =? 0) with true.
    cbn [Bool.eqb negb andb orb].
    replace ((zlen m - 48 <=? 4294967215) && (zlen m =? u32 (48 + (zlen m - 48)))) with true
      by (symmetry; apply andb_true_iff; split; [apply Z.leb_le; lia|apply Z.eqb_eq; rewrite u32_small by lia; lia]).
    cbn [negb set_h set_re h_step h_h h_epub h_epriv h_rs h_ck h_k h_spriv h_spub h_re]. unfold mix_dh. cbn [set_h set_re set_rs h_step h_k h_ck h_h h_spriv h_spub h_epriv h_epub h_rs h_re].
    destruct (x_dh X spriv (firstn 32 m)) as [dk|]; [|cbv beta iota zeta; eexists _, _, _; repeat split; reflexivity].
    rewrite kdf_spec. unfold MixKey. cbn [ss_ck ss_h MixHash].
    destruct (HKDF X ck dk) as [ck' tk].
    unfold DecryptAndHash, decrypt_and_hash, aead_decrypt. cbn [DecryptWithAd set_h set_re set_rs set_sym hs_sym ss_c ss_h ss_ck cs_k cs_n set_keys h_k h_h h_ck h_step h_spriv h_spub h_epriv h_epub h_rs h_re].
    change (0 =? 2 ^ 64 - 1) with false. cbv iota. unfold DECRYPT, mix_hash, HASH, nonce12.
    destruct (x_open X (firstn 32 tk) (zeros 4 ++ le_bytes 8 0) (x_hash X (h ++ firstn 32 m)) (skipn 32 m)) as [p|];
      [|cbv beta iota zeta; eexists _, _, _; repeat split; reflexivity].
    cbn. eexists. split; [reflexivity|]. split; [reflexivity|]. constructor; cbn; auto; try reflexivity; try discriminate; lia.
  - (* initiator, second *)
    rewrite Ek in * by lia. rewrite Ers in * by reflexivity.
    subst np. change (skipn (Z.to_nat 1) XK) with [[TE; TEE]; [TS; TSE]]. change (1 =? 2) with false in *. cbv iota in Lo.
    unfold ReadMessage. cbn [hd hs_patterns read_tokens read_token hs_e snd set_sym hs_sym].
    cbn [dh_of hs_initiator hs_s hs_e hs_re DH fst set_sym MixHash ss_c ss_ck ss_h hs_sym].
    unfold state_handshake_read, read_msg. cbn [s_init h_step].
    change (3 <=? 1) with false. change (1 =? 2) with false. change (1 mod 2 =? 1) with true. change (1 =? 0) with false.
    cbn [Bool.eqb negb andb orb].
    replace ((zlen m - 48 <=? 4294967215) && (zlen m =? u32 (48 + (zlen m - 48)))) with true
      by (symmetry; apply andb_true_iff; split; [apply Z.leb_le; lia|apply Z.eqb_eq; rewrite u32_small by lia; lia]).
    cbn [negb set_h set_re h_step h_h h_epub h_epriv h_rs h_ck h_k h_spriv h_spub h_re]. unfold mix_dh. cbn [set_h set_re set_rs h_step h_k h_ck h_h h_spriv h_spub h_epriv h_epub h_rs h_re].
    destruct (x_dh X epriv (firstn 32 m)) as [dk|]; [|cbv beta iota zeta; eexists _, _, _; repeat split; reflexivity].
    rewrite kdf_spec. unfold MixKey. cbn [ss_ck ss_h MixHash].
    destruct (HKDF X ck dk) as [ck' tk].
    unfold DecryptAndHash, decrypt_and_hash, aead_decrypt. cbn [DecryptWithAd set_h set_re set_rs set_sym hs_sym ss_c ss_h ss_ck cs_k cs_n set_keys h_k h_h h_ck h_step h_spriv h_spub h_epriv h_epub h_rs h_re].
    change (0 =? 2 ^ 64 - 1) with false. cbv iota. unfold DECRYPT, mix_hash, HASH, nonce12.
    destruct (x_open X (firstn 32 tk) (zeros 4 ++ le_bytes 8 0) (x_hash X (h ++ firstn 32 m)) (skipn 32 m)) as [p|];
      [|cbv beta iota zeta; eexists _, _, _; repeat split; reflexivity].
    cbn. eexists. split; [reflexivity|]. split; [reflexivity|]. constructor; cbn; auto; try reflexivity; try discriminate; lia.
  - (* responder, third *)
    rewrite Ek, Ere in * by lia.
    subst np. change (skipn (Z.to_nat 2) XK) with [[TS; TSE]]. change (2 =? 2) with true in *. cbv iota in Lo.
    unfold ReadMessage. cbn [hd hs_patterns read_tokens read_token hs_e snd set_sym hs_sym ss_c cs_k].
    unfold state_handshake_read, read_msg. cbn [s_init h_step].
    change (3 <=? 2) with false. change (2 =? 2) with true. change (2 mod 2 =? 1) with false. change (2 =? 0) with false.
    cbn [Bool.eqb negb andb orb].
    replace ((zlen m - 64 <=? 4294967215) && (zlen m =? u32 (64 + (zlen m - 64)))) with true
      by (symmetry; apply andb_true_iff; split; [apply Z.leb_le; lia|apply Z.eqb_eq; rewrite u32_small by lia; lia]).
    unfold DecryptAndHash at 1.
    match goal with |- context [decrypt_and_hash X ?s 1 ?c] =>
      change (decrypt_and_hash X s 1 c) with
        (match x_open X k (zeros 4 ++ le_bytes 8 1) h c with Some p => (set_h s (mix_hash X h c), Some p) | None => (s, None) end) end.
    cbn [negb DecryptWithAd set_sym hs_sym ss_c ss_h ss_ck cs_k cs_n set_keys h_k h_h h_ck h_step h_spriv h_spub h_epriv h_epub h_rs h_re].
    change (1 =? 2 ^ 64 - 1) with false. cbv iota. unfold DECRYPT at 1.
    destruct (x_open X k (zeros 4 ++ le_bytes 8 1) h (firstn 48 m)) as [rs'|] eqn:Eo;
      [|cbv beta iota zeta; eexists _, _, _; repeat split; reflexivity].
    pose proof (ok_open_len X OK _ _ _ _ _ Eo) as Lrs. rewrite zlen_firstn in Lrs.
    assert (L32 : zlen rs' = 32) by lia.
    cbn [set_rs set_h h_step h_k h_ck h_h h_spriv h_spub h_epriv h_epub h_rs h_re].
    cbn [dh_of hs_initiator hs_s hs_e hs_re hs_rs DH fst set_sym MixHash ss_c ss_ck ss_h hs_sym].
    assert (Ex : existsb (fun q => bytes_eqb (p_s q) rs') (d_peers d)
                 = match lookup_peer_by_static d rs' with Some _ => true | None => false end).
    { unfold lookup_peer_by_static. rewrite <- find_existsb. clear -Ld L32.
      induction Ld as [|q l Lq _ IH]; cbn; [reflexivity|]. rewrite lbytes_eq_spec by assumption. rewrite IH. reflexivity. }
    unfold mix_dh. cbn [set_h set_re set_rs h_step h_k h_ck h_h h_spriv h_spub h_epriv h_epub h_rs h_re].
    destruct (x_dh X epriv rs') as [dk|].
    2:{ cbv beta iota zeta; destruct (lookup_peer_by_static d rs'); cbv beta iota zeta; eexists _, _, _; repeat split; reflexivity. }
    rewrite kdf_spec. unfold MixKey. cbn [ss_ck ss_h MixHash].
    destruct (HKDF X ck dk) as [ck' tk].
    unfold DecryptAndHash, decrypt_and_hash, aead_decrypt. cbn [DecryptWithAd set_h set_re set_rs set_sym hs_sym ss_c ss_h ss_ck cs_k cs_n set_keys h_k h_h h_ck h_step h_spriv h_spub h_epriv h_epub h_rs h_re].
    change (0 =? 2 ^ 64 - 1) with false. cbv iota. unfold DECRYPT, mix_hash, HASH, nonce12.
    destruct (x_open X (firstn 32 tk) (zeros 4 ++ le_bytes 8 0) (x_hash X (h ++ firstn 48 m)) (skipn 48 m)) as [p|].
    2:{ cbv beta iota zeta; destruct (lookup_peer_by_static d rs'); cbv beta iota zeta; eexists _, _, _; repeat split; reflexivity. }
    cbn [pop_pattern hs_rs set_sym]. rewrite Ex.
    destruct (lookup_peer_by_static d rs') as [q|]; [|cbv beta iota zeta; eexists _, _, _; repeat split; reflexivity].
    eexists. split; [reflexivity|]. split; [reflexivity|].
    cbn [s_st s_init]. apply sim_advance; reflexivity.
Qed.

Lemma step_sim o sn n : op_ok o -> sim_st (s_init sn) (s_st sn) n ->
  let '(sn', r) := mstep X o sn in let '(n', r') := nstep X o n in
  r = r' /\ s_init sn' = s_init sn /\ sim_st (s_init sn) (s_st sn') n'.
Proof.
  intros Ok Sim. destruct o as [p|d m|]; cbn [op_ok] in Ok.
  - (* write *)
    pose proof (zlen_nonneg p) as Np.
    unfold mstep, session_write. cbn [pack_message_with_conf_level em_msg em_level].
    assert (Sec : forall c, sec_ok c (mkEncap (Conf_level 0) p) = true).
    { intros c. unfold sec_ok. cbn [em_msg em_level]. destruct (zlen p =? 0); [reflexivity|]. apply orb_true_r. }
    rewrite !Sec. destruct sn as [init st id pid pinfo]. cbn [s_st s_init with_st s_id s_pid s_pinfo] in *.
    destruct st as [s|t]; destruct n as [h|h c1 c2|]; cbn [sim_st] in Sim; try contradiction.
    + (* handshake *)
      pose proof (sim_step _ _ _ Sim) as S.
      replace (4 <=? h_step s) with false by (symmetry; apply Z.leb_gt; lia).
      assert (C : compute_next_message_len (Handshake s) (zlen p)
                  = if zlen p <=? 4294967215 then Some (u32 (zlen p + (if h_step s =? 2 then 64 else 48))) else None).
      { unfold compute_next_message_len. destruct S as [S|[S|S]]; rewrite S; reflexivity. }
      rewrite C. unfold nstep. rewrite Z.leb_antisym. destruct (Z.ltb_spec 4294967215 (zlen p)) as [G|G]; cbn [negb].
      { split; [reflexivity|]. split; [reflexivity|]. exact Sim. }
      pose proof (sim_write init s h p Sim G) as W. cbv zeta in W.
      rewrite u32_small by (destruct (h_step s =? 2); lia).
      rewrite (sim_turn _ _ _ Sim).
      destruct (Bool.eqb init (h_step s mod 2 =? 0)).
      * destruct (WriteMessage X h p) as [[n' m]|].
        -- destruct W as (st & E & Sim'). rewrite E. split; [reflexivity|]. split; [reflexivity|]. exact Sim'.
        -- destruct W as (s' & e & E & S'). rewrite E. repeat split. exact S'.
      * destruct W as (s' & e & E & S'). rewrite E. repeat split. exact S'.
    + (* stuck *)
      rewrite Sim. change (4 <=? 4) with true. cbv iota. repeat split. exact Sim.
    + (* transport *)
      destruct Sim as (-> & -> & -> & Bs & Br).
      unfold compute_next_message_len, nstep. rewrite Z.leb_antisym.
      destruct (Z.ltb_spec 4294967279 (zlen p)) as [G|G]; cbn [negb].
      { repeat split; try assumption; apply Bs || apply Br. }
      unfold state_transport_write. replace (zlen p <=? 4294967279) with true by (symmetry; apply Z.leb_le; lia).
      rewrite Z.eqb_refl. cbn [andb negb EncryptWithAd cs_k cs_n].
      change (2 ^ 64 - 1) with 18446744073709551615 in *.
      destruct (Z.leb_spec 18446744073709551615 (t_sn t)) as [H|H].
      * replace (t_sn t =? 18446744073709551615) with true by (symmetry; apply Z.eqb_eq; lia).
        repeat split; try apply Bs; apply Br.
      * replace (t_sn t =? 18446744073709551615) with false by (symmetry; apply Z.eqb_neq; lia).
        assert (U : u64 (t_sn t + 1) = t_sn t + 1) by (unfold u64; apply Z.mod_small; lia).
        rewrite U. cbn [s_init s_st with_st t_h t_recv t_skey t_sn t_rkey t_rn]. repeat split; cbn [t_sn t_rn]; lia.
  - (* read *)
    destruct Ok as [Lm Ld]. pose proof (zlen_nonneg m) as Nm.
    assert (Un : forall e, unpack_message_with_auth_level 0 e = match e with mkEncap (Auth_level l) q => if (zlen q =? 0) || (0 <=? l) then Some q else None | mkEncap _ q => if zlen q =? 0 then Some q else None end).
    { intros [l q]. unfold unpack_message_with_auth_level. cbn [em_msg em_level]. destruct (zlen q =? 0); destruct l; reflexivity. }
    unfold mstep, session_read. destruct (s_st sn) as [s|t] eqn:Es; destruct n as [h|h c1 c2|]; cbn [sim_st] in Sim; try contradiction.
    + pose proof (sim_step _ _ _ Sim) as S.
      replace (4 <=? h_step s) with false by (symmetry; apply Z.leb_gt; lia).
      replace (h_step s <? 3) with true by (symmetry; apply Z.ltb_lt; lia). rewrite andb_true_r.
      unfold nstep. rewrite (sim_turn _ _ _ Sim), (sim_overhead _ _ _ Sim).
      assert (Tu : Bool.eqb (s_init sn) (h_step s mod 2 =? 1) = negb (Bool.eqb (s_init sn) (h_step s mod 2 =? 0))).
      { destruct S as [S|[S|S]]; rewrite S; destruct (s_init sn); reflexivity. }
      rewrite Tu. destruct (Bool.eqb (s_init sn) (h_step s mod 2 =? 0)) eqn:T; cbn [negb] in *.
      { rewrite Es. split; [reflexivity|]. split; [reflexivity|]. exact Sim. }
      assert (C : payload_len (Handshake s) (zlen m)
                  = if (if h_step s =? 2 then 64 else 48) <=? zlen m then Some (zlen m - (if h_step s =? 2 then 64 else 48)) else None).
      { unfold payload_len. destruct S as [S|[S|S]]; rewrite S; reflexivity. }
      rewrite C, Z.leb_antisym. destruct (Z.ltb_spec (zlen m) (if h_step s =? 2 then 64 else 48)) as [G|G]; cbn [negb].
      { rewrite Es. split; [reflexivity|]. split; [reflexivity|]. exact Sim. }
      pose proof (sim_read sn s h d m Sim Tu Lm Ld G) as R.
      assert (Pn : (length (hs_patterns h) =? 1)%nat = (h_step s =? 2)).
      { rewrite (sim_pat _ _ _ Sim). destruct S as [S|[S|S]]; rewrite S; reflexivity. }
      rewrite (sim_init _ _ _ Sim), Pn.
      assert (Au : 0 <=? auth_level (Handshake s) = true).
      { unfold auth_level. destruct (h_step s =? 0); reflexivity. }
      destruct (ReadMessage X h m) as [[n' p]|].
      * cbv zeta.
        destruct (s_init sn || negb (h_step s =? 2) || existsb (fun q => bytes_eqb (p_s q) (match hs_rs n' with Some k => k | None => [] end)) (d_peers d)) eqn:A.
        -- destruct R as (sn' & E & I & Sim'). rewrite E. rewrite Un, Au, orb_true_r. split; [reflexivity|]. split; assumption.
        -- destruct R as (sn' & s' & e & E & I & E2 & S'). rewrite E. rewrite E2. split; [reflexivity|]. split; assumption.
      * destruct R as (sn' & s' & e & E & I & E2 & S'). rewrite E. rewrite E2. split; [reflexivity|]. split; assumption.
    + rewrite Sim. change (4 <=? 4) with true. cbv iota. rewrite Es. split; [reflexivity|]. split; [reflexivity|]. exact Sim.
    + destruct Sim as (-> & -> & -> & Bs & Br).
      unfold payload_len, nstep, overhead. rewrite Z.leb_antisym.
      destruct (Z.ltb_spec (zlen m) 16) as [G|G]; cbn [negb].
      { rewrite Es. repeat split; try apply Bs; apply Br. }
      unfold state_transport_read. replace (zlen m - 16 <=? 4294967279) with true by (symmetry; apply Z.leb_le; lia).
      rewrite u32_small by lia. replace (zlen m - 16 + 16) with (zlen m) by lia.
      rewrite Z.eqb_refl. cbn [andb negb DecryptWithAd cs_k cs_n].
      change (2 ^ 64 - 1) with 18446744073709551615 in *.
      destruct (Z.leb_spec 18446744073709551615 (t_rn t)) as [H|H].
      * replace (t_rn t =? 18446744073709551615) with true by (symmetry; apply Z.eqb_eq; lia).
        rewrite Es. repeat split; try apply Bs; apply Br.
      * replace (t_rn t =? 18446744073709551615) with false by (symmetry; apply Z.eqb_neq; lia).
        assert (U : u64 (t_rn t + 1) = t_rn t + 1) by (unfold u64; apply Z.mod_small; lia).
        unfold aead_decrypt, DECRYPT, nonce12.
        destruct (x_open X (t_rkey t) (zeros 4 ++ le_bytes 8 (t_rn t)) [] m) as [p|].
        -- rewrite Un. cbn [auth_level]. change (0 <=? 2) with true. rewrite orb_true_r, U.
           cbn [with_st s_init s_st t_h t_skey t_sn t_rkey t_rn]. repeat split; cbn [t_sn t_rn]; lia.
        -- rewrite Es. repeat split; try apply Bs; apply Br.
  - (* hash *)
    unfold mstep, nstep. split; [|split; [reflexivity|exact Sim]].
    unfold session_get_status, session_get_hash.
    destruct (s_st sn) as [s|t]; destruct n as [h|h c1 c2|]; cbn [sim_st] in Sim; try contradiction.
    + destruct (Bool.eqb (s_init sn) (h_step s mod 2 =? 0)); reflexivity.
    + destruct (Bool.eqb (s_init sn) (h_step s mod 2 =? 0)); reflexivity.
    + destruct Sim as (-> & _). reflexivity.
Qed.

Lemma answers_sim ops : forall sn n, Forall op_ok ops -> sim_st (s_init sn) (s_st sn) n ->
  answers (mstep X) ops sn = answers (nstep X) ops n.
Proof.
  induction ops as [|o ops IH]; intros sn n F Sim; [reflexivity|].
  inversion F; subst. cbn [answers].
  pose proof (step_sim o sn n) as P. destruct (mstep X o sn) as [sn' r]. destruct (nstep X o n) as [n' r'].
  destruct P as (-> & I & Sim'); [assumption..|]. f_equal. apply IH; [assumption|]. rewrite I. exact Sim'.
Qed.

Lemma initial_sym : InitializeSymmetric X protocol_name = mkSS (mkCS None 0) initial_hash initial_hash.
Proof. reflexivity. Qed.

(** A session of an initiator answers every sequence of requests as the framework says. *)
Theorem initiator_conforms d pid e d' sn peer ops :
  lookup_peer_by_id d pid = Some peer ->
  session_create_initiator X d pid e = Some (d', sn) -> Forall op_ok ops ->
  answers (mstep X) ops sn
  = answers (nstep X) ops (NHandshake (Initialize X true (d_prologue d) (d_spriv d, d_spub d) (e, x_base X e) (Some (p_s peer)))).
Proof.
  intros L C F. unfold session_create_initiator in C. rewrite L in C.
  destruct (d_states d =? 4294967295); [discriminate|]. injection C as <- <-.
  apply answers_sim; [exact F|]. cbn [s_init s_st sim_st].
  constructor; cbn; auto; try discriminate; try lia.
Qed.
Theorem responder_conforms d e d' sn ops :
  session_create_responder X d e = Some (d', sn) -> Forall op_ok ops ->
  answers (mstep X) ops sn
  = answers (nstep X) ops (NHandshake (Initialize X false (d_prologue d) (d_spriv d, d_spub d) (e, x_base X e) None)).
Proof.
  intros C F. unfold session_create_responder in C.
  destruct (d_states d =? 4294967295); [discriminate|]. injection C as <- <-.
  apply answers_sim; [exact F|]. cbn [s_init s_st sim_st].
  constructor; cbn; auto; try discriminate; try lia.
Qed.
End P.
