(** Histories of a session: errors, nonces, levels, identities. *)
From Coq Require Import ZArith Lia List Bool.
From Coq.Strings Require Import Byte.
From Verif Require Import Bytes Res Mem XkModel XkSpec XkProofs XkChannel.
Import ListNotations.
Open Scope list_scope.
Open Scope Z_scope.
Arguments firstn : simpl never.
Arguments skipn : simpl never.
Arguments le_bytes : simpl never.
Arguments zeros : simpl never.

Section S.
Variable X : xprims.

(** ** one step *)
Lemma write_msg_success init s p outlen s' m : write_msg X init s p outlen = (s', inr m) ->
  h_step s < 3 /\ Bool.eqb init (h_step s mod 2 =? 0) = true /\ h_step s' = h_step s + 1
  /\ h_spriv s' = h_spriv s /\ h_epriv s' = h_epriv s.
Proof.
  unfold write_msg. destruct (Z.leb_spec 3 (h_step s)); [discriminate|].
  destruct (Bool.eqb init (h_step s mod 2 =? 0)) eqn:T; cbn [negb]; [|discriminate].
  destruct (init && negb (h_step s =? 0)).
  - destruct (negb _); [discriminate|]. unfold encrypt_and_hash, mix_dh.
    destruct (x_dh _ _ _) as [k|]; [|discriminate]. destruct (kdf _ _ _) as [a b].
    intros E. injection E as <- _. repeat split; [lia..].
  - destruct (negb _); [discriminate|]. unfold encrypt_and_hash, mix_dh.
    destruct (x_dh _ _ _) as [k|]; [|discriminate]. destruct (kdf _ _ _) as [a b].
    intros E. injection E as <- _. repeat split; [lia..].
Qed.
Lemma read_msg_success init d s outlen i s' p q : read_msg X init d s outlen i = (s', inr (p, q)) ->
  h_step s < 3 /\ Bool.eqb init (h_step s mod 2 =? 1) = true /\ h_step s' = h_step s + 1
  /\ match q with
     | Some peer => init = false /\ h_step s <> 0 /\ In peer (d_peers d) /\ lookup_peer_by_static d (h_rs s') = Some peer
     | None => init = true \/ h_step s = 0
     end.
Proof.
  unfold read_msg. destruct (Z.leb_spec 3 (h_step s)); [discriminate|].
  destruct (Bool.eqb init (h_step s mod 2 =? 1)) eqn:T; cbn [negb]; [|discriminate].
  destruct (negb init && negb (h_step s =? 0)) eqn:B.
  - destruct (negb (_ && _)); [discriminate|]. unfold decrypt_and_hash at 1.
    destruct (aead_decrypt X (h_k s) 1 (h_h s) (firstn 48 i)) as [rs|]; [|discriminate].
    destruct (lookup_peer_by_static d rs) as [peer|] eqn:L; [|discriminate].
    unfold mix_dh. destruct (x_dh _ _ _) as [k|]; [|discriminate]. destruct (kdf _ _ _) as [a b].
    unfold decrypt_and_hash. destruct (aead_decrypt _ _ _ _ _) as [pl|]; [|discriminate].
    intros E. injection E as <- <- <-. apply andb_true_iff in B. destruct B as [B1 B2].
    apply negb_true_iff in B1. apply negb_true_iff in B2. apply Z.eqb_neq in B2.
    repeat split; [lia|exact B1|lia| |exact L]. unfold lookup_peer_by_static in L. apply find_some in L. apply L.
  - destruct (negb (_ && _)); [discriminate|]. unfold mix_dh.
    destruct (x_dh _ _ _) as [k|]; [|discriminate]. destruct (kdf _ _ _) as [a b].
    unfold decrypt_and_hash. destruct (aead_decrypt _ _ _ _ _) as [pl|]; [|discriminate].
    intros E. injection E as <- <- <-.
    repeat split; [lia..|]. apply andb_false_iff in B. destruct B as [B|B]; [left|right].
    + destruct init; [reflexivity|discriminate].
    + apply negb_false_iff in B. apply Z.eqb_eq in B. exact B.
Qed.

Definition is_dead (st : xst) : Prop := match st with Handshake s => 4 <= h_step s | Transport _ => False end.
Lemma is_dead_dead s : is_dead (s_st s) -> dead X s.
Proof.
  intros D o _. destruct o as [m|d i]; unfold gstep, session_write, session_read; destruct (s_st s) as [h|t]; cbn in D; try contradiction;
    replace (4 <=? h_step h) with true by (symmetry; apply Z.leb_le; lia); reflexivity.
Qed.

(** the three outcomes *)
Lemma step_outcome o s s' c r : gstep X o s = (s', c, r) ->
  s_init s' = s_init s /\ s_id s' = s_id s
  /\ match c with
     | RError _ => s' = s /\ r = GNothing
     | RStuck _ => is_dead (s_st s') /\ r = GNothing /\ s_pid s' = s_pid s
                   /\ (exists h, s_st s = Handshake h)
     | RSuccess => r <> GNothing
     end.
Proof.
  destruct o as [m|d i]; unfold gstep.
  - destruct (session_write X m s) as [[s1 c1] r1] eqn:E. intros E2; injection E2 as <- <- <-.
    unfold session_write in E. destruct (s_st s) as [h|t] eqn:Es.
    + destruct (4 <=? h_step h) eqn:D.
      { injection E as <- <- <-. repeat split; [rewrite Es; cbn; apply Z.leb_le; exact D|eexists; reflexivity]. }
      destruct (compute_next_message_len _ _) as [o|]; [|injection E as <- <- <-; repeat split].
      destruct (sec_ok _ _); [|injection E as <- <- <-; repeat split].
      unfold state_handshake_write in E. destruct (write_msg X (s_init s) h (em_msg m) o) as [h' [e|b]].
      * injection E as <- <- <-. cbn. repeat split; [lia|eexists; reflexivity].
      * injection E as <- <- <-. cbn. repeat split. discriminate.
    + destruct (compute_next_message_len _ _) as [o|]; [|injection E as <- <- <-; repeat split].
      destruct (sec_ok _ _); [|injection E as <- <- <-; repeat split].
      destruct (state_transport_write X t (em_msg m) o) as [t' [e|b]]; injection E as <- <- <-; cbn; repeat split. discriminate.
  - destruct (session_read X d s i) as [[s1 c1] r1] eqn:E. intros E2; injection E2 as <- <- <-.
    unfold session_read in E. destruct (s_st s) as [h|t] eqn:Es.
    + destruct (4 <=? h_step h) eqn:D.
      { injection E as <- <- <-. repeat split; [rewrite Es; cbn; apply Z.leb_le; exact D|eexists; reflexivity]. }
      destruct (Bool.eqb _ _ && _); [|injection E as <- <- <-; repeat split].
      destruct (payload_len _ _) as [o|]; [|injection E as <- <- <-; repeat split].
      unfold state_handshake_read in E. destruct (read_msg X (s_init s) d h o i) as [h' [e|[b q]]].
      * injection E as <- <- <-. cbn. repeat split; [lia|eexists; reflexivity].
      * destruct q as [q|]; injection E as <- <- <-; cbn; repeat split; discriminate.
    + destruct (payload_len _ _) as [o|]; [|injection E as <- <- <-; repeat split].
      destruct (state_transport_read X t o i) as [t' [e|b]]; injection E as <- <- <-; cbn; repeat split. discriminate.
Qed.

(** ** transport sessions *)
Lemma transport_step o s t s' c r : gop_ok o -> s_st s = Transport t -> gstep X o s = (s', c, r) ->
  exists t', s_st s' = Transport t' /\ s_pid s' = s_pid s /\ s_pinfo s' = s_pinfo s
    /\ t_h t' = t_h t /\ t_skey t' = t_skey t /\ t_rkey t' = t_rkey t
    /\ match o, c, r with
       | GWrite m, RSuccess, GMessage b =>
           t_sn t < 18446744073709551615 /\ b = aead_encrypt X (t_skey t) (t_sn t) [] (em_msg m) /\ t_sn t' = u64 (t_sn t + 1) /\ t_rn t' = t_rn t
       | GRead _ i, RSuccess, GPayload e =>
           t_rn t < 18446744073709551615 /\ aead_decrypt X (t_rkey t) (t_rn t) [] i = Some (em_msg e) /\ em_level e = Auth_level 2
           /\ t_rn t' = u64 (t_rn t + 1) /\ t_sn t' = t_sn t
       | _, RError _, GNothing => s' = s /\ t' = t
       | _, _, _ => False
       end.
Proof.
  intros Ok Es. destruct o as [m|d i]; unfold gstep.
  - unfold session_write. rewrite Es.
    destruct (compute_next_message_len _ _) as [o|].
    2:{ intros E; injection E as <- <- <-. exists t. repeat split; assumption. }
    destruct (sec_ok _ _).
    2:{ intros E; injection E as <- <- <-. exists t. repeat split; assumption. }
    unfold state_transport_write. destruct (negb _).
    { intros E; injection E as <- <- <-. exists t. repeat split; assumption. }
    destruct (Z.leb_spec 18446744073709551615 (t_sn t)).
    { intros E; injection E as <- <- <-. exists t. repeat split; assumption. }
    intros E; injection E as <- <- <-. eexists. cbn. repeat split; try lia.
  - unfold session_read. rewrite Es.
    destruct (payload_len _ _) as [o|].
    2:{ intros E; injection E as <- <- <-. exists t. repeat split; assumption. }
    unfold state_transport_read. destruct (negb _).
    { intros E; injection E as <- <- <-. exists t. repeat split; assumption. }
    destruct (Z.leb_spec 18446744073709551615 (t_rn t)).
    { intros E; injection E as <- <- <-. exists t. repeat split; assumption. }
    destruct (aead_decrypt X (t_rkey t) (t_rn t) [] i) as [p|] eqn:O.
    2:{ intros E; injection E as <- <- <-. exists t. repeat split; assumption. }
    intros E; injection E as <- <- <-. eexists. cbn. repeat split; try lia; reflexivity.
Qed.

Definition nonces_ok (t : tr) : Prop := 0 <= t_sn t <= 2 ^ 64 - 1 /\ 0 <= t_rn t <= 2 ^ 64 - 1.

Lemma transport_run ops : forall s t s' trc, Forall gop_ok ops -> s_st s = Transport t -> nonces_ok t ->
  grun X ops s = (s', trc) ->
  exists t', s_st s' = Transport t' /\ s_pid s' = s_pid s
    /\ t_h t' = t_h t /\ t_skey t' = t_skey t /\ t_rkey t' = t_rkey t /\ nonces_ok t'
    /\ t_sn t' = t_sn t + zlen (sent trc) /\ t_rn t' = t_rn t + zlen (received trc)
    /\ (forall k p c, nth_error (sent trc) k = Some (p, c) -> c = aead_encrypt X (t_skey t) (t_sn t + Z.of_nat k) [] p)
    /\ (forall k p c, nth_error (received trc) k = Some (p, c) -> aead_decrypt X (t_rkey t) (t_rn t + Z.of_nat k) [] c = Some p).
Proof.
  induction ops as [|o ops IH]; intros s t s' trc F Es N R.
  - cbn in R. injection R as <- <-. exists t. cbn. change (zlen (@nil (bytes * bytes))) with 0. rewrite !Z.add_0_r.
    repeat split; try apply N; try assumption; intros [|k] p c H; discriminate.
  - inversion F as [|? ? Fo F']; subst. cbn [grun] in R.
    destruct (gstep X o s) as [[s1 c1] r1] eqn:G. destruct (grun X ops s1) as [s2 tr2] eqn:R2. injection R as <- <-.
    destruct (transport_step _ _ _ _ _ _ Fo Es G) as (t1 & E1 & P1 & _ & H1 & K1 & K2 & C).
    assert (N1 : nonces_ok t1 /\ t_sn t1 = t_sn t + zlen (sent [(o, c1, r1)]) /\ t_rn t1 = t_rn t + zlen (received [(o, c1, r1)])).
    { unfold nonces_ok in *. change (2 ^ 64 - 1) with 18446744073709551615 in *.
      destruct o as [m|d i]; destruct c1, r1; try contradiction; unfold sent, received; cbn [flat_map app].
      all: try (destruct C as [_ ->]; change (zlen (@nil (bytes * bytes))) with 0; lia).
      - destruct C as (B & _ & U & V). unfold u64 in U. rewrite Z.mod_small in U by lia.
        change (zlen [_]) with 1. change (zlen (@nil (bytes * bytes))) with 0. lia.
      - destruct C as (B & _ & _ & U & V). unfold u64 in U. rewrite Z.mod_small in U by lia.
        change (zlen [_]) with 1. change (zlen (@nil (bytes * bytes))) with 0. lia. }
    destruct N1 as (N1 & S1 & S2).
    destruct (IH _ _ _ _ F' E1 N1 R2) as (t2 & E2 & P2 & H2 & K3 & K4 & N2 & A1 & A2 & B1 & B2).
    exists t2. split; [exact E2|]. split; [congruence|]. split; [congruence|]. split; [congruence|]. split; [congruence|]. split; [exact N2|].
    change (sent ((o, c1, r1) :: tr2)) with ((match (o, c1, r1) with (GWrite m, RSuccess, GMessage c) => [(em_msg m, c)] | _ => [] end) ++ sent tr2).
    change (received ((o, c1, r1) :: tr2)) with ((match (o, c1, r1) with (GRead _ c, RSuccess, GPayload m) => [(em_msg m, c)] | _ => [] end) ++ received tr2).
    unfold sent in S1 at 1. unfold received in S2 at 1. cbn [flat_map] in S1, S2. rewrite app_nil_r in S1, S2.
    set (w := match (o, c1, r1) with (GWrite m, RSuccess, GMessage c) => [(em_msg m, c)] | _ => [] end) in *.
    set (v := match (o, c1, r1) with (GRead _ c, RSuccess, GPayload m) => [(em_msg m, c)] | _ => [] end) in *.
    rewrite !zlen_app. split; [lia|]. split; [lia|].
    rewrite K1 in B1. rewrite K2 in B2. rewrite S1 in B1. rewrite S2 in B2.
    split; intros k p c H.
    + destruct o as [m|d i]; destruct c1, r1; try contradiction; subst w; cbn [app] in H;
        try (rewrite zlen_nil, Z.add_0_r in B1; exact (B1 _ _ _ H)).
      destruct k as [|k].
      * cbn in H. injection H as <- <-. rewrite Z.add_0_r. apply C.
      * cbn in H. rewrite (B1 _ _ _ H). f_equal. change (zlen [_]) with 1. lia.
    + destruct o as [m|d i]; destruct c1, r1; try contradiction; subst v; cbn [app] in H;
        try (rewrite zlen_nil, Z.add_0_r in B2; exact (B2 _ _ _ H)).
      destruct k as [|k].
      * cbn in H. injection H as <- <-. rewrite Z.add_0_r. apply C.
      * cbn in H. specialize (B2 _ _ _ H). change (zlen [_]) with 1 in B2.
        replace (t_rn t + Z.of_nat (S k)) with (t_rn t + 1 + Z.of_nat k) by lia. exact B2.
Qed.

Lemma nonce12_inj i j : 0 <= i < 2 ^ 64 -> 0 <= j < 2 ^ 64 -> nonce12 i = nonce12 j -> i = j.
Proof.
  intros I J E. unfold nonce12 in E. apply app_inv_head in E.
  apply (f_equal of_le) in E. rewrite !of_le_le_bytes in E. change (256 ^ Z.of_nat 8) with (2 ^ 64) in E.
  rewrite !Z.mod_small in E by assumption. exact E.
Qed.

(** ** a session that can no longer send *)
Lemma saturated s t m : s_st s = Transport t -> t_sn t = 2 ^ 64 - 1 -> zlen (em_msg m) <= 4294967279 -> sec_ok 5 m = true ->
  gstep X (GWrite m) s = (s, RError CSaturated_nonce, GNothing).
Proof.
  intros Es N L Sc. unfold gstep, session_write. rewrite Es. unfold compute_next_message_len, conf_level.
  replace (zlen (em_msg m) <=? 4294967279) with true by (symmetry; apply Z.leb_le; lia). rewrite Sc.
  unfold state_transport_write. replace (zlen (em_msg m) <=? 4294967279) with true by (symmetry; apply Z.leb_le; lia).
  rewrite Z.eqb_refl, N. reflexivity.
Qed.

(** ** failed requests may be left out of a transport session's history *)
Lemma filter_run ops : forall s t s' trc, Forall gop_ok ops -> s_st s = Transport t -> grun X ops s = (s', trc) ->
  grun X (map (fun e => fst (fst e)) (filter succeeded trc)) s = (s', filter succeeded trc).
Proof.
  induction ops as [|o ops IH]; intros s t s' trc F Es R.
  - cbn in R. injection R as <- <-. reflexivity.
  - inversion F as [|? ? Fo F']; subst. cbn [grun] in R.
    destruct (gstep X o s) as [[s1 c1] r1] eqn:G. destruct (grun X ops s1) as [s2 tr2] eqn:R2. injection R as <- <-.
    destruct (transport_step _ _ _ _ _ _ Fo Es G) as (t1 & E1 & _ & _ & _ & _ & _ & C).
    specialize (IH _ _ _ _ F' E1 R2). cbn [filter succeeded].
    destruct c1; cbn [map fst].
    + cbn [grun]. rewrite G, IH. reflexivity.
    + destruct o, r1; try contradiction; destruct C as [-> _]; exact IH.
    + destruct o, r1; contradiction.
Qed.

(** ** levels and lengths *)
(** the number of messages a session has exchanged, as its state shows *)
Definition stage (st : xst) (k : nat) : Prop :=
  match st with Handshake s => (h_step s = Z.of_nat k /\ (k < 3)%nat) \/ h_step s = 4 | Transport _ => (3 <= k)%nat end.

Lemma sec_ok_met r p m : sec_ok p m = true -> em_msg m <> [] -> em_level m = Conf_level r -> conf_met r p.
Proof.
  unfold sec_ok, conf_met. intros H N E. rewrite E in H.
  destruct (Z.eqb_spec (zlen (em_msg m)) 0) as [Z|Z].
  { exfalso. apply N. unfold zlen in Z. destruct (em_msg m); [reflexivity|]. cbn in Z. lia. }
  apply orb_true_iff in H. destruct H as [H|H]; [|left; apply Z.eqb_eq; exact H].
  apply orb_true_iff in H. destruct H as [H|H].
  - right; right. apply andb_true_iff in H. destruct H as [A B]. apply Z.leb_le in A, B. lia.
  - right; left. apply andb_true_iff in H. destruct H as [A B]. apply Z.eqb_eq in A. split; [exact A|].
    apply orb_true_iff in B. destruct B as [B|B]; [apply Z.eqb_eq in B|apply Z.leb_le in B]; lia.
Qed.
Lemma met_sec_ok r p msg : conf_met r p -> sec_ok p (mkEncap (Conf_level r) msg) = true.
Proof.
  unfold sec_ok, conf_met. cbn [em_msg em_level]. destruct (zlen msg =? 0); [reflexivity|]. intros [ -> |[[ -> H]|H]].
  - apply orb_true_r.
  - apply orb_true_iff. left. apply orb_true_iff. right. cbn. apply orb_true_iff.
    destruct H as [ -> |H]; [left; reflexivity|right; apply Z.leb_le; exact H].
  - apply orb_true_iff. left. apply orb_true_iff. left. apply andb_true_iff. split; apply Z.leb_le; lia.
Qed.

Hypothesis OK : xprims_ok X.

(** lengths of public keys stay 32 *)
Definition keys32 (st : xst) : Prop := match st with Handshake s => zlen (h_epub s) = 32 /\ zlen (h_spub s) = 32 | Transport _ => True end.

Lemma write_msg_len init s p outlen s' m : zlen (h_epub s) = 32 -> zlen (h_spub s) = 32 ->
  write_msg X init s p outlen = (s', inr m) ->
  zlen m = zlen p + (if init && negb (h_step s =? 0) then 64 else 48) /\ zlen (h_epub s') = 32 /\ zlen (h_spub s') = 32
  /\ zlen p <= 4294967215.
Proof.
  intros Le Ls. unfold write_msg. destruct (3 <=? h_step s); [discriminate|].
  destruct (negb (Bool.eqb init (h_step s mod 2 =? 0))) eqn:T; [discriminate|].
  destruct (init && negb (h_step s =? 0)).
  - destruct (negb (_ && _)) eqn:B; [discriminate|]. apply negb_false_iff in B. apply andb_true_iff in B. destruct B as [B _]. apply Z.leb_le in B.
    unfold encrypt_and_hash, mix_dh.
    destruct (x_dh _ _ _) as [k|]; [|discriminate]. destruct (kdf _ _ _) as [a b].
    intros E. injection E as <- <-. cbn [set_keys set_h set_step h_epub h_spub]. rewrite zlen_app. unfold aead_encrypt. rewrite !(ok_seal_len X OK). lia.
  - destruct (negb (_ && _)) eqn:B; [discriminate|]. apply negb_false_iff in B. apply andb_true_iff in B. destruct B as [B _]. apply Z.leb_le in B.
    unfold encrypt_and_hash, mix_dh.
    destruct (x_dh _ _ _) as [k|]; [|discriminate]. destruct (kdf _ _ _) as [a b].
    intros E. injection E as <- <-. cbn [set_keys set_h set_step h_epub h_spub]. rewrite zlen_app. unfold aead_encrypt. rewrite !(ok_seal_len X OK). lia.
Qed.
Lemma read_msg_len init d s outlen i s' p q : zlen (h_epub s) = 32 -> zlen (h_spub s) = 32 ->
  read_msg X init d s outlen i = (s', inr (p, q)) ->
  (zlen i < 2 ^ 32 -> 0 <= outlen -> zlen i = outlen + (if negb init && negb (h_step s =? 0) then 64 else 48) /\ zlen p = outlen)
  /\ zlen (h_epub s') = 32 /\ zlen (h_spub s') = 32.
Proof.
  intros Le Ls. unfold read_msg. destruct (3 <=? h_step s); [discriminate|].
  destruct (negb (Bool.eqb init (h_step s mod 2 =? 1))) eqn:T; [discriminate|].
  destruct (negb init && negb (h_step s =? 0)).
  - destruct (negb (_ && _)) eqn:B; [discriminate|]. apply negb_false_iff in B. apply andb_true_iff in B. destruct B as [B1 B2]. apply Z.leb_le in B1. apply Z.eqb_eq in B2.
    unfold decrypt_and_hash at 1. destruct (aead_decrypt X (h_k s) 1 (h_h s) (firstn 48 i)) as [rs|]; [|discriminate].
    destruct (lookup_peer_by_static d rs) as [peer|]; [|discriminate].
    unfold mix_dh. destruct (x_dh _ _ _) as [k|]; [|discriminate]. destruct (kdf _ _ _) as [a b].
    unfold decrypt_and_hash. destruct (aead_decrypt _ _ _ _ (skipn 48 i)) as [pl|] eqn:O; [|discriminate].
    intros E. injection E as <- <- <-. split; [|split; assumption]. intros L G. rewrite u32_small in B2 by lia.
    apply (ok_open_len X OK) in O. rewrite zlen_skipn in O. lia.
  - destruct (negb (_ && _)) eqn:B; [discriminate|]. apply negb_false_iff in B. apply andb_true_iff in B. destruct B as [B1 B2]. apply Z.leb_le in B1. apply Z.eqb_eq in B2.
    unfold mix_dh. destruct (x_dh _ _ _) as [k|]; [|discriminate]. destruct (kdf _ _ _) as [a b].
    unfold decrypt_and_hash. destruct (aead_decrypt _ _ _ _ (skipn 32 i)) as [pl|] eqn:O; [|discriminate].
    intros E. injection E as <- <- <-. split; [|split; assumption]. intros L G. rewrite u32_small in B2 by lia.
    apply (ok_open_len X OK) in O. rewrite zlen_skipn in O. lia.
Qed.
Lemma split_transport init s : exists t, split X init s = Transport t.
Proof. unfold split. destruct (kdf _ _ _). eexists. reflexivity. Qed.

Lemma sec_ok_level p m : sec_ok p m = true -> em_msg m <> [] -> exists r, em_level m = Conf_level r /\ conf_met r p.
Proof.
  intros H N. pose proof (sec_ok_met) as M. unfold sec_ok in H.
  destruct (Z.eqb_spec (zlen (em_msg m)) 0) as [Z|Z].
  { exfalso. apply N. unfold zlen in Z. destruct (em_msg m); [reflexivity|]. cbn in Z. lia. }
  destruct (em_level m) as [l|r|] eqn:E; try discriminate. exists r. split; [reflexivity|].
  apply (M r p m); [|exact N|exact E]. unfold sec_ok. rewrite E. destruct (zlen (em_msg m) =? 0); [reflexivity|exact H].
Qed.

Lemma stage_levels st k : stage st k -> ~ is_dead st ->
  conf_level st = snd (payload_security k) /\ auth_level st = fst (payload_security k).
Proof.
  unfold stage, conf_level, auth_level, is_dead. destruct st as [s|t].
  - intros [[E L]|E] D; [|lia]. rewrite E. destruct k as [|[|[|k]]]; try lia; split; reflexivity.
  - intros L _. destruct k as [|[|[|k]]]; try lia. split; reflexivity.
Qed.

Lemma good_step o s s' c r k : gop_ok o -> stage (s_st s) k -> keys32 (s_st s) -> gstep X o s = (s', c, r) ->
  good k (o, c, r) /\ keys32 (s_st s') /\ stage (s_st s') (if succeeded (o, c, r) then S k else k).
Proof.
  intros Ok St K. destruct o as [m|d i]; unfold gstep; cbn [gop_ok] in Ok.
  - unfold session_write. destruct (s_st s) as [h|t] eqn:Es.
    + destruct (Z.leb_spec 4 (h_step h)) as [D|D].
      { intros E; injection E as <- <- <-. rewrite Es. repeat split; try apply K. cbn. right. cbn in St. lia. }
      destruct (stage_levels _ _ St ltac:(cbn; lia)) as [Cl _].
      destruct (compute_next_message_len _ _) as [o|] eqn:Cn.
      2:{ intros E; injection E as <- <- <-. rewrite Es. repeat split; try apply K; exact St. }
      destruct (sec_ok _ _) eqn:Sc.
      2:{ intros E; injection E as <- <- <-. rewrite Es. repeat split; try apply K; exact St. }
      unfold state_handshake_write. destruct (write_msg X (s_init s) h (em_msg m) o) as [h' [e|b]] eqn:W.
      { intros E; injection E as <- <- <-. cbn. split; [exact I|]. split; [|right; reflexivity].
        clear -W K. unfold write_msg in W. repeat (match type of W with context [if ?b then _ else _] => destruct b end; try discriminate;
          try (injection W as <- _; exact K)).
        all: unfold encrypt_and_hash, mix_dh in W; destruct (x_dh _ _ _); [destruct (kdf _ _ _); discriminate|injection W as <- _; exact K]. }
      destruct (write_msg_success _ _ _ _ _ _ W) as (L3 & T & S' & _ & _).
      destruct (write_msg_len _ _ _ _ _ _ (proj1 K) (proj2 K) W) as (Lm & K1 & K2 & Lp).
      destruct St as [[E0 Lk]|E0]; [|lia].
      intros E; injection E as <- <- <-. cbn [succeeded with_st s_st].
      assert (Ov : (if s_init s && negb (h_step h =? 0) then 64 else 48) = message_overhead k).
      { rewrite E0 in *. destruct k as [|[|[|k]]]; try lia; destruct (s_init s); try discriminate T; reflexivity. }
      rewrite Ov in Lm.
      split.
      { cbn [good]. split; [exact Lm|]. split; [destruct k as [|[|[|k]]]; cbn in Lm; lia|].
        intros N. rewrite <- Cl. apply sec_ok_level; assumption. }
      destruct (Z.eqb_spec (h_step h) 2) as [E2|E2].
      { destruct (split_transport (s_init s) h') as [t Et]. rewrite Et. split; [exact I|]. cbn. lia. }
      { split; [split; assumption|]. cbn. left. lia. }
    + destruct (compute_next_message_len _ _) as [o|] eqn:Cn.
      2:{ intros E; injection E as <- <- <-. rewrite Es. repeat split; try exact I; exact St. }
      destruct (sec_ok _ _) eqn:Sc.
      2:{ intros E; injection E as <- <- <-. rewrite Es. repeat split; try exact I; exact St. }
      unfold state_transport_write. destruct (negb _) eqn:B.
      { intros E; injection E as <- <- <-. rewrite Es. repeat split; try exact I; exact St. }
      destruct (18446744073709551615 <=? t_sn t).
      { intros E; injection E as <- <- <-. rewrite Es. repeat split; try exact I; exact St. }
      apply negb_false_iff in B. apply andb_true_iff in B. destruct B as [B _]. apply Z.leb_le in B.
      intros E; injection E as <- <- <-. cbn in St. cbn [good succeeded s_st with_st keys32 stage].
      unfold aead_encrypt. rewrite (ok_seal_len X OK).
      assert (Ov : message_overhead k = 16) by (destruct k as [|[|[|k]]]; cbn; lia).
      assert (Ps : snd (payload_security k) = 5) by (destruct k as [|[|[|k]]]; cbn; lia).
      rewrite Ov, Ps. repeat split; try lia. intros N. apply (sec_ok_level 5 m Sc N).
  - unfold session_read. destruct (s_st s) as [h|t] eqn:Es.
    + destruct (Z.leb_spec 4 (h_step h)) as [D|D].
      { intros E; injection E as <- <- <-. rewrite Es. repeat split; try apply K. cbn. right. cbn in St. lia. }
      destruct (stage_levels _ _ St ltac:(cbn; lia)) as [_ Al].
      destruct (Bool.eqb _ _ && _) eqn:T.
      2:{ intros E; injection E as <- <- <-. rewrite Es. repeat split; try apply K; exact St. }
      destruct (payload_len _ _) as [o|] eqn:Cn.
      2:{ intros E; injection E as <- <- <-. rewrite Es. repeat split; try apply K; exact St. }
      unfold state_handshake_read. destruct (read_msg X (s_init s) d h o i) as [h' [e|[b q]]] eqn:W.
      { intros E; injection E as <- <- <-. cbn. split; [exact I|]. split; [|right; reflexivity].
        clear -W K. unfold read_msg in W.
        repeat (match type of W with context [if ?b then _ else _] => destruct b end; try discriminate;
          try (injection W as <- _; exact K)).
        all: unfold decrypt_and_hash, mix_dh in W;
          repeat (match type of W with
            | context [aead_decrypt ?a ?b ?c ?d ?e] => destruct (aead_decrypt a b c d e)
            | context [lookup_peer_by_static ?a ?b] => destruct (lookup_peer_by_static a b)
            | context [x_dh ?a ?b ?c] => destruct (x_dh a b c)
            | context [kdf ?a ?b ?c] => destruct (kdf a b c) end; try discriminate; try (injection W as <- _; exact K)). }
      destruct (read_msg_success _ _ _ _ _ _ _ _ W) as (L3 & T' & S' & _).
      destruct (read_msg_len _ _ _ _ _ _ _ _ (proj1 K) (proj2 K) W) as (Lm & K1 & K2).
      destruct St as [[E0 Lk]|E0]; [|lia].
      assert (O0 : 0 <= o).
      { clear -Cn. unfold payload_len in Cn. destruct (_ || _).
        - destruct (Z.leb_spec 48 (zlen i)); [injection Cn as <-; lia|discriminate].
        - destruct (h_step h =? 2); [|discriminate]. destruct (Z.leb_spec 64 (zlen i)); [injection Cn as <-; lia|discriminate]. }
      destruct (Lm Ok O0) as [Li Lb].
      assert (Ov : (if negb (s_init s) && negb (h_step h =? 0) then 64 else 48) = message_overhead k).
      { rewrite E0 in *. destruct k as [|[|[|k]]]; try lia; destruct (s_init s); try discriminate T'; reflexivity. }
      rewrite Ov in Li.
      assert (G : forall l, keys32 (if h_step h =? 2 then split X (s_init s) h' else Handshake h') /\ stage (if h_step h =? 2 then split X (s_init s) h' else Handshake h') (S l) \/ l <> k).
      { intros l. destruct (Nat.eq_dec l k) as [-> |]; [left|right; assumption].
        destruct (Z.eqb_spec (h_step h) 2) as [E2|E2].
        - destruct (split_transport (s_init s) h') as [t Et]. rewrite Et. split; [exact I|]. cbn. lia.
        - split; [split; assumption|]. cbn. left. lia. }
      destruct (G k) as [G'|G']; [|congruence].
      destruct q as [q|]; intros E; injection E as <- <- <-; cbn [good succeeded s_st em_msg em_level]; (split; [split; [lia|f_equal; exact Al]|exact G']).
    + destruct (payload_len _ _) as [o|] eqn:Cn.
      2:{ intros E; injection E as <- <- <-. rewrite Es. repeat split; try exact I; exact St. }
      unfold state_transport_read. destruct (negb _) eqn:B.
      { intros E; injection E as <- <- <-. rewrite Es. repeat split; try exact I; exact St. }
      destruct (18446744073709551615 <=? t_rn t).
      { intros E; injection E as <- <- <-. rewrite Es. repeat split; try exact I; exact St. }
      destruct (aead_decrypt _ _ _ _ _) as [p|] eqn:O.
      2:{ intros E; injection E as <- <- <-. rewrite Es. repeat split; try exact I; exact St. }
      apply (ok_open_len X OK) in O.
      intros E; injection E as <- <- <-. cbn in St. cbn [good succeeded s_st with_st keys32 stage em_msg em_level auth_level].
      assert (Ov : message_overhead k = 16) by (destruct k as [|[|[|k]]]; cbn; lia).
      assert (Ps : fst (payload_security k) = 2) by (destruct k as [|[|[|k]]]; cbn; lia).
      rewrite Ov, Ps. repeat split; lia.
Qed.

Lemma good_run ops : forall s s' trc k, Forall gop_ok ops -> stage (s_st s) k -> keys32 (s_st s) -> grun X ops s = (s', trc) ->
  forall n e, nth_error trc n = Some e -> good (k + index trc n) e.
Proof.
  induction ops as [|o ops IH]; intros s s' trc k F St K R n e H.
  - cbn in R. injection R as <- <-. destruct n; discriminate.
  - inversion F as [|? ? Fo F']; subst. cbn [grun] in R.
    destruct (gstep X o s) as [[s1 c1] r1] eqn:G. destruct (grun X ops s1) as [s2 tr2] eqn:R2. injection R as <- <-.
    destruct (good_step _ _ _ _ _ _ Fo St K G) as (G1 & K1 & S1).
    destruct n as [|n].
    + cbn in H. injection H as <-. unfold index. change (firstn 0 ((o, c1, r1) :: tr2)) with (@nil (gop * rcode * gout)).
      cbn. rewrite Nat.add_0_r. exact G1.
    + cbn in H. pose proof (IH _ _ _ _ F' S1 K1 R2 n e H) as P. unfold index in *.
      rewrite firstn_cons. cbn [filter]. destruct (succeeded (o, c1, r1)); cbn [length] in *; [|exact P].
      replace (k + S (length (filter succeeded (firstn n tr2))))%nat with (S k + length (filter succeeded (firstn n tr2)))%nat by lia. exact P.
Qed.

Definition steps_ok (st : xst) : Prop := match st with Handshake s => 0 <= h_step s <= 2 \/ h_step s = 4 | Transport _ => True end.
Lemma steps_step o s s' c r : steps_ok (s_st s) -> gstep X o s = (s', c, r) -> steps_ok (s_st s').
Proof.
  intros St. destruct o as [m|d i]; unfold gstep.
  - unfold session_write. destruct (s_st s) as [h|t] eqn:Es.
    + destruct (4 <=? h_step h). { intros E; injection E as <- <- <-. rewrite Es. exact St. }
      destruct (compute_next_message_len _ _) as [o|]; [|intros E; injection E as <- <- <-; rewrite Es; exact St].
      destruct (sec_ok _ _); [|intros E; injection E as <- <- <-; rewrite Es; exact St].
      unfold state_handshake_write. destruct (write_msg X (s_init s) h (em_msg m) o) as [h' [e|b]] eqn:W.
      { intros E; injection E as <- <- <-. cbn. right. reflexivity. }
      destruct (write_msg_success _ _ _ _ _ _ W) as (L3 & T & S' & _ & _).
      intros E; injection E as <- <- <-. cbn [s_st with_st]. destruct (Z.eqb_spec (h_step h) 2).
      * destruct (split_transport (s_init s) h') as [t ->]. exact I.
      * cbn in *. lia.
    + destruct (compute_next_message_len _ _) as [o|]; [|intros E; injection E as <- <- <-; rewrite Es; exact St].
      destruct (sec_ok _ _); [|intros E; injection E as <- <- <-; rewrite Es; exact St].
      destruct (state_transport_write X t (em_msg m) o) as [t' [e|b]]; intros E; injection E as <- <- <-; cbn; [rewrite Es|]; exact I.
  - unfold session_read. destruct (s_st s) as [h|t] eqn:Es.
    + destruct (4 <=? h_step h). { intros E; injection E as <- <- <-. rewrite Es. exact St. }
      destruct (_ && _); [|intros E; injection E as <- <- <-; rewrite Es; exact St].
      destruct (payload_len _ _) as [o|]; [|intros E; injection E as <- <- <-; rewrite Es; exact St].
      unfold state_handshake_read. destruct (read_msg X (s_init s) d h o i) as [h' [e|[b q]]] eqn:W.
      { intros E; injection E as <- <- <-. cbn. right. reflexivity. }
      destruct (read_msg_success _ _ _ _ _ _ _ _ W) as (L3 & T & S' & _).
      assert (G : steps_ok (if h_step h =? 2 then split X (s_init s) h' else Handshake h')).
      { destruct (Z.eqb_spec (h_step h) 2).
        * destruct (split_transport (s_init s) h') as [t ->]. exact I.
        * cbn in *. lia. }
      destruct q as [q|]; intros E; injection E as <- <- <-; exact G.
    + destruct (payload_len _ _) as [o|]; [|intros E; injection E as <- <- <-; rewrite Es; exact St].
      destruct (state_transport_read X t o i) as [t' [e|b]]; intros E; injection E as <- <- <-; cbn; [rewrite Es|]; exact I.
Qed.
Lemma steps_run ops : forall s s' trc, steps_ok (s_st s) -> grun X ops s = (s', trc) -> steps_ok (s_st s').
Proof.
  induction ops as [|o ops IH]; intros s s' trc St R; cbn [grun] in R.
  - injection R as <- <-. exact St.
  - destruct (gstep X o s) as [[s1 c1] r1] eqn:G. destruct (grun X ops s1) as [s2 tr2] eqn:R2. injection R as <- <-.
    exact (IH _ _ _ (steps_step _ _ _ _ _ St G) R2).
Qed.
Lemma created_hs d pid e d' s0 :
  session_create_responder X d e = Some (d', s0) \/ session_create_initiator X d pid e = Some (d', s0) ->
  exists h, s_st s0 = Handshake h /\ h_step h = 0 /\ h_spub h = d_spub d /\ h_epub h = x_base X e /\ h_epriv h = e.
Proof.
  unfold session_create_responder, session_create_initiator.
  destruct (d_states d =? 4294967295); [intros [E|E]; discriminate|].
  intros [E|E].
  - injection E as <- <-. eexists. repeat split.
  - destruct (lookup_peer_by_id d pid); [|discriminate]. injection E as <- <-. eexists. repeat split.
Qed.
Lemma session_of_steps s : session_of X s -> steps_ok (s_st s).
Proof.
  intros (d & pid & e & d' & s0 & ops & tr & C & _ & R). destruct (created_hs _ _ _ _ _ C) as (h & E & Z & _).
  eapply steps_run; [|exact R]. rewrite E. cbn. lia.
Qed.

(** ** C68: what errors do *)
Theorem error_outcomes s o s' c r : gop_ok o -> gstep X o s = (s', c, r) ->
  (forall e, c = RError e -> s' = s /\ r = GNothing)
  /\ (forall e, c = RStuck e -> dead X s' /\ r = GNothing)
  /\ (c = RSuccess -> r <> GNothing)
  /\ (in_transport s -> in_transport s' /\ forall e, c <> RStuck e).
Proof.
  intros Ok G. destruct (step_outcome _ _ _ _ _ G) as (_ & _ & C). split; [|split; [|split]].
  - intros e ->. exact C.
  - intros e ->. destruct C as (D & R & _). split; [apply is_dead_dead; exact D|exact R].
  - intros ->. exact C.
  - unfold in_transport, session_get_status. destruct (s_st s) as [h|t] eqn:Es.
    { destruct (Bool.eqb _ _); discriminate. }
    intros _. destruct (transport_step _ _ _ _ _ _ Ok Es G) as (t' & E' & _). rewrite E'. split; [reflexivity|].
    intros e ->. destruct C as (_ & _ & _ & h & H). congruence.
Qed.

Theorem dead_or_alive s : session_of X s ->
  dead X s \/ (forall o s' c r, gop_ok o -> gstep X o s = (s', c, r) -> forall e, c = RStuck e ->
    match o with
    | GWrite _ => session_get_status s = Handshake_read /\ e = CIncorrect_transition \/ e = CDH_error
    | GRead _ _ => e = CDH_error \/ e = CDecrypt_error \/ e = CRs_rejected_by_policy \/ (e = CInput_size /\ oversized o)
    end).
Proof.
  intros So. pose proof (session_of_steps s So) as St. destruct (s_st s) as [h|t] eqn:Es.
  2:{ right. intros o s' c r Ok G e ->. exfalso. destruct (error_outcomes _ _ _ _ _ Ok G) as (_ & _ & _ & T).
      destruct T as [_ T]; [unfold in_transport, session_get_status; rewrite Es; reflexivity|]. exact (T e eq_refl). }
  cbn in St. destruct (Z.eq_dec (h_step h) 4) as [E4|E4].
  { left. apply is_dead_dead. rewrite Es. cbn. lia. }
  right. intros o s' c r Ok G e Ec. destruct o as [m|d i]; unfold gstep in G; cbn [gop_ok] in Ok.
  - unfold session_write in G. rewrite Es in G.
    replace (4 <=? h_step h) with false in G by (symmetry; apply Z.leb_gt; lia).
    destruct (compute_next_message_len _ _) as [o|] eqn:Cn; [|injection G as _ <- _; discriminate].
    destruct (sec_ok _ _); [|injection G as _ <- _; discriminate].
    unfold state_handshake_write in G. destruct (write_msg X (s_init s) h (em_msg m) o) as [h' [e'|b]] eqn:W;
      [|injection G as _ <- _; discriminate].
    injection G as _ <- _. injection Ec as ->.
    unfold write_msg in W. replace (3 <=? h_step h) with false in W by (symmetry; apply Z.leb_gt; lia).
    unfold session_get_status. rewrite Es.
    destruct (Bool.eqb (s_init s) (h_step h mod 2 =? 0)) eqn:T; cbn [negb] in W.
    2:{ injection W as _ <-. left. split; reflexivity. }
    right. pose proof (zlen_nonneg (em_msg m)) as N.
    unfold compute_next_message_len in Cn.
    destruct (s_init s && negb (h_step h =? 0)) eqn:B.
    + apply andb_true_iff in B. destruct B as [B1 B2]. rewrite B1 in T. apply negb_true_iff in B2. rewrite B2 in Cn.
      apply Z.eqb_neq in B2. assert (S2 : h_step h = 2).
      { destruct (Z.eq_dec (h_step h) 1) as [E1|]; [rewrite E1 in T; discriminate|lia]. }
      rewrite S2 in Cn. cbn in Cn. destruct (Z.leb_spec (zlen (em_msg m)) 4294967215) as [L|L]; [|discriminate].
      injection Cn as <-. rewrite (Z.add_comm 64), Z.eqb_refl in W.
      replace (zlen (em_msg m) <=? 4294967215) with true in W by (symmetry; apply Z.leb_le; lia). cbn [andb negb] in W.
      unfold encrypt_and_hash, mix_dh in W. destruct (x_dh _ _ _) as [k|]; [destruct (kdf _ _ _); discriminate|].
      injection W as _ <-. reflexivity.
    + assert (S2 : h_step h <> 2).
      { intros E2. rewrite E2 in *. destruct (s_init s); discriminate. }
      assert (Cn' : zlen (em_msg m) <= 4294967215 /\ o = u32 (zlen (em_msg m) + 48)).
      { destruct (h_step h =? 0); [|destruct (h_step h =? 1)].
        - destruct (Z.leb_spec (zlen (em_msg m)) 4294967215); [injection Cn as <-; auto|discriminate].
        - destruct (Z.leb_spec (zlen (em_msg m)) 4294967215); [injection Cn as <-; auto|discriminate].
        - replace (h_step h =? 2) with false in Cn by (symmetry; apply Z.eqb_neq; exact S2). discriminate. }
      destruct Cn' as [L ->]. rewrite (Z.add_comm 48), Z.eqb_refl in W.
      replace (zlen (em_msg m) <=? 4294967215) with true in W by (symmetry; apply Z.leb_le; lia). cbn [andb negb] in W.
      unfold encrypt_and_hash, mix_dh in W. destruct (x_dh _ _ _) as [k|]; [destruct (kdf _ _ _); discriminate|].
      injection W as _ <-. reflexivity.
  - unfold session_read in G. rewrite Es in G.
    replace (4 <=? h_step h) with false in G by (symmetry; apply Z.leb_gt; lia).
    destruct (_ && _) eqn:T; [|injection G as _ <- _; discriminate].
    destruct (payload_len _ _) as [o|] eqn:Cn; [|injection G as _ <- _; discriminate].
    unfold state_handshake_read in G. destruct (read_msg X (s_init s) d h o i) as [h' [e'|[b q]]] eqn:W;
      [|destruct q; injection G as _ <- _; discriminate].
    injection G as _ <- _. injection Ec as ->.
    apply andb_true_iff in T. destruct T as [T _].
    unfold read_msg in W. replace (3 <=? h_step h) with false in W by (symmetry; apply Z.leb_gt; lia).
    rewrite T in W. cbn [negb] in W. pose proof (zlen_nonneg i) as N. unfold payload_len in Cn.
    destruct (negb (s_init s) && negb (h_step h =? 0)) eqn:B.
    + apply andb_true_iff in B. destruct B as [B1 B2]. apply negb_true_iff in B1, B2. rewrite B1 in T. apply Z.eqb_neq in B2.
      assert (S2 : h_step h = 2).
      { destruct (Z.eq_dec (h_step h) 1) as [E1|]; [rewrite E1 in T; discriminate|lia]. }
      rewrite S2 in Cn. cbn in Cn. destruct (Z.leb_spec 64 (zlen i)) as [L|L]; [|discriminate]. injection Cn as <-.
      destruct (negb (_ && _)) eqn:B.
      { injection W as _ <-. right. right. right. split; [reflexivity|]. cbn.
        apply negb_true_iff in B. apply andb_false_iff in B. destruct B as [B|B].
        - apply Z.leb_gt in B. lia.
        - rewrite u32_small in B by lia. apply Z.eqb_neq in B. lia. }
      unfold decrypt_and_hash at 1 in W. destruct (aead_decrypt X (h_k h) 1 (h_h h) (firstn 48 i)) as [rs|]; [|injection W as _ <-; auto].
      destruct (lookup_peer_by_static d rs) as [q|]; [|injection W as _ <-; auto].
      unfold mix_dh in W. destruct (x_dh _ _ _) as [k|]; [|injection W as _ <-; auto].
      destruct (kdf _ _ _) as [a b]. unfold decrypt_and_hash in W.
      destruct (aead_decrypt _ _ _ _ _) as [p|]; [discriminate|injection W as _ <-; auto].
    + assert (S2 : h_step h <> 2).
      { intros E2. rewrite E2 in *. destruct (s_init s); discriminate. }
      assert (Cn' : 48 <= zlen i /\ o = zlen i - 48).
      { replace (h_step h =? 2) with false in Cn by (symmetry; apply Z.eqb_neq; exact S2).
        destruct (_ || _); [|discriminate]. destruct (Z.leb_spec 48 (zlen i)); [injection Cn as <-; auto|discriminate]. }
      destruct Cn' as [L ->].
      destruct (negb (_ && _)) eqn:B2.
      { injection W as _ <-. right. right. right. split; [reflexivity|]. cbn.
        apply negb_true_iff in B2. apply andb_false_iff in B2. destruct B2 as [B2|B2].
        - apply Z.leb_gt in B2. lia.
        - rewrite u32_small in B2 by lia. apply Z.eqb_neq in B2. lia. }
      unfold mix_dh in W. destruct (x_dh _ _ _) as [k|]; [|injection W as _ <-; auto].
      destruct (kdf _ _ _) as [a b]. unfold decrypt_and_hash in W.
      destruct (aead_decrypt _ _ _ _ _) as [p|]; [discriminate|injection W as _ <-; auto].
Qed.

(** an out-of-turn read, and one of a message that is too short, do no harm *)
Theorem read_out_of_turn s d i : ~ dead X s -> session_get_status s = Handshake_write -> gop_ok (GRead d i) ->
  gstep X (GRead d i) s = (s, RError CIncorrect_transition, GNothing).
Proof.
  intros D St Ok. unfold gstep, session_read. unfold session_get_status in St.
  destruct (s_st s) as [h|t] eqn:Es; [|discriminate].
  destruct (Z.leb_spec 4 (h_step h)) as [L|L].
  { exfalso. apply D. apply is_dead_dead. rewrite Es. exact L. }
  destruct (Bool.eqb (s_init s) (h_step h mod 2 =? 0)) eqn:T; [|discriminate].
  replace (Bool.eqb (s_init s) (h_step h mod 2 =? 1)) with false; [reflexivity|].
  apply Bool.eqb_prop in T. rewrite T. pose proof (Z.mod_pos_bound (h_step h) 2 ltac:(lia)) as M.
  destruct (Z.eqb_spec (h_step h mod 2) 0) as [ -> |N]; [reflexivity|]. replace (h_step h mod 2) with 1 by lia. reflexivity.
Qed.
(** an out-of-turn write ends the session *)
Theorem write_out_of_turn s m : session_of X s -> ~ dead X s -> session_get_status s = Handshake_read ->
  zlen (em_msg m) <= 4294967215 -> em_msg m = [] \/ em_level m = Conf_level 0 ->
  exists s', gstep X (GWrite m) s = (s', RStuck CIncorrect_transition, GNothing) /\ dead X s'.
Proof.
  intros So D St L Lv. pose proof (session_of_steps s So) as Sp.
  unfold gstep, session_write. unfold session_get_status in St.
  destruct (s_st s) as [h|t] eqn:Es; [|discriminate]. cbn in Sp.
  destruct (Z.leb_spec 4 (h_step h)) as [L4|L4].
  { exfalso. apply D. apply is_dead_dead. rewrite Es. exact L4. }
  destruct (Bool.eqb (s_init s) (h_step h mod 2 =? 0)) eqn:T; [discriminate|].
  assert (Sc : forall c, sec_ok c m = true).
  { intros c. unfold sec_ok. destruct Lv as [ -> | -> ]; [reflexivity|]. destruct (zlen (em_msg m) =? 0); [reflexivity|apply orb_true_r]. }
  rewrite Sc. unfold compute_next_message_len.
  replace (zlen (em_msg m) <=? 4294967215) with true by (symmetry; apply Z.leb_le; exact L).
  unfold state_handshake_write, write_msg. replace (3 <=? h_step h) with false by (symmetry; apply Z.leb_gt; lia).
  rewrite T. cbn [negb].
  destruct (Z.eqb_spec (h_step h) 0); [|destruct (Z.eqb_spec (h_step h) 1); [|destruct (Z.eqb_spec (h_step h) 2); [|lia]]];
    (eexists; split; [reflexivity|apply is_dead_dead; cbn; lia]).
Qed.

(** ** C67: identities *)
Definition id_inv (s : xsess) (trc : list (gop * rcode * gout)) : Prop :=
  match s_st s with
  | Handshake h => s_pid s = 0
  | Transport _ => exists dev input out q k h key,
      In (GRead dev input, RSuccess, out) trc /\ 48 <= zlen input /\ In q (d_peers dev) /\ s_pid s = p_id q /\ s_pinfo s = p_info q
      /\ x_open X k (nonce12 1) h (firstn 48 input) = Some key /\ lookup_peer_by_static dev key = Some q
  end.
Lemma read_msg_key init d s outlen i s' p q : read_msg X init d s outlen i = (s', inr (p, Some q)) ->
  zlen i = u32 (64 + outlen) /\ outlen <= 4294967215 /\
  exists k h key, x_open X k (nonce12 1) h (firstn 48 i) = Some key /\ lookup_peer_by_static d key = Some q.
Proof.
  unfold read_msg. destruct (3 <=? h_step s); [discriminate|].
  destruct (negb (Bool.eqb init (h_step s mod 2 =? 1))); [discriminate|].
  destruct (negb init && negb (h_step s =? 0)) eqn:B.
  - destruct (negb (_ && _)) eqn:B2; [discriminate|]. unfold decrypt_and_hash at 1.
    destruct (aead_decrypt X (h_k s) 1 (h_h s) (firstn 48 i)) as [rs|] eqn:O; [|discriminate].
    destruct (lookup_peer_by_static d rs) as [peer|] eqn:L; [|discriminate].
    unfold mix_dh. destruct (x_dh _ _ _) as [k|]; [|discriminate]. destruct (kdf _ _ _) as [a b].
    unfold decrypt_and_hash. destruct (aead_decrypt _ _ _ _ (skipn 48 i)) as [pl|]; [|discriminate].
    intros E. injection E as _ _ <-. apply negb_false_iff, andb_true_iff in B2. destruct B2 as (B2 & B3).
    split; [apply Z.eqb_eq; exact B3|]. split; [apply Z.leb_le; exact B2|]. exists (h_k s), (h_h s), rs. split; [exact O|exact L].
  - destruct (negb (_ && _)); [discriminate|]. unfold mix_dh.
    destruct (x_dh _ _ _) as [k|]; [|discriminate]. destruct (kdf _ _ _) as [a b].
    unfold decrypt_and_hash. destruct (aead_decrypt _ _ _ _ _) as [pl|]; discriminate.
Qed.
Lemma id_step o s s' c r trc : gop_ok o -> steps_ok (s_st s) -> s_init s = false -> id_inv s trc -> gstep X o s = (s', c, r) -> id_inv s' (trc ++ [(o, c, r)]).
Proof.
  intros Ok Sp Ini I G. destruct (s_st s) as [h|t] eqn:Es.
  2:{ destruct (transport_step _ _ _ _ _ _ Ok Es G) as (t' & E' & P & Q & _). unfold id_inv in *. rewrite Es in I. rewrite E', P, Q.
      destruct I as (dev & input & out & q & k & h & key & A & B). exists dev, input, out, q, k, h, key. split; [apply in_or_app; left; exact A|exact B]. }
  unfold id_inv in I. rewrite Es in I.
  destruct o as [m|d i]; unfold gstep in G.
  - unfold session_write in G. rewrite Es in G.
    destruct (4 <=? h_step h). { injection G as <- <- <-. unfold id_inv. rewrite Es. exact I. }
    destruct (compute_next_message_len _ _) as [o|]; [|injection G as <- <- <-; unfold id_inv; rewrite Es; exact I].
    destruct (sec_ok _ _); [|injection G as <- <- <-; unfold id_inv; rewrite Es; exact I].
    unfold state_handshake_write in G. destruct (write_msg X (s_init s) h (em_msg m) o) as [h' [e|b]] eqn:W.
    { injection G as <- <- <-. exact I. }
    injection G as <- <- <-. destruct (write_msg_success _ _ _ _ _ _ W) as (L3 & T & _ & _ & _). rewrite Ini in T.
    destruct (Z.eqb_spec (h_step h) 2) as [E2|]; [rewrite E2 in T; discriminate|]. exact I.
  - unfold session_read in G. rewrite Es in G.
    destruct (4 <=? h_step h). { injection G as <- <- <-. unfold id_inv. rewrite Es. exact I. }
    destruct (_ && _); [|injection G as <- <- <-; unfold id_inv; rewrite Es; exact I].
    destruct (payload_len _ _) as [o|] eqn:Pl; [|injection G as <- <- <-; unfold id_inv; rewrite Es; exact I].
    unfold state_handshake_read in G. destruct (read_msg X (s_init s) d h o i) as [h' [e|[b q]]] eqn:W.
    { injection G as <- <- <-. exact I. }
    destruct (read_msg_success _ _ _ _ _ _ _ _ W) as (L3 & T & S' & Q).
    destruct q as [q|].
    + destruct Q as (_ & N0 & Inq & _). destruct (read_msg_key _ _ _ _ _ _ _ _ W) as (Li & Lo & k & hh & key & O & L).
      injection G as <- <- <-. rewrite Ini in T.
      assert (E2 : (h_step h =? 2) = true).
      { destruct (Z.eqb_spec (h_step h) 2); [reflexivity|]. exfalso.
        cbn in Sp. assert (E1 : h_step h = 1) by lia. rewrite E1 in T. discriminate. }
      rewrite E2. destruct (split_transport (s_init s) h') as [t Et]. unfold id_inv. cbn [s_st s_pid s_pinfo]. rewrite Et.
      exists d, i, (GPayload (mkEncap (Auth_level (auth_level (Handshake h))) b)), q, k, hh, key.
      assert (L48 : 48 <= zlen i).
      { assert (0 <= o) by (apply Z.eqb_eq in E2; unfold payload_len in Pl; rewrite E2 in Pl; cbn [Z.eqb Pos.eqb orb] in Pl; destruct (Z.leb_spec 64 (zlen i)); [injection Pl as <-; lia|discriminate]).
        rewrite Li, u32_small; lia. }
      repeat split; try assumption. apply in_or_app. right. left. rewrite ?Es. reflexivity.
    + injection G as <- <- <-. rewrite Ini in Q. destruct Q as [Q|Q]; [discriminate|]. rewrite Q. cbn. exact I.
Qed.
Lemma id_run ops : forall s s' pre trc, Forall gop_ok ops -> steps_ok (s_st s) -> s_init s = false -> id_inv s pre ->
  grun X ops s = (s', trc) -> id_inv s' (pre ++ trc).
Proof.
  induction ops as [|o ops IH]; intros s s' pre trc F Sp Ini I R; cbn [grun] in R.
  - injection R as <- <-. rewrite app_nil_r. exact I.
  - inversion F as [|? ? Fo F']; subst.
    destruct (gstep X o s) as [[s1 c1] r1] eqn:G. destruct (grun X ops s1) as [s2 tr2] eqn:R2. injection R as <- <-.
    destruct (step_outcome _ _ _ _ _ G) as (I1 & _).
    pose proof (IH _ _ _ _ F' (steps_step _ _ _ _ _ Sp G) (eq_trans I1 Ini) (id_step _ _ _ _ _ _ Fo Sp Ini I G) R2) as P.
    rewrite <- app_assoc in P. exact P.
Qed.

(** A responder knows its peer only once the handshake is over; then it is an entry of the
    device's registry, found by the static key that the third message carried. *)
Theorem responder_identity d e d' s0 ops s trc :
  session_create_responder X d e = Some (d', s0) -> Forall gop_ok ops -> grun X ops s0 = (s, trc) ->
  (~ in_transport s -> session_get_peer_id s = 0 /\ session_get_peer_info s = None)
  /\ (in_transport s -> exists dev input out q k h key,
        In (GRead dev input, RSuccess, out) trc /\ 48 <= zlen input /\ In q (d_peers dev) /\ session_get_peer_id s = p_id q /\ (p_id q <> 0 -> session_get_peer_info s = Some (p_info q))
        /\ x_open X k (nonce12 1) h (firstn 48 input) = Some key /\ lookup_peer_by_static dev key = Some q).
Proof.
  intros C F R. unfold session_create_responder in C. destruct (d_states d =? 4294967295); [discriminate|]. injection C as <- <-.
  assert (I : id_inv s ([] ++ trc)) by (refine (id_run _ _ _ _ _ F _ _ _ R); cbn; try reflexivity; lia).
  cbn [app] in I. unfold id_inv in I. unfold in_transport, session_get_status, session_get_peer_id.
  destruct (s_st s) as [h|t].
  - split; [intros _; split; [exact I|]; unfold session_get_peer_info; rewrite I; reflexivity|]. destruct (Bool.eqb _ _); discriminate.
  - split; [intros N; exfalso; apply N; reflexivity|]. intros _.
    destruct I as (dev & input & out & q & k & h & key & I1 & I2 & I3 & I4 & I5 & I6). exists dev, input, out, q, k, h, key.
    refine (conj I1 (conj I2 (conj I3 (conj I4 (conj _ I6))))). intros N. unfold session_get_peer_info. rewrite I4, I5.
    destruct (Z.eqb_spec (p_id q) 0); [contradiction|reflexivity].
Qed.
Lemma init_pid_step o s s' c r : s_init s = true -> gstep X o s = (s', c, r) -> s_pid s' = s_pid s /\ s_pinfo s' = s_pinfo s.
Proof.
  intros Ini. destruct o as [m|d i]; unfold gstep.
  - unfold session_write. destruct (s_st s) as [h|t].
    + destruct (4 <=? h_step h); [intros E; injection E as <- <- <-; auto|].
      destruct (compute_next_message_len _ _) as [o|]; [|intros E; injection E as <- <- <-; auto].
      destruct (sec_ok _ _); [|intros E; injection E as <- <- <-; auto].
      destruct (state_handshake_write _ _ _ _ _) as [st [e|b]]; intros E; injection E as <- <- <-; auto.
    + destruct (compute_next_message_len _ _) as [o|]; [|intros E; injection E as <- <- <-; auto].
      destruct (sec_ok _ _); [|intros E; injection E as <- <- <-; auto].
      destruct (state_transport_write X t (em_msg m) o) as [t' [e|b]]; intros E; injection E as <- <- <-; auto.
  - unfold session_read. destruct (s_st s) as [h|t].
    + destruct (4 <=? h_step h); [intros E; injection E as <- <- <-; auto|].
      destruct (_ && _); [|intros E; injection E as <- <- <-; auto].
      destruct (payload_len _ _) as [o|]; [|intros E; injection E as <- <- <-; auto].
      unfold state_handshake_read. destruct (read_msg X (s_init s) d h o i) as [h' [e|[b q]]] eqn:W.
      { assert (F : found_peer X (s_init s) d h o i = None)
          by (rewrite Ini; unfold found_peer; destruct (3 <=? h_step h); [reflexivity|]; destruct (negb _); reflexivity).
        rewrite F. intros E; injection E as <- <- <-; auto. }
      destruct (read_msg_success _ _ _ _ _ _ _ _ W) as (_ & _ & _ & Q).
      destruct q as [q|]; [destruct Q as [Q _]; congruence|]. intros E; injection E as <- <- <-; auto.
    + destruct (payload_len _ _) as [o|]; [|intros E; injection E as <- <- <-; auto].
      destruct (state_transport_read X t o i) as [t' [e|b]]; intros E; injection E as <- <- <-; auto.
Qed.
Theorem initiator_identity d pid e d' s0 peer ops s trc :
  lookup_peer_by_id d pid = Some peer -> session_create_initiator X d pid e = Some (d', s0) -> grun X ops s0 = (s, trc) ->
  session_get_peer_id s = pid /\ session_get_peer_info s = Some (p_info peer).
Proof.
  intros L C. unfold session_create_initiator in C. rewrite L in C. destruct (d_states d =? 4294967295); [discriminate|]. injection C as <- <-.
  assert (G : forall ops s0 s trc, s_init s0 = true -> grun X ops s0 = (s, trc) -> s_pid s = s_pid s0 /\ s_pinfo s = s_pinfo s0).
  { clear. induction ops as [|o ops IH]; intros s0 s trc Ini R; cbn [grun] in R.
    - injection R as <- <-. auto.
    - destruct (gstep X o s0) as [[s1 c1] r1] eqn:G. destruct (grun X ops s1) as [s2 tr2] eqn:R2. injection R as <- <-.
      destruct (step_outcome _ _ _ _ _ G) as (I1 & _). destruct (init_pid_step _ _ _ _ _ Ini G) as [P1 P2].
      destruct (IH _ _ _ (eq_trans I1 Ini) R2) as [Q1 Q2]. split; congruence. }
  intros R. apply G in R; [|reflexivity]. cbn [s_pid s_pinfo] in R. destruct R as [R1 R2]. split; [exact R1|].
  unfold session_get_peer_info. rewrite R1, R2. unfold lookup_peer_by_id in L. destruct (pid =? 0); [discriminate|reflexivity].
Qed.

(** ** C72: levels and lengths over a history *)
Theorem levels_and_lengths d pid e d' s0 ops s trc :
  zlen (d_spub d) = 32 ->
  session_create_responder X d e = Some (d', s0) \/ session_create_initiator X d pid e = Some (d', s0) ->
  Forall gop_ok ops -> grun X ops s0 = (s, trc) ->
  forall n ev, nth_error trc n = Some ev -> good (index trc n) ev.
Proof.
  intros L C F R n ev H. destruct (created_hs _ _ _ _ _ C) as (h & E & Z & Ks & Ke & _).
  apply (good_run ops s0 s trc 0 F); [| |exact R|exact H]; rewrite E; cbn.
  - left. rewrite Z. split; [reflexivity|lia].
  - rewrite Ks, Ke. split; [apply (ok_base_len X OK)|exact L].
Qed.
(** a level that is not met is refused and nothing changes; one that is met changes nothing *)
Theorem level_refused s m r k : ~ dead X s -> em_level m = Conf_level r -> em_msg m <> [] ->
  stage (s_st s) k -> zlen (em_msg m) <= 4294967215 ->
  (~ conf_met r (snd (payload_security k)) -> gstep X (GWrite m) s = (s, RError CSecurity_level, GNothing))
  /\ (conf_met r (snd (payload_security k)) -> gstep X (GWrite m) s = gstep X (GWrite (mkEncap (Conf_level 0) (em_msg m))) s).
Proof.
  intros D E N St L.
  assert (Nd : ~ is_dead (s_st s)) by (intros I; apply D; apply is_dead_dead; exact I).
  destruct (stage_levels _ _ St Nd) as [Cl _].
  assert (S0 : forall c, sec_ok c (mkEncap (Conf_level 0) (em_msg m)) = true).
  { intros c. apply met_sec_ok. left. reflexivity. }
  assert (Ln : exists o, compute_next_message_len (s_st s) (zlen (em_msg m)) = Some o).
  { unfold compute_next_message_len. destruct (s_st s) as [h|t].
    - replace (zlen (em_msg m) <=? 4294967215) with true by (symmetry; apply Z.leb_le; exact L).
      destruct (Z.eqb_spec (h_step h) 0); [eexists; reflexivity|]. destruct (Z.eqb_spec (h_step h) 1); [eexists; reflexivity|].
      destruct (Z.eqb_spec (h_step h) 2); [eexists; reflexivity|]. exfalso. cbn in St, Nd. lia.
    - replace (zlen (em_msg m) <=? 4294967279) with true by (symmetry; apply Z.leb_le; lia). eexists; reflexivity. }
  destruct Ln as [o Ln].
  split.
  - intros Nm.
    assert (Sf : sec_ok (conf_level (s_st s)) m = false).
    { destruct (sec_ok (conf_level (s_st s)) m) eqn:Sc; [|reflexivity]. exfalso. apply Nm. rewrite <- Cl.
      apply (sec_ok_met r _ m Sc N E). }
    unfold gstep, session_write. rewrite Ln, Sf. destruct (s_st s) as [h|t]; [|reflexivity].
    replace (4 <=? h_step h) with false by (symmetry; apply Z.leb_gt; cbn in Nd; lia). reflexivity.
  - intros M.
    assert (Sf : sec_ok (conf_level (s_st s)) m = true).
    { rewrite Cl. destruct m as [lv ms]. cbn in E. subst lv. apply met_sec_ok. exact M. }
    unfold gstep, session_write. cbn [em_msg]. rewrite Ln, Sf, S0. reflexivity.
Qed.

Lemma stage_run ops : forall s s' trc k, Forall gop_ok ops -> stage (s_st s) k -> keys32 (s_st s) -> grun X ops s = (s', trc) ->
  stage (s_st s') (k + length (filter succeeded trc)).
Proof.
  induction ops as [|o ops IH]; intros s s' trc k F St K R; cbn [grun] in R.
  - injection R as <- <-. cbn. rewrite Nat.add_0_r. exact St.
  - inversion F as [|? ? Fo F']; subst.
    destruct (gstep X o s) as [[s1 c1] r1] eqn:G. destruct (grun X ops s1) as [s2 tr2] eqn:R2. injection R as <- <-.
    destruct (good_step _ _ _ _ _ _ Fo St K G) as (_ & K1 & S1).
    pose proof (IH _ _ _ _ F' S1 K1 R2) as P. cbn [filter]. destruct (succeeded (o, c1, r1)); cbn [length]; [|exact P].
    replace (k + S (length (filter succeeded tr2)))%nat with (S k + length (filter succeeded tr2))%nat by lia. exact P.
Qed.
Theorem level_rule d pid e d' s0 ops s trc m r :
  zlen (d_spub d) = 32 ->
  session_create_responder X d e = Some (d', s0) \/ session_create_initiator X d pid e = Some (d', s0) ->
  Forall gop_ok ops -> grun X ops s0 = (s, trc) -> ~ dead X s ->
  em_level m = Conf_level r -> em_msg m <> [] -> zlen (em_msg m) <= 4294967215 ->
  let provided := snd (payload_security (length (filter succeeded trc))) in
  (~ conf_met r provided -> gstep X (GWrite m) s = (s, RError CSecurity_level, GNothing))
  /\ (conf_met r provided -> gstep X (GWrite m) s = gstep X (GWrite (mkEncap (Conf_level 0) (em_msg m))) s).
Proof.
  intros L C F R D E N Lm. cbv zeta. destruct (created_hs _ _ _ _ _ C) as (h & Eh & Z & Ks & Ke & _).
  apply level_refused; try assumption.
  apply (stage_run ops s0 s trc 0 F); [| |exact R]; rewrite Eh; cbn.
  - left. rewrite Z. split; [reflexivity|lia].
  - rewrite Ks, Ke. split; [apply (ok_base_len X OK)|exact L].
Qed.
Theorem unpack_rule r e p : unpack_message_with_auth_level r e = Some p <->
  p = em_msg e /\ (p = [] \/ exists l, em_level e = Auth_level l /\ r <= l).
Proof.
  unfold unpack_message_with_auth_level. destruct (Z.eqb_spec (zlen (em_msg e)) 0) as [Z|Z].
  - assert (N : em_msg e = []) by (unfold zlen in Z; destruct (em_msg e); [reflexivity|cbn in Z; lia]). rewrite N.
    split; [intros H; injection H as <-; auto|intros [-> _]; reflexivity].
  - assert (N : em_msg e <> []) by (intros N; rewrite N in Z; apply Z; reflexivity).
    destruct (em_level e) as [l|l|].
    + destruct (Z.leb_spec r l) as [H|H].
      * split; [intros E; injection E as <-; split; [reflexivity|right; exists l; auto]|intros [-> _]; reflexivity].
      * split; [discriminate|]. intros [-> [A|(l' & A & B)]]; [contradiction|]. injection A as <-. lia.
    + split; [discriminate|]. intros [-> [A|(l' & A & B)]]; [contradiction|discriminate].
    + split; [discriminate|]. intros [-> [A|(l' & A & B)]]; [contradiction|discriminate].
Qed.
End S.
