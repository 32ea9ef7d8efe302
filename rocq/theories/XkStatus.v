(** What a Noise session and a device say about themselves. *)
From Coq Require Import ZArith Lia List Bool.
From Coq.Strings Require Import Byte.
From Verif Require Import Bytes Res Mem XkModel XkSpec XkProofs XkChannel XkSession XkNonces XkRegistry XkStatusSpec.
Import ListNotations.
Open Scope list_scope.
Open Scope Z_scope.

Section S.
Variable X : xprims.

Definition at_message (s : xsess) (k : nat) : Prop :=
  match s_st s with
  | Handshake h => h_step h = 4 \/ (h_step h = Z.of_nat k /\ (k < 3)%nat)
  | Transport t => (3 <= k)%nat /\ 0 <= t_rn t <= 18446744073709551615 /\ (s_init s = true -> t_recv t = (0 <? t_rn t))
  end.

Lemma split_recv init h : exists t, split X init h = Transport t /\ t_rn t = 0 /\ (init = true -> t_recv t = false).
Proof. unfold split. destruct (kdf _ _ _). destruct init; eexists; repeat split. discriminate. Qed.

Lemma at_step o s s' c r k : gop_ok o -> at_message s k -> gstep X o s = (s', c, r) ->
  at_message s' (k + if succeeded (o, c, r) then 1 else 0)%nat.
Proof.
  intros Fo A G. pose proof (step_outcome _ _ _ _ _ _ G) as (I1 & _ & C). destruct c as [|e|e]; cbn [succeeded].
  - destruct (s_st s) as [h|t] eqn:Es.
    + destruct (handshake_success _ _ _ _ _ _ Es G) as (L & (h' & S' & E') & _).
      unfold at_message in A. rewrite Es in A. destruct A as [A|(A & Lk)]; [lia|].
      unfold at_message. rewrite E', I1. destruct (Z.eqb_spec (h_step h) 2) as [E2|N2].
      * destruct (split_recv (s_init s) h') as (t & -> & R0 & Rv). rewrite R0. split; [lia|]. split; [lia|]. intros I. rewrite Rv by exact I. reflexivity.
      * right. lia.
    + unfold at_message in A. rewrite Es in A. destruct A as (Lk & Nr & Rv).
      unfold at_message. rewrite I1.
      destruct o as [m|d i]; unfold gstep in G.
      * unfold session_write in G. rewrite Es in G. destruct (compute_next_message_len _ _) as [o|]; [|discriminate].
        destruct (sec_ok _ _); [|discriminate]. unfold state_transport_write in G.
        destruct (negb _); [discriminate|]. destruct (18446744073709551615 <=? t_sn t); [discriminate|].
        injection G as <- <-. cbn. split; [lia|]. split; [exact Nr|exact Rv].
      * unfold session_read in G. rewrite Es in G. destruct (payload_len _ _) as [o|]; [|discriminate].
        unfold state_transport_read in G. destruct (negb _); [discriminate|].
        destruct (Z.leb_spec 18446744073709551615 (t_rn t)) as [B|B]; [discriminate|].
        destruct (aead_decrypt _ _ _ _ _) as [p|]; [|discriminate]. injection G as <- <-. cbn.
        assert (U : u64 (t_rn t + 1) = t_rn t + 1) by (unfold u64; apply Z.mod_small; lia). rewrite U.
        split; [lia|]. split; [lia|]. intros _. symmetry. apply Z.ltb_lt. lia.
  - destruct C as [-> _]. rewrite Nat.add_0_r. exact A.
  - destruct C as (D & _ & _ & (h & Es)). unfold at_message. destruct (s_st s') as [h1|t] eqn:Es'; [|contradiction].
    left. cbn in D.
    assert (St : steps_ok (s_st s)).
    { unfold at_message in A. rewrite Es in A. rewrite Es. cbn. lia. }
    pose proof (steps_step _ _ _ _ _ _ St G) as P. rewrite Es' in P. cbn in P. lia.
Qed.
Lemma at_run ops : forall s s' trc k, Forall gop_ok ops -> at_message s k -> grun X ops s = (s', trc) ->
  at_message s' (k + exchanged trc)%nat /\ s_init s' = s_init s /\ s_id s' = s_id s.
Proof.
  induction ops as [|o ops IH]; intros s s' trc k F A R; cbn [grun] in R.
  - injection R as <- <-. unfold exchanged. cbn. rewrite Nat.add_0_r. repeat split. exact A.
  - inversion F as [|? ? Fo F']; subst. destruct (gstep X o s) as [[s1 c1] r1] eqn:G. destruct (grun X ops s1) as [s2 tr2] eqn:R2. injection R as <- <-.
    pose proof (at_step _ _ _ _ _ _ Fo A G) as A1. destruct (step_outcome _ _ _ _ _ _ G) as (I1 & D1 & _).
    destruct (IH _ _ _ _ F' A1 R2) as (A2 & I2 & D2). split; [|split; congruence].
    unfold exchanged in *. cbn [filter]. destruct (succeeded (o, c1, r1)); cbn [length] in *.
    + replace (k + S (length (filter succeeded tr2)))%nat with (k + 1 + length (filter succeeded tr2))%nat by lia. exact A2.
    + rewrite Nat.add_0_r in A2. exact A2.
Qed.
Lemma creates_at init d pid e d' s0 : creates X init d pid e = Some (d', s0) ->
  at_message s0 0 /\ s_init s0 = init /\ s_id s0 = d_states d
  /\ (session_create_responder X d e = Some (d', s0) \/ session_create_initiator X d pid e = Some (d', s0)).
Proof.
  intros C. assert (C' : session_create_responder X d e = Some (d', s0) \/ session_create_initiator X d pid e = Some (d', s0)) by (destruct init; [right|left]; exact C).
  destruct (created_hs X _ _ _ _ _ C') as (h & E & Z0 & _). split; [unfold at_message; rewrite E; right; lia|]. split; [|split; [|exact C']].
  - destruct init; unfold creates, session_create_initiator, session_create_responder in C; destruct (d_states d =? 4294967295); try discriminate.
    + destruct (lookup_peer_by_id d pid); [|discriminate]. injection C as _ <-. reflexivity.
    + injection C as _ <-. reflexivity.
  - destruct init; unfold creates, session_create_initiator, session_create_responder in C; destruct (d_states d =? 4294967295); try discriminate.
    + destruct (lookup_peer_by_id d pid); [|discriminate]. injection C as _ <-. reflexivity.
    + injection C as _ <-. reflexivity.
Qed.
Lemma even_mod k : Nat.even k = (Z.of_nat k mod 2 =? 0).
Proof. rewrite Zmod_even. replace (Z.even (Z.of_nat k)) with (Nat.even k); [destruct (Nat.even k); reflexivity|].
  induction k as [|k IH]; [reflexivity|]. rewrite Nat2Z.inj_succ, Z.even_succ, <- Z.negb_even, <- IH, Nat.even_succ, <- Nat.negb_even. reflexivity. Qed.

Lemma alive_step s k : at_message s k -> ~ dead X s -> match s_st s with Handshake h => h_step h = Z.of_nat k /\ (k < 3)%nat | Transport _ => (3 <= k)%nat end.
Proof.
  unfold at_message. intros A D. destruct (s_st s) as [h|t] eqn:Es; [|exact (proj1 A)].
  destruct A as [A|A]; [|exact A]. exfalso. apply D. apply is_dead_dead. rewrite Es. cbn. lia.
Qed.

Theorem session_status init d pid e d' s0 ops s trc :
  creates X init d pid e = Some (d', s0) -> Forall gop_ok ops -> grun X ops s0 = (s, trc) ->
  (~ dead X s -> session_get_status s =
     if (3 <=? exchanged trc)%nat then Transport_status else if writes init (exchanged trc) then Handshake_write else Handshake_read)
  /\ (dead X s -> (exchanged trc < 3)%nat -> session_get_status s = if init then Handshake_write else Handshake_read).
Proof.
  intros C F R. destruct (creates_at _ _ _ _ _ _ C) as (A0 & I0 & _). destruct (at_run _ _ _ _ _ F A0 R) as (A & I & _).
  cbn [plus] in A. split.
  - intros D. pose proof (alive_step _ _ A D) as P. unfold session_get_status. rewrite I, I0. destruct (s_st s) as [h|t].
    + destruct P as [P Lk]. rewrite P. destruct (Nat.leb_spec 3 (exchanged trc)); [lia|]. unfold writes. rewrite even_mod. reflexivity.
    + destruct (Nat.leb_spec 3 (exchanged trc)); [reflexivity|lia].
  - intros D Lk. unfold session_get_status, at_message in *. rewrite I, I0. destruct (s_st s) as [h|t] eqn:Es; [|lia].
    destruct A as [A|[A Lk']].
    + rewrite A. destruct init; reflexivity.
    + exfalso. (* an alive handshake session does not answer Stuck to everything *)
      specialize (D (GWrite (mkEncap No_level (repeat x00 1)))).
      unfold gop_ok in D. specialize (D ltac:(reflexivity)). unfold gstep, session_write in D. rewrite Es in D.
      replace (4 <=? h_step h) with false in D by (symmetry; apply Z.leb_gt; lia).
      assert (Z.of_nat (exchanged trc) = 0 \/ Z.of_nat (exchanged trc) = 1 \/ Z.of_nat (exchanged trc) = 2) as K by lia.
      unfold compute_next_message_len in D. rewrite A in D. destruct K as [K|[K|K]]; rewrite K in D; cbn in D; discriminate.
Qed.

Theorem max_security init d pid e d' s0 ops s trc :
  creates X init d pid e = Some (d', s0) -> Forall gop_ok ops -> grun X ops s0 = (s, trc) ->
  (session_reached_max_security s = true <-> in_transport s /\ (init = true -> 2 <= zlen (received trc))).
Proof.
  intros C F R. destruct (creates_at _ _ _ _ _ _ C) as (A0 & I0 & _ & C'). destruct (at_run _ _ _ _ _ F A0 R) as (A & I & _).
  destruct (created_hs X _ _ _ _ _ C') as (h & E & Z0 & _).
  assert (Hh : hist X s ([] ++ trc)).
  { refine (hist_run _ _ _ _ _ _ F _ R). unfold hist. rewrite E, Z0. right. cbn. split; [lia|]. destruct (s_init s0); split; reflexivity. }
  cbn [app plus] in *. unfold session_reached_max_security, in_transport, session_get_status, hist, at_message in *.
  rewrite I, I0 in *. destruct (s_st s) as [h1|t].
  - split; [discriminate|]. intros [T _]. destruct (Bool.eqb _ _); discriminate.
  - destruct Hh as (_ & Hr & _). destruct A as (_ & _ & Rv). destruct init.
    + rewrite Rv by reflexivity. rewrite Z.ltb_lt. split; [intros L; split; [reflexivity|intros _; lia]|intros [_ L]; specialize (L eq_refl); lia].
    + split; [intros _; split; [reflexivity|discriminate]|reflexivity].
Qed.

Lemma next_len s k len : at_message s k -> ~ dead X s -> 0 <= len ->
  session_compute_next_message_len s len = if len <=? longest k then Some (len + message_overhead k) else None.
Proof.
  intros A D L. pose proof (alive_step _ _ A D) as P. unfold session_compute_next_message_len, compute_next_message_len, longest.
  destruct (s_st s) as [h|t].
  - destruct P as [P Lk]. rewrite P. destruct (Nat.ltb_spec k 3); [|lia]. change (2 ^ 32 - 1 - 80) with 4294967215.
    destruct (Z.leb_spec len 4294967215) as [B|B].
    + assert (U : forall a, 0 <= a <= 64 -> u32 (len + a) = len + a) by (intros a Ha; unfold u32; apply Z.mod_small; lia).
      destruct k as [|[|[|k]]]; try lia; cbn [Z.of_nat Z.eqb Pos.of_succ_nat Pos.eqb message_overhead Pos.succ]; rewrite !U by lia; reflexivity.
    + destruct k as [|[|[|k]]]; try lia; reflexivity.
  - destruct (Nat.ltb_spec k 3); [lia|]. change (2 ^ 32 - 1 - 16) with 4294967279.
    destruct (Z.leb_spec len 4294967279) as [B|B]; [|reflexivity].
    unfold u32. rewrite Z.mod_small by lia. destruct k as [|[|[|k]]]; try lia. reflexivity.
Qed.
Theorem next_length init d pid e d' s0 ops s trc len :
  creates X init d pid e = Some (d', s0) -> Forall gop_ok ops -> grun X ops s0 = (s, trc) -> ~ dead X s -> 0 <= len ->
  session_compute_next_message_len s len = if len <=? longest (exchanged trc) then Some (len + message_overhead (exchanged trc)) else None.
Proof.
  intros C F R D L. destruct (creates_at _ _ _ _ _ _ C) as (A0 & _). destruct (at_run _ _ _ _ _ F A0 R) as (A & _). exact (next_len _ _ _ A D L).
Qed.
Theorem next_length_true init d pid e d' s0 ops s trc m s' c : xprims_ok X -> zlen (d_spub d) = 32 ->
  creates X init d pid e = Some (d', s0) -> Forall gop_ok ops -> grun X ops s0 = (s, trc) ->
  zlen (em_msg m) < 2 ^ 32 -> gstep X (GWrite m) s = (s', RSuccess, GMessage c) ->
  session_compute_next_message_len s (zlen (em_msg m)) = Some (zlen c).
Proof.
  intros OK Lk C F R Lm G. destruct (creates_at _ _ _ _ _ _ C) as (A0 & _ & _ & C').
  destruct (at_run _ _ _ _ _ F A0 R) as (A & _). cbn [plus] in A.
  destruct (created_hs X _ _ _ _ _ C') as (h & Eh & Z0 & Ks & Ke & _).
  assert (R2 : grun X (ops ++ [GWrite m]) s0 = (s', trc ++ [(GWrite m, RSuccess, GMessage c)])).
  { clear - R G. revert s0 trc R. induction ops as [|o ops IH]; intros s0 trc R; cbn [grun app] in *.
    - injection R as <- <-. rewrite G. reflexivity.
    - destruct (gstep X o s0) as [[s1 c1] r1]. destruct (grun X ops s1) as [s2 tr2] eqn:E. injection R as -> <-.
      rewrite (IH _ _ E). reflexivity. }
  assert (F2 : Forall gop_ok (ops ++ [GWrite m])) by (apply Forall_app; split; [exact F|repeat constructor; exact Lm]).
  assert (P : good (0 + index (trc ++ [(GWrite m, RSuccess, GMessage c)]) (length trc)) (GWrite m, RSuccess, GMessage c)).
  { refine (good_run X OK (ops ++ [GWrite m]) s0 s' _ 0 F2 _ _ R2 (length trc) _ _).
    - rewrite Eh. cbn. left. lia.
    - rewrite Eh. cbn. rewrite Ks, Ke. split; [apply (ok_base_len X OK)|exact Lk].
    - rewrite nth_error_app2 by lia. rewrite Nat.sub_diag. reflexivity. }
  unfold index in P. rewrite firstn_app, Nat.sub_diag, firstn_all, firstn_O, app_nil_r in P. cbn [plus] in P. fold (exchanged trc) in P.
  destruct P as (P & _).
  assert (ND : ~ dead X s). { intros D. specialize (D (GWrite m) Lm). rewrite D in G. discriminate. }
  assert (L0 : 0 <= zlen (em_msg m)) by (unfold zlen; lia).
  rewrite (next_len _ _ _ A ND L0). rewrite P. destruct (Z.leb_spec (zlen (em_msg m)) (longest (exchanged trc))) as [B|B]; [reflexivity|].
  exfalso. pose proof (next_len _ _ _ A ND L0) as N. apply Z.leb_gt in B. rewrite B in N.
  unfold gstep, session_write in G. unfold session_compute_next_message_len in N. rewrite N in G.
  destruct (s_st s) as [hh|t]; [destruct (4 <=? h_step hh)|]; discriminate.
Qed.

Lemma step_states o d : d_states d <= 4294967295 -> 1 <= d_states d ->
  d_states (fst (rstep X o d)) = d_states d + zlen (sessions X [o] d) /\ map session_get_id (sessions X [o] d) = (if zlen (sessions X [o] d) =? 0 then [] else [d_states d])
  /\ d_states (fst (rstep X o d)) <= 4294967295 /\ (zlen (sessions X [o] d) <= 1).
Proof.
  intros U L.
  assert (A : forall name key d' p, device_add_peer d name key = Some (d', p) -> d_states d' = d_states d).
  { intros name key e' p H. unfold device_add_peer in H. destruct (_ || _); [discriminate|]. injection H as <- _. reflexivity. }
  assert (K : forall x, d_states x = d_states d ->
    d_states x = d_states d + zlen (@nil xsess) /\ map session_get_id [] = (if zlen (@nil xsess) =? 0 then [] else [d_states d])
    /\ d_states x <= 4294967295 /\ zlen (@nil xsess) <= 1).
  { intros x E. change (zlen (@nil xsess)) with 0. cbn [Z.eqb map]. repeat split; lia. }
  destruct o as [name key|name blob|id|pid e]; cbn [sessions rstep app].
  - apply K. destruct (device_add_peer d name key) as [[d1 p]|] eqn:H; cbn [fst]; [exact (A _ _ _ _ H)|reflexivity].
  - apply K. destruct (deserialize_peer_secret X d name blob) as [[d1 p]|] eqn:H; cbn [fst]; [|reflexivity].
    unfold deserialize_peer_secret in H. destruct (negb _); [discriminate|]. destruct (aead_decrypt _ _ _ _ _); [|discriminate]. exact (A _ _ _ _ H).
  - apply K. cbn [fst]. unfold device_remove_peer. destruct (id =? 0); reflexivity.
  - replace (if pid =? 0 then session_create_responder X d e else session_create_initiator X d pid e) with (creates X (negb (pid =? 0)) d pid e) by (destruct (pid =? 0); reflexivity).
    destruct (creates X _ d pid e) as [[d1 s]|] eqn:C.
    + destruct (creates_at _ _ _ _ _ _ C) as (_ & _ & I & _).
      assert (Q : d_states d1 = d_states d + 1).
      { assert (N : d1 = count_session d /\ d_states d <> 4294967295).
        { unfold creates, session_create_initiator, session_create_responder in C. destruct (negb _); destruct (Z.eqb_spec (d_states d) 4294967295); try discriminate.
          - destruct (lookup_peer_by_id d pid); [|discriminate]. injection C as <- _. split; [reflexivity|assumption].
          - injection C as <- _. split; [reflexivity|assumption]. }
        destruct N as [-> N]. cbn. unfold u32. apply Z.mod_small. lia. }
      cbn [fst app]. rewrite Q. change (zlen [s]) with 1. cbn [map Z.eqb]. unfold session_get_id. rewrite I. repeat split; [|lia].
      unfold creates, session_create_initiator, session_create_responder in C. destruct (negb _); destruct (Z.eqb_spec (d_states d) 4294967295); try discriminate; lia.
    + cbn [fst app]. apply K. reflexivity.
Qed.
Lemma session_ids ops : forall d, 1 <= d_states d <= 4294967295 ->
  map session_get_id (sessions X ops d) = map (fun k => d_states d + Z.of_nat k) (seq 0 (length (sessions X ops d)))
  /\ d_states d + zlen (sessions X ops d) <= 4294967295 /\ d_states (fst (rrun X ops d)) = d_states d + zlen (sessions X ops d).
Proof.
  induction ops as [|o ops IH]; intros d B.
  - cbn. change (zlen (@nil xsess)) with 0. repeat split; lia.
  - destruct (step_states o d ltac:(lia) ltac:(lia)) as (Q & M & U & L1).
    assert (S : sessions X (o :: ops) d = sessions X [o] d ++ sessions X ops (fst (rstep X o d))) by (cbn [sessions]; rewrite app_nil_r; reflexivity).
    rewrite S. set (one := sessions X [o] d) in *. set (d1 := fst (rstep X o d)) in *.
    assert (L0 : 0 <= zlen one) by (unfold zlen; lia).
    destruct (IH d1 ltac:(lia)) as (I1 & I2 & I3). rewrite map_app, zlen_app, M, I1, Q, app_length.
    split; [|split; [lia|]].
    + destruct one as [|s [|s2 tl]].
      * change (zlen (@nil xsess)) with 0. cbn [Z.eqb app length plus]. rewrite Z.add_0_r. reflexivity.
      * change (zlen [s]) with 1. cbn [Z.eqb app length plus seq map]. f_equal; [lia|]. rewrite <- seq_shift, map_map. apply map_ext. intros k. lia.
      * exfalso. unfold zlen in L1. cbn [length] in L1. lia.
    + cbn [rrun]. destruct (rstep X o d) as [dd r] eqn:E. cbn [fst] in d1. subst d1. destruct (rrun X ops dd) as [d2 tr2] eqn:E2. cbn [fst] in *. lia.
Qed.

Theorem ids prologue info sk spriv d0 ops :
  device_create X prologue info sk spriv = Some d0 ->
  map session_get_id (sessions X ops d0) = map (fun k => 1 + Z.of_nat k) (seq 0 (length (sessions X ops d0)))
  /\ NoDup (map session_get_id (sessions X ops d0)) /\ Forall (fun i => 0 < i < 2 ^ 32) (map session_get_id (sessions X ops d0)).
Proof.
  intros C. injection C as <-. match goal with |- context [sessions X ops ?d] => destruct (session_ids ops d ltac:(cbn; lia)) as (M & U & _); set (dd := d) in * end.
  change (d_states dd) with 1 in *. split; [exact M|]. rewrite M. split.
  - apply FinFun.Injective_map_NoDup; [intros a b; lia|apply seq_NoDup].
  - apply Forall_forall. intros i Hi. apply in_map_iff in Hi. destruct Hi as (k & <- & Hk). apply in_seq in Hk. unfold zlen in U. lia.
Qed.
Theorem id_kept s ops s' trc : grun X ops s = (s', trc) -> session_get_id s' = session_get_id s.
Proof.
  revert s trc. induction ops as [|o ops IH]; intros s trc R; cbn [grun] in R.
  - injection R as <- <-. reflexivity.
  - destruct (gstep X o s) as [[s1 c1] r1] eqn:G. destruct (grun X ops s1) as [s2 tr2] eqn:R2. injection R as <- <-.
    rewrite (IH _ _ R2). destruct (step_outcome _ _ _ _ _ _ G) as (_ & I & _). exact I.
Qed.
End S.
