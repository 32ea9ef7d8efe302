(** The nonces of a whole session, and the channel that two honest devices set up. *)
From Coq Require Import ZArith Lia List Bool.
From Coq.Strings Require Import Byte.
From Verif Require Import Bytes Res Mem XkModel XkSpec XkProofs XkChannel XkSession.
Import ListNotations.
Open Scope list_scope.
Open Scope Z_scope.
Arguments firstn : simpl never.
Arguments skipn : simpl never.

Section N.
Variable X : xprims.

(** how many messages a side has sent and received when the handshake is at a step *)
Definition sends_at (init : bool) (step : Z) : Z := if init then (step + 1) / 2 else step / 2.
Definition reads_at (init : bool) (step : Z) : Z := if init then step / 2 else (step + 1) / 2.

Definition data_sent (init : bool) (trc : list (gop * rcode * gout)) := skipn (if init then 2 else 1) (sent trc).
Definition data_received (init : bool) (trc : list (gop * rcode * gout)) := skipn (if init then 1 else 2) (received trc).

Definition hist (s : xsess) (trc : list (gop * rcode * gout)) : Prop :=
  match s_st s with
  | Handshake h => h_step h = 4 \/ (0 <= h_step h <= 2 /\ zlen (sent trc) = sends_at (s_init s) (h_step h) /\ zlen (received trc) = reads_at (s_init s) (h_step h))
  | Transport t =>
      zlen (sent trc) = (if s_init s then 2 else 1) + t_sn t /\ zlen (received trc) = (if s_init s then 1 else 2) + t_rn t
      /\ 0 <= t_sn t <= 2 ^ 64 - 1 /\ 0 <= t_rn t <= 2 ^ 64 - 1
      /\ (forall k p c, nth_error (data_sent (s_init s) trc) k = Some (p, c) -> c = aead_encrypt X (t_skey t) (Z.of_nat k) [] p)
      /\ (forall k p c, nth_error (data_received (s_init s) trc) k = Some (p, c) -> aead_decrypt X (t_rkey t) (Z.of_nat k) [] c = Some p)
  end.

Lemma sent_snoc trc e : sent (trc ++ [e]) = sent trc ++ sent [e].
Proof. unfold sent. rewrite flat_map_app. reflexivity. Qed.
Lemma received_snoc trc e : received (trc ++ [e]) = received trc ++ received [e].
Proof. unfold received. rewrite flat_map_app. reflexivity. Qed.

Lemma split_nonces init h : exists t, split X init h = Transport t /\ t_sn t = 0 /\ t_rn t = 0.
Proof. unfold split. destruct (kdf _ _ _). destruct init; eexists; repeat split. Qed.

(** a request to a handshake session that succeeds *)
Lemma handshake_success o s h s' r : s_st s = Handshake h -> gstep X o s = (s', RSuccess, r) ->
  h_step h < 3
  /\ (exists h', h_step h' = h_step h + 1 /\ s_st s' = if h_step h =? 2 then split X (s_init s) h' else Handshake h')
  /\ match o with
     | GWrite m => Bool.eqb (s_init s) (h_step h mod 2 =? 0) = true /\ exists c, r = GMessage c
     | GRead d i => Bool.eqb (s_init s) (h_step h mod 2 =? 1) = true /\ exists e, r = GPayload e
     end.
Proof.
  intros Es. destruct o as [m|d i]; unfold gstep.
  - unfold session_write. rewrite Es. destruct (4 <=? h_step h); [discriminate|].
    destruct (compute_next_message_len _ _) as [o|]; [|discriminate].
    destruct (sec_ok _ _); [|discriminate].
    unfold state_handshake_write. destruct (write_msg X (s_init s) h (em_msg m) o) as [h' [e|b]] eqn:W; [discriminate|].
    destruct (write_msg_success _ _ _ _ _ _ _ W) as (L & T & S' & _).
    intros E. injection E as <- <-. split; [exact L|]. split; [|split; [exact T|eexists; reflexivity]].
    exists h'. split; [exact S'|reflexivity].
  - unfold session_read. rewrite Es. destruct (4 <=? h_step h); [discriminate|].
    destruct (_ && _); [|discriminate]. destruct (payload_len _ _) as [o|]; [|discriminate].
    unfold state_handshake_read. destruct (read_msg X (s_init s) d h o i) as [h' [e|[b q]]] eqn:W; [discriminate|].
    destruct (read_msg_success _ _ _ _ _ _ _ _ _ W) as (L & T & S' & _).
    destruct q as [q|]; intros E; injection E as <- <-; (split; [exact L|]); (split; [|split; [exact T|eexists; reflexivity]]);
      exists h'; (split; [exact S'|reflexivity]).
Qed.

Lemma data_snoc {A} (l : list A) (x : A) n k y : zlen l >= Z.of_nat n ->
  nth_error (skipn n (l ++ [x])) k = Some y -> nth_error (skipn n l) k = Some y \/ (y = x /\ Z.of_nat k = zlen l - Z.of_nat n).
Proof.
  intros L H. unfold zlen in *. rewrite skipn_app in H. replace (n - length l)%nat with 0%nat in H by lia. rewrite skipn_O in H.
  destruct (lt_dec k (length (skipn n l))) as [B|B].
  - rewrite nth_error_app1 in H by exact B. left. exact H.
  - rewrite nth_error_app2 in H by lia. rewrite skipn_length in H, B.
    destruct (k - (length l - n))%nat eqn:E; cbn in H.
    + injection H as <-. right. split; [reflexivity|lia].
    + destruct n0; discriminate.
Qed.

Lemma hist_step o s s' c r trc : gop_ok o -> hist s trc -> gstep X o s = (s', c, r) -> hist s' (trc ++ [(o, c, r)]).
Proof.
  intros Ok I G. pose proof (step_outcome _ _ _ _ _ _ G) as (I1 & _ & C).
  destruct c as [|e|e].
  - (* success *)
    destruct (s_st s) as [h|t] eqn:Es.
    + destruct (handshake_success _ _ _ _ _ Es G) as (L & (h' & S' & E') & T).
      unfold hist in I. rewrite Es in I. destruct I as [I|(St & Is & Ir)]; [lia|].
      unfold hist. rewrite I1, E', sent_snoc, received_snoc, !zlen_app.
      destruct o as [m|d i]; destruct T as [T (x & ->)]; unfold data_sent, data_received;
        rewrite sent_snoc, received_snoc; cbn [sent received flat_map app]; rewrite ?zlen_cons, ?app_nil_r; change (@zlen (bytes * bytes) []) with 0.
      * destruct (Z.eqb_spec (h_step h) 2) as [E2|N2].
        -- destruct (split_nonces (s_init s) h') as (t & -> & N & R). rewrite N, R. rewrite E2 in *.
           destruct (s_init s); [|discriminate]. change (sends_at true 2) with 1 in Is. change (reads_at true 2) with 1 in Ir. split; [lia|]; split; [lia|]; split; [lia|]; split; [lia|]; split.
           ++ intros k p c0 Hn. exfalso. revert Hn.
              rewrite skipn_all2; [destruct k; discriminate|]. rewrite app_length. unfold zlen in Is. cbn [length]. lia.
           ++ intros k p c0 Hn. exfalso. revert Hn.
              rewrite skipn_all2; [destruct k; discriminate|]. unfold zlen in Ir. lia.
        -- right. rewrite S', Is, Ir. split; [lia|].
           assert (Sv : h_step h = 0 \/ h_step h = 1) by lia. destruct Sv as [Sv|Sv]; rewrite Sv in *; destruct (s_init s); try discriminate T; split; reflexivity.
      * destruct (Z.eqb_spec (h_step h) 2) as [E2|N2].
        -- destruct (split_nonces (s_init s) h') as (t & -> & N & R). rewrite N, R. rewrite E2 in *.
           destruct (s_init s); [discriminate|]. change (sends_at false 2) with 1 in Is. change (reads_at false 2) with 1 in Ir. split; [lia|]; split; [lia|]; split; [lia|]; split; [lia|]; split.
           ++ intros k p c0 Hn. exfalso. revert Hn.
              rewrite skipn_all2; [destruct k; discriminate|]. unfold zlen in Is. lia.
           ++ intros k p c0 Hn. exfalso. revert Hn.
              rewrite skipn_all2; [destruct k; discriminate|]. rewrite app_length. unfold zlen in Ir. cbn [length]. lia.
        -- right. rewrite S', Is, Ir. split; [lia|].
           assert (Sv : h_step h = 0 \/ h_step h = 1) by lia. destruct Sv as [Sv|Sv]; rewrite Sv in *; destruct (s_init s); try discriminate T; split; reflexivity.
    + destruct (transport_step _ _ _ _ _ _ _ Ok Es G) as (t' & E' & _ & _ & _ & Ek & Er & D).
      unfold hist in I. rewrite Es in I. destruct I as (Is & Ir & Ns & Nr & Fs & Fr).
      unfold hist. rewrite I1, E', sent_snoc, received_snoc, !zlen_app, Ek, Er.
      destruct o as [m|d i]; destruct r as [b|b|]; try contradiction; unfold data_sent, data_received;
        rewrite sent_snoc, received_snoc; cbn [sent received flat_map app]; rewrite ?zlen_cons, ?app_nil_r; change (@zlen (bytes * bytes) []) with 0.
      * destruct D as (Lt & Eb & N1 & N2).
        assert (Un : u64 (t_sn t + 1) = t_sn t + 1) by (unfold u64; apply Z.mod_small; lia). rewrite Un in N1. rewrite N1, N2.
        split; [lia|]; split; [lia|]; split; [lia|]; split; [lia|]; split.
        -- intros k p c Hn. apply data_snoc in Hn; [|destruct (s_init s); lia]. destruct Hn as [Hn|[Hn Hk]]; [exact (Fs _ _ _ Hn)|].
           injection Hn as -> ->. rewrite Hk. replace (zlen (sent trc) - Z.of_nat (if s_init s then 2 else 1)) with (t_sn t) by (destruct (s_init s); lia). exact Eb.
        -- exact Fr.
      * destruct D as (Lt & Eb & _ & N1 & N2).
        assert (Un : u64 (t_rn t + 1) = t_rn t + 1) by (unfold u64; apply Z.mod_small; lia). rewrite Un in N1. rewrite N1, N2.
        split; [lia|]; split; [lia|]; split; [lia|]; split; [lia|]; split.
        -- exact Fs.
        -- intros k p c Hn. apply data_snoc in Hn; [|destruct (s_init s); lia]. destruct Hn as [Hn|[Hn Hk]]; [exact (Fr _ _ _ Hn)|].
           injection Hn as -> ->. rewrite Hk. replace (zlen (received trc) - Z.of_nat (if s_init s then 1 else 2)) with (t_rn t) by (destruct (s_init s); lia). exact Eb.
  - destruct C as [ -> -> ]. unfold hist, data_sent, data_received in *. rewrite sent_snoc, received_snoc.
    replace (sent [(o, RError e, GNothing)]) with (@nil (bytes * bytes)) by (destruct o; reflexivity).
    replace (received [(o, RError e, GNothing)]) with (@nil (bytes * bytes)) by (destruct o; reflexivity).
    rewrite !app_nil_r. exact I.
  - destruct C as (D & _ & _ & _). unfold hist. destruct (s_st s') as [h|t] eqn:Es'; [|contradiction].
    cbn in D. left.
    assert (St : steps_ok (s_st s)).
    { unfold hist in I. unfold steps_ok. destruct (s_st s); [destruct I as [I|(I & _)]; lia|exact Logic.I]. }
    pose proof (steps_step _ _ _ _ _ _ St G) as P. rewrite Es' in P. cbn in P. lia.
Qed.
Lemma hist_run ops : forall pre s s' trc, Forall gop_ok ops -> hist s pre -> grun X ops s = (s', trc) -> hist s' (pre ++ trc).
Proof.
  induction ops as [|o ops IH]; intros pre s s' trc F I R; cbn [grun] in R.
  - injection R as <- <-. rewrite app_nil_r. exact I.
  - inversion F as [|? ? Fo F']; subst. destruct (gstep X o s) as [[s1 c1] r1] eqn:G. destruct (grun X ops s1) as [s2 tr2] eqn:R2. injection R as <- <-.
    pose proof (IH _ _ _ _ F' (hist_step _ _ _ _ _ _ Fo I G) R2) as P. rewrite <- app_assoc in P. exact P.
Qed.

Theorem nonces_of_session d pid e d' s0 ops s trc :
  session_create_responder X d e = Some (d', s0) \/ session_create_initiator X d pid e = Some (d', s0) ->
  Forall gop_ok ops -> grun X ops s0 = (s, trc) -> in_transport s ->
  exists send_key recv_key,
    (forall k p c, nth_error (skipn (if s_init s then 2 else 1) (sent trc)) k = Some (p, c) ->
       Z.of_nat k < 2 ^ 64 - 1 /\ c = x_seal X send_key (nonce12 (Z.of_nat k)) [] p)
    /\ (forall k p c, nth_error (skipn (if s_init s then 1 else 2) (received trc)) k = Some (p, c) ->
       Z.of_nat k < 2 ^ 64 - 1 /\ x_open X recv_key (nonce12 (Z.of_nat k)) [] c = Some p)
    /\ (zlen (skipn (if s_init s then 2 else 1) (sent trc)) = 2 ^ 64 - 1 -> forall p, zlen p <= 4294967279 ->
       gstep X (GWrite (pack_message p)) s = (s, RError CSaturated_nonce, GNothing)).
Proof.
  intros C F R Tr. destruct (created_hs X _ _ _ _ _ C) as (h & E & Z0 & _).
  assert (I : hist s ([] ++ trc)).
  { refine (hist_run _ _ _ _ _ F _ R). unfold hist. rewrite E, Z0. right. cbn. split; [lia|]. destruct (s_init s0); split; reflexivity. }
  cbn [app] in I. unfold in_transport, session_get_status in Tr. unfold hist in I.
  destruct (s_st s) as [h1|t] eqn:Es; [destruct (Bool.eqb _ _); discriminate|].
  destruct I as (Is & Ir & Ns & Nr & Fs & Fr). exists (t_skey t), (t_rkey t). split; [|split].
  - intros k p c H. split; [|exact (Fs _ _ _ H)].
    assert (B : (k < length (skipn (if s_init s then 2 else 1) (sent trc)))%nat) by (apply nth_error_Some; rewrite H; discriminate).
    rewrite skipn_length in B. unfold zlen in Is. destruct (s_init s); lia.
  - intros k p c H. split; [|exact (Fr _ _ _ H)].
    assert (B : (k < length (skipn (if s_init s then 1 else 2) (received trc)))%nat) by (apply nth_error_Some; rewrite H; discriminate).
    rewrite skipn_length in B. unfold zlen in Ir. destruct (s_init s); lia.
  - intros L p Lp. apply (saturated X s t); [exact Es| |exact Lp|apply sec_max; reflexivity].
    unfold zlen in *. rewrite skipn_length in L. destruct (s_init s); lia.
Qed.

Theorem failures_leave_no_trace ops s s' trc : in_transport s -> Forall gop_ok ops -> grun X ops s = (s', trc) ->
  grun X (map (fun e => fst (fst e)) (filter succeeded trc)) s = (s', filter succeeded trc).
Proof.
  unfold in_transport, session_get_status. intros T F R. destruct (s_st s) as [h|t] eqn:Es; [destruct (Bool.eqb _ _); discriminate|].
  exact (filter_run X ops s t s' trc F Es R).
Qed.

(** what an honest pair of devices can rely on *)
Hypothesis OK : xprims_ok X.
Theorem honest_channel di dr pid peer entry ei er di' dr' si sr p1 p2 p3 :
  honest_pair X di dr pid peer entry ->
  session_create_initiator X di pid ei = Some (di', si) ->
  session_create_responder X dr er = Some (dr', sr) ->
  zlen p1 <= 4294967215 -> zlen p2 <= 4294967215 -> zlen p3 <= 4294967215 ->
  exists m1 m2 m3 si1 si2 si3 sr1 sr2 sr3,
    session_write X (pack_message_with_conf_level 0 p1) si = (si1, RSuccess, Some m1)
    /\ session_read X dr sr m1 = (sr1, RSuccess, Some (mkEncap (Auth_level 0) p1))
    /\ session_write X (pack_message_with_conf_level 0 p2) sr1 = (sr2, RSuccess, Some m2)
    /\ session_read X di si1 m2 = (si2, RSuccess, Some (mkEncap (Auth_level 2) p2))
    /\ session_write X (pack_message_with_conf_level 0 p3) si2 = (si3, RSuccess, Some m3)
    /\ session_read X dr sr2 m3 = (sr3, RSuccess, Some (mkEncap (Auth_level 2) p3))
    /\ in_transport si3 /\ in_transport sr3
    /\ session_get_peer_id si3 = pid /\ session_get_peer_id sr3 = p_id entry
    /\ session_get_hash si3 = session_get_hash sr3
    /\ forall es, zlen es <= 2 ^ 64 - 1 -> Forall (fun e => zlen (payload_of e) <= 4294967279) es ->
         channel X es di dr si3 sr3 [] [] = queues es [] [].
Proof.
  intros H Ci Cr L1 L2 L3.
  destruct (handshake_completes X OK _ _ _ _ _ _ _ _ _ _ _ _ _ _ H Ci Cr L1 L2 L3)
    as (m1 & m2 & m3 & si1 & si2 & si3 & sr1 & sr2 & sr3 & ti & tr & A1 & A2 & A3 & A4 & A5 & A6 & _ & _ & _ & Ti & Tr & Eh & K1 & K2 & K3 & K4 & B).
  exists m1, m2, m3, si1, si2, si3, sr1, sr2, sr3.
  destruct B as (N1 & N2 & N3 & N4 & _ & _ & P1 & P2).
  unfold in_transport, session_get_status, session_get_peer_id, session_get_hash. rewrite Ti, Tr.
  repeat (split; [first [assumption | reflexivity]|]).
  intros es Le Fe.
  apply (channel_delivers X OK es di dr si3 sr3 ti tr [] []); try assumption; try constructor; rewrite ?zlen_nil; try lia.
Qed.
End N.
