(** Proofs about programs that use the Noise library: the memory of every run ([XkMemModel], [XkMemSpec]). *)
From Coq Require Import ZArith Lia List Bool Permutation.
From Verif Require Import Bytes Mem XkModel XkSpec XkSession XkMemModel XkMemSpec XkMemProofs.
Import ListNotations.
Open Scope list_scope.
Open Scope Z_scope.

Lemma fresh_write X m sn sn' code out : session_write X m sn = (sn', code, out) -> fresh_peer sn -> fresh_peer sn'.
Proof.
  intros W F. unfold fresh_peer, session_write in *. destruct (s_st sn) as [h|t] eqn:E.
  - destruct (4 <=? h_step h); [injection W as <- <- <-; rewrite E; exact F|].
    destruct (compute_next_message_len _ _); [|injection W as <- <- <-; rewrite E; exact F].
    destruct (sec_ok _ _); [|injection W as <- <- <-; rewrite E; exact F].
    unfold state_handshake_write in W. destruct (write_msg X (s_init sn) h (em_msg m) z) as [h' [e|b]] eqn:WM.
    + injection W as <- <- <-. cbn. intros _ L. lia.
    + injection W as <- <- <-. cbn [with_st s_init s_st s_pinfo]. destruct (write_msg_success _ _ _ _ _ _ _ WM) as (_ & _ & S & _).
      destruct (h_step h =? 2); [destruct (split_transport X (s_init sn) h') as [t ->]; auto|]. intros I L. apply F; [exact I|lia].
  - destruct (compute_next_message_len _ _); [|injection W as <- <- <-; rewrite E; exact F].
    destruct (sec_ok _ _); [|injection W as <- <- <-; rewrite E; exact F].
    destruct (state_transport_write X t (em_msg m) z) as [t' [e|b]]; injection W as <- <- <-; cbn; [rewrite E|]; auto.
Qed.
Lemma fresh_read X v sn input sn' code out : session_read X v sn input = (sn', code, out) -> steps_ok (s_st sn) -> fresh_peer sn -> fresh_peer sn'.
Proof.
  intros R Sp F. unfold fresh_peer, session_read in *. destruct (s_st sn) as [h|t] eqn:E.
  - destruct (4 <=? h_step h); [injection R as <- <- <-; rewrite E; exact F|].
    destruct (Bool.eqb (s_init sn) (h_step h mod 2 =? 1) && (h_step h <? 3)) eqn:Tu; [|injection R as <- <- <-; rewrite E; exact F].
    destruct (payload_len _ _) as [o|]; [|injection R as <- <- <-; rewrite E; exact F].
    unfold state_handshake_read in R. destruct (read_msg X (s_init sn) v h o input) as [h' [e|[p q]]] eqn:RM.
    + injection R as <- <- <-. cbn. intros _ L. lia.
    + pose proof (read_found _ _ _ _ _ _ _ _ _ RM) as FP. destruct (read_msg_success _ _ _ _ _ _ _ _ _ RM) as (_ & _ & S & _).
      assert (G : forall pi : bytes, (h_step h = 0 \/ s_init sn = true -> pi = s_pinfo sn) -> s_init sn = false ->
        match (if h_step h =? 2 then split X (s_init sn) h' else Handshake h') with Handshake h0 => h_step h0 <= 2 -> pi = [] | Transport _ => True end).
      { intros pi Hpi I. destruct (Z.eqb_spec (h_step h) 2); [destruct (split_transport X (s_init sn) h') as [t ->]; exact Logic.I|].
        intros L. destruct (turn_steps sn h Sp Tu I) as [Z|Z]; [|lia]. rewrite Hpi by (left; exact Z). apply (F I). lia. }
      destruct q as [q|].
      * injection R as <- <- <-. cbn [s_init s_st s_pinfo]. intros I. apply (G (p_info q)); [|exact I].
        intros [Z|Z]; exfalso; rewrite (found_other X sn v h o input) in FP; try exact Tu; auto; discriminate.
      * injection R as <- <- <-. cbn [s_init s_st s_pinfo]. intros I. apply (G (s_pinfo sn)); [reflexivity|exact I].
  - destruct (payload_len _ _) as [o|]; [|injection R as <- <- <-; rewrite E; exact F].
    destruct (state_transport_read X t o input) as [t' [e|b]]; injection R as <- <- <-; cbn; [rewrite E|]; auto.
Qed.
Lemma steps_write X m s s' c r : steps_ok (s_st s) -> session_write X m s = (s', c, r) -> steps_ok (s_st s').
Proof. intros St W. eapply (steps_step X (GWrite m)); [exact St|]. unfold gstep. rewrite W. reflexivity. Qed.
Lemma steps_read X d i s s' c r : steps_ok (s_st s) -> session_read X d s i = (s', c, r) -> steps_ok (s_st s').
Proof. intros St R. eapply (steps_step X (GRead d i)); [exact St|]. unfold gstep. rewrite R. reflexivity. Qed.
Lemma created_fresh X d pid e d' s0 :
  session_create_responder X d e = Some (d', s0) \/ session_create_initiator X d pid e = Some (d', s0) ->
  steps_ok (s_st s0) /\ fresh_peer s0 /\ d_peers d' = d_peers d /\ d_info d' = d_info d /\ d_prologue d' = d_prologue d.
Proof.
  intros C. destruct (created_hs _ _ _ _ _ _ C) as (h & E & Z & _). rewrite E. split; [cbn; lia|].
  unfold session_create_responder, session_create_initiator in C. destruct (d_states d =? 4294967295); [destruct C; discriminate|].
  destruct C as [C|C].
  - injection C as <- <-. split; [unfold fresh_peer; cbn; auto|]. repeat split.
  - destruct (lookup_peer_by_id d pid); [|discriminate]. injection C as <- <-. split; [unfold fresh_peer; cbn; discriminate|]. repeat split.
Qed.
Lemma dmatch_same d v v' : d_peers v' = d_peers v -> d_info v' = d_info v -> d_prologue v' = d_prologue v -> dmatch d v -> dmatch d v'.
Proof. unfold dmatch. intros -> -> ->. auto. Qed.
Lemma dmatch_add d v v' info rs p q : device_add_peer v info rs = Some (v', p) -> dmatch d v -> hp_val q = p -> psized q ->
  dmatch (with_peers d (q :: hd_peers d)) v'.
Proof.
  unfold device_add_peer. destruct (_ || _); [discriminate|]. intros E (A & B & C & D) V S. injection E as <- <-. unfold dmatch.
  cbn [with_peers hd_peers hd_text hd_prologue d_peers d_info d_prologue map]. rewrite V, A. repeat split; try assumption; try apply C; try apply D. constructor; assumption.
Qed.
Lemma new_device w d hd h : Inv w -> dmatch hd d ->
  owns (gone (w_devs w)) h (dev_mem hd ++ flat_map dblk (w_devs w) ++ flat_map sblk (w_sess w) ++ flat_map ublk (w_user w)) ->
  Inv (mkWorld h (w_devs w ++ [mkDe d hd true]) (w_sess w) (w_user w)).
Proof.
  intros (O & DM & SG & UG) M O'. split; [|split; [|split]]; cbn [w_devs w_heap w_sess w_user].
  - rewrite gone_open by reflexivity. rewrite flat_map_app. cbn [flat_map]. unfold dblk at 2. cbn [de_open de_mem]. eapply owns_perm; [|exact O']. perm.
  - apply Forall_app. split; [exact DM|]. constructor; [exact M|constructor].
  - eapply Forall_impl; [|exact SG]. intros s S. apply sgood_app. exact S.
  - exact UG.
Qed.
Lemma same_world w h : Inv w -> owns (gone (w_devs w)) h (flat_map dblk (w_devs w) ++ flat_map sblk (w_sess w) ++ flat_map ublk (w_user w)) ->
  Inv (mkWorld h (w_devs w) (w_sess w) (w_user w)).
Proof. intros (O & I) O'. split; [exact O'|exact I]. Qed.
Lemma user_view w u o : Inv w -> nth_error (w_user w) u = Some o -> ugood o /\
  owns (gone (w_devs w)) (w_heap w) (ublk o ++ flat_map dblk (w_devs w) ++ flat_map sblk (w_sess w) ++ flat_map ublk (del_nth u (w_user w))).
Proof.
  intros (O & _ & _ & UG) N. split.
  - rewrite Forall_forall in UG. apply UG. eapply nth_error_In. exact N.
  - eapply owns_perm; [|exact O]. pose proof (nth_flat ublk _ _ _ N) as P. perm.
Qed.
Lemma user_del w u o h : Inv w -> nth_error (w_user w) u = Some o ->
  owns (gone (w_devs w)) h (flat_map dblk (w_devs w) ++ flat_map sblk (w_sess w) ++ flat_map ublk (del_nth u (w_user w))) ->
  Inv (mkWorld h (w_devs w) (w_sess w) (del_nth u (w_user w))).
Proof. intros (O & DM & SG & UG) N O'. repeat (split; [assumption|]). apply forall_del. exact UG. Qed.

Lemma owns_more G x h l : owns G h l -> (fst x < next h)%nat -> (snd x = true -> ~ In (fst x) (map fst (live h))) -> owns (x :: G) h l.
Proof. intros (A & B & C & D & E) L N. repeat (split; [assumption|]). constructor; auto. Qed.
Lemma owns_sub G G' h l : (forall x, In x G' -> In x G) -> owns G h l -> owns G' h l.
Proof.
  intros S (A & B & C & D & E). repeat (split; [assumption|]). rewrite Forall_forall in *. intros x I. apply E, S, I.
Qed.
Lemma owns_next G h l b : owns G h l -> In b l -> (fst b < next h)%nat.
Proof. intros (A & _ & C & _) I. rewrite Forall_forall in C. apply C. eapply Permutation_in; [symmetry; exact A|exact I]. Qed.
Lemma owns_nodup G h l : owns G h l -> NoDup (map fst l).
Proof. intros (A & B & _). eapply Permutation_NoDup; [apply Permutation_map; exact A|exact B]. Qed.
(** the address of a freed device is not used again *)
Lemma device_free_gone G d h R : owns G h (dev_mem d ++ R) ->
  wp (mem_device_free d) h (fun _ h' => owns ((hd_dev d, true) :: G) h' (lost_mem d ++ R)).
Proof.
  intros O. assert (O1 : owns ((hd_dev d, false) :: G) h (dev_mem d ++ R)).
  { apply owns_more; [exact O| |discriminate]. apply (owns_next _ _ _ (hd_dev d, Wdevice) O). left. reflexivity. }
  eapply wp_mono; [apply free_device_ok; exact O1|]. intros u h' O2. cbv beta in *.
  assert (O3 : owns G h' (lost_mem d ++ R)) by (eapply owns_sub; [|exact O2]; intros x I; right; exact I).
  apply owns_more; [exact O3| |].
  - destruct O2 as (_ & _ & _ & _ & F). inversion F as [|? ? Hx]; subst. exact (proj1 Hx).
  - intros _ I. destruct O3 as (P & _). apply (Permutation_in _ (Permutation_map fst P)) in I. cbn [fst] in I.
    pose proof (owns_nodup _ _ _ O) as N. unfold dev_mem in N. cbn [app map fst] in N. inversion N as [|? ? N1 _]; subst. apply N1.
    rewrite map_app in I. apply in_app_or in I. unfold lost_mem in I. cbn [map fst] in I.
    cbn [In]. destruct I as [[I|I]|I].
    + right. left. exact I.
    + do 5 right. rewrite !map_app. apply in_or_app. left. apply in_or_app. right. apply in_or_app. right.
      clear - I. induction (hd_peers d) as [|p l IH]; [destruct I|]. cbn [flat_map] in *. rewrite map_app in *. apply in_or_app.
      apply in_app_or in I. destruct I as [I|I]; [left; right; exact I|right; apply IH; exact I].
    + do 5 right. rewrite !map_app. apply in_or_app. right. exact I.
Qed.
Lemma gone_close d e e' l : nth_error l d = Some e -> de_open e = true -> de_open e' = false -> hd_dev (de_mem e') = hd_dev (de_mem e) ->
  forall x, In x (gone (set_nth d e' l)) -> In x ((hd_dev (de_mem e), true) :: gone l).
Proof.
  intros N O1 O2 H x I. unfold gone in *. apply in_map_iff in I. destruct I as (y & E & I). apply filter_In in I. destruct I as [I F].
  apply (Permutation_in _ (Permutation_map _ (set_perm _ _ _ e' N))) in I. cbn [map] in I. destruct I as [I|I].
  - left. subst y x. cbn [fst]. rewrite H. reflexivity.
  - right. apply in_map_iff. exists y. split; [exact E|]. apply filter_In. split; [|exact F].
    apply (Permutation_in _ (Permutation_sym (Permutation_map _ (nth_perm _ _ _ N)))). cbn [map]. right. exact I.
Qed.

Section Steps.
Variable X : xprims.
Hypothesis HX : xprims_ok X.

Lemma dead_address w d e : Inv w -> nth_error (w_devs w) d = Some e -> de_open e = false -> deadp (hd_dev (de_mem e)) (w_heap w).
Proof.
  intros ((_ & _ & _ & _ & F) & _) N O. rewrite Forall_forall in F.
  assert (I : In (hd_dev (de_mem e), true) (gone (w_devs w))).
  { unfold gone. apply in_map_iff. exists (hd_dev (de_mem e), false). split; [reflexivity|]. apply filter_In. split; [|reflexivity].
    apply in_map_iff. exists e. split; [rewrite O; reflexivity|]. eapply nth_error_In. exact N. }
  destruct (F _ I) as [A B]. split; [exact A|]. apply B. reflexivity.
Qed.
Theorem step_gone c w : Inv w -> device_gone c w -> mstep X c w = None.
Proof.
  intros I (s & input & e & de & -> & N & ND & Op & Ex). unfold mstep, on_sess, on_dev. rewrite N, ND.
  destruct (session_read X (de_val de) (se_val e) input) as [[s' code] out]. unfold exec. rewrite read_stuck; [reflexivity|exact Ex|].
  assert (SG : Forall (sgood (w_devs w)) (w_sess w)) by apply I. rewrite Forall_forall in SG. destruct (SG e (nth_error_In _ _ N)) as (_ & _ & _ & de' & N' & H).
  rewrite ND in N'. injection N' as <-. rewrite H. eapply dead_address; [exact I|exact ND|exact Op].
Qed.

Theorem step_ok c w : Inv w -> allowed c w -> ~ device_gone c w -> exists w', mstep X c w = Some w' /\ Inv w'.
Proof.
  intros I A NG. destruct c; cbn [allowed] in A; cbn [mstep].
  - (* create *) unfold device_create. eapply exec_ok; [apply create_ok; apply I|]. intros hd h (O & P & S1 & S2). cbv beta.
    apply new_device; [exact I| |exact O]. unfold dmatch. rewrite P. cbn [d_peers d_info d_prologue map]. auto.
  - (* create from a secret *) eapply exec_ok; [apply create_secret_ok; apply I|]. intros o h Q. cbv beta in *.
    unfold device_create_from_secret in *. destruct (aead_decrypt X sk (bytes_to_nonce enc) info (firstn 48 (skipn 8 enc))) as [spriv|].
    + destruct o as [hd|]; [|destruct Q; discriminate]. destruct Q as (_ & O & P & S1 & S2).
      apply new_device; [exact I| |exact O]. unfold dmatch. rewrite P. cbn [d_peers d_info d_prologue map]. auto.
    + destruct o as [hd|]; [destruct Q; discriminate|]. apply same_world; [exact I|apply Q].
  - (* add a peer *) destruct (dev_view w d I A) as (e & N & Op & M & O). unfold on_dev. rewrite N. eapply exec_ok; [apply add_ok; exact O|].
    intros hd h (O' & Q). cbv beta. destruct (device_add_peer (de_val e) info rs) as [[v p]|] eqn:Ad; cbn [option_map snd] in Q.
    + destruct Q as (q & V & Sz & ->). eapply dev_update; [exact I|exact N|exact Op|exact Op|reflexivity| |exact O']. eapply dmatch_add; eassumption.
    + subst hd. eapply dev_update; [exact I|exact N|exact Op|exact Op|reflexivity|exact M|exact O'].
  - (* remove a peer *) destruct (dev_view w d I A) as (e & N & Op & M & O). unfold on_dev. rewrite N. eapply exec_ok; [eapply remove_ok; [exact M|exact O]|].
    intros hd h (O' & M' & HD). cbv beta. eapply dev_update; [exact I|exact N|exact Op|exact Op|exact HD|exact M'|exact O'].
  - (* serialize the device *) destruct (dev_view w d I A) as (e & N & Op & M & O). unfold on_dev. rewrite N. eapply exec_ok; [apply serialize_ok; exact O|].
    intros a h O'. cbv beta in *. eapply give_ok; [exact I|reflexivity|repeat constructor|].
    eapply owns_perm; [|exact O']. pose proof (nth_flat dblk _ _ _ N) as P. unfold dblk at 2 in P. rewrite Op in P. cbn [flat_map ublk app]. perm.
  - (* serialize a peer *) destruct (dev_view w d I A) as (e & N & Op & M & O). unfold on_dev. rewrite N. eapply exec_ok; [eapply serialize_peer_ok; [exact M|exact O]|].
    intros o h O'. cbv beta in *. eapply give_ok; [exact I|apply buf_blk|apply buf_good|].
    eapply owns_perm; [|exact O']. pose proof (nth_flat dblk _ _ _ N) as P. unfold dblk at 2 in P. rewrite Op in P. perm.
  - (* deserialize a peer *) destruct (dev_view w d I A) as (e & N & Op & M & O). unfold on_dev. rewrite N. eapply exec_ok; [apply deserialize_ok; exact O|].
    intros hd h (O' & Q). cbv beta. unfold deserialize_peer_secret in *. destruct (negb (56 =? zlen enc)).
    { subst hd. eapply dev_update; [exact I|exact N|exact Op|exact Op|reflexivity|exact M|exact O']. }
    destruct (aead_decrypt X (d_sk (de_val e)) (bytes_to_nonce enc) name (skipn 8 enc)) as [rs|].
    2:{ subst hd. eapply dev_update; [exact I|exact N|exact Op|exact Op|reflexivity|exact M|exact O']. }
    destruct (device_add_peer (de_val e) name rs) as [[v p]|] eqn:Ad; cbn [option_map snd] in Q.
    + destruct Q as (q & V & Sz & ->). eapply dev_update; [exact I|exact N|exact Op|exact Op|reflexivity| |exact O']. eapply dmatch_add; eassumption.
    + subst hd. eapply dev_update; [exact I|exact N|exact Op|exact Op|reflexivity|exact M|exact O'].
  - (* device name *) destruct (dev_view w d I A) as (e & N & Op & M & O). unfold on_dev. rewrite N. eapply exec_ok; [apply get_info_ok; exact O|].
    intros o h O'. cbv beta in *. eapply give_ok; [exact I|apply buf_blk|apply buf_good|].
    eapply owns_perm; [|exact O']. pose proof (nth_flat dblk _ _ _ N) as P. unfold dblk at 2 in P. rewrite Op in P. perm.
  - (* peer name *) destruct (dev_view w d I A) as (e & N & Op & M & O). unfold on_dev. rewrite N. eapply exec_ok; [eapply peer_info_ok; [exact M|exact O]|].
    intros o h O'. cbv beta in *. eapply give_ok; [exact I|apply buf_blk|apply buf_good|].
    eapply owns_perm; [|exact O']. pose proof (nth_flat dblk _ _ _ N) as P. unfold dblk at 2 in P. rewrite Op in P. perm.
  - (* initiator *) destruct (dev_view w d I A) as (x & N & Op & M & O). unfold on_dev. rewrite N.
    eapply exec_ok; [eapply initiator_ok; [exact M|reflexivity|exact O]|]. intros o h Q. cbv beta zeta in *.
    destruct (session_create_initiator X (de_val x) pid e) as [[v s]|] eqn:Cr; destruct o as [hsn|]; try contradiction Q.
    + destruct Q as (O' & SM & HD). destruct (created_fresh X (de_val x) pid e v s (or_intror Cr)) as (So & Fp & P1 & P2 & P3).
      apply add_session; try assumption. eapply dmatch_same; eassumption.
    + apply same_world; [exact I|]. eapply owns_perm; [|exact Q]. pose proof (nth_flat dblk _ _ _ N) as P. unfold dblk at 2 in P. rewrite Op in P. perm.
  - (* responder *) destruct (dev_view w d I A) as (x & N & Op & M & O). unfold on_dev. rewrite N.
    eapply exec_ok; [eapply responder_ok; exact O|]. intros o h Q. cbv beta zeta in *.
    destruct (session_create_responder X (de_val x) e) as [[v s]|] eqn:Cr; destruct o as [hsn|]; try contradiction Q.
    + destruct Q as (O' & SM & HD). destruct (created_fresh X (de_val x) 0 e v s (or_introl Cr)) as (So & Fp & P1 & P2 & P3).
      apply add_session; try assumption. eapply dmatch_same; eassumption.
    + apply same_world; [exact I|]. eapply owns_perm; [|exact Q]. pose proof (nth_flat dblk _ _ _ N) as P. unfold dblk at 2 in P. rewrite Op in P. perm.
  - (* pack *) eapply exec_ok; [apply pack_ok; apply I|]. intros em h (O & S). cbv beta.
    eapply give_ok; [exact I| | |exact O]; [cbn [flat_map ublk]; apply app_nil_r|]. constructor; [exact S|constructor].
  - (* unpack *) destruct A as (em & e & N). rewrite N. destruct (user_view _ _ _ I N) as [_ O]. cbn [ublk] in O.
    eapply exec_ok; [apply unpack_ok; exact O|]. intros o h O'. cbv beta in *. eapply give_ok; [exact I|apply buf_blk|apply buf_good|].
    eapply owns_perm; [|exact O']. pose proof (nth_flat ublk _ _ _ N) as P. cbn [ublk] in P. perm.
  - (* write *) destruct A as (SO & em & m & N). destruct (sess_view w s I SO) as (e & NS & Op & (SM & St & Fp & De) & O).
    unfold on_sess. rewrite NS, N. destruct (session_write X m (se_val e)) as [[s' code] out] eqn:W.
    eapply exec_ok.
    + apply wp_bind. eapply wp_touch with (w := Wencap); [exact O| |eapply write_ok; [exact W|exact SM|exact O]].
      apply in_or_app. right. apply in_or_app. right. apply in_or_app. right. apply in_flat_map. exists (UMsg em m).
      split; [eapply nth_error_In; exact N|left; reflexivity].
    + intros [hs' o] h (O' & SM' & HD). cbv beta. cbn [fst snd] in *. eapply sess_update; [exact I|exact NS| |apply buf_blk|apply buf_good|].
      * split; [exact SM'|]. split; [eapply steps_write; eassumption|]. split; [eapply fresh_write; eassumption|].
        cbn [se_dev se_mem]. rewrite HD. exact De.
      * unfold sblk at 1. cbn [se_open se_mem]. rewrite Op. exact O'.
  - (* read *) destruct (sess_view w s I A) as (e & NS & Op & (SM & St & Fp & de & ND & HD) & O).
    unfold on_sess, on_dev. rewrite NS, ND. destruct (session_read X (de_val de) (se_val e) input) as [[s' code] out] eqn:R.
    eapply exec_ok.
    + eapply (read_ok _ X HX); [exact SM|exact St|exact Fp| |exact R|exact O]. intros Ex. split; [|split; [exact HD|]].
      * destruct I as (_ & DM & _). rewrite Forall_forall in DM. apply (DM de). eapply nth_error_In. exact ND.
      * intros b J. apply in_or_app. left. apply in_flat_map. exists de. split; [eapply nth_error_In; exact ND|]. unfold dblk.
        destruct (de_open de) eqn:OpD; [exact J|]. exfalso. apply NG. exists s, input, e, de. auto.
    + intros [hs' o] h (SM' & HD' & Q). cbv beta. cbn [fst snd] in *.
      assert (SG' : sgood (w_devs w) (mkSe s' (se_info e) hs' (se_dev e) (se_open e))).
      { split; [exact SM'|]. split; [eapply steps_read; eassumption|]. split; [eapply fresh_read; eassumption|].
        cbn [se_dev se_mem]. rewrite HD'. eauto. }
      destruct o as [em|], out as [m|]; try contradiction Q.
      * eapply sess_update; [exact I|exact NS|exact SG'|cbn [flat_map ublk]; apply app_nil_r| |unfold sblk at 1; cbn [se_open se_mem]; rewrite Op; apply Q].
        constructor; [cbn [ugood]; apply Q|constructor].
      * eapply sess_update; [exact I|exact NS|exact SG'|reflexivity|constructor|unfold sblk at 1; cbn [se_open se_mem app]; rewrite Op; exact Q].
  - (* session name *) destruct (sess_view w s I A) as (e & NS & Op & _ & O). unfold on_sess. rewrite NS. eapply exec_ok; [apply session_info_ok; exact O|].
    intros o h O'. cbv beta in *. eapply give_ok; [exact I|apply buf_blk|apply buf_good|].
    eapply owns_perm; [|exact O']. pose proof (nth_flat sblk _ _ _ NS) as P. unfold sblk at 2 in P. rewrite Op in P. perm.
  - (* name of the peer *) destruct (sess_view w s I A) as (e & NS & Op & _ & O). unfold on_sess. rewrite NS. eapply exec_ok; [apply session_peer_info_ok; exact O|].
    intros o h O'. cbv beta in *. eapply give_ok; [exact I|apply buf_blk|apply buf_good|].
    eapply owns_perm; [|exact O']. pose proof (nth_flat sblk _ _ _ NS) as P. unfold sblk at 2 in P. rewrite Op in P. perm.
  - (* release *) destruct A as (o & N). rewrite N. destruct (user_view _ _ _ I N) as [_ O]. destruct o as [a k|em m]; cbn [ublk app] in O.
    + eapply exec_ok; [eapply free_buf_ok; exact O|]. intros u' h O'. cbv beta in *. eapply user_del; [exact I|exact N|exact O'].
    + eapply exec_ok; [eapply encap_free_ok; exact O|]. intros u' h O'. cbv beta in *. eapply user_del; [exact I|exact N|exact O'].
  - (* free a session *) destruct (sess_view w s I A) as (e & NS & Op & (SM & St & Fp & De) & O). unfold on_sess. rewrite NS.
    eapply exec_ok; [eapply session_free_ok; exact O|]. intros u' h O'. cbv beta in *.
    eapply sess_update; [exact I|exact NS| |reflexivity|constructor|unfold sblk at 1; cbn [se_open app]; exact O'].
    split; [exact SM|]. split; [exact St|]. split; [exact Fp|exact De].
  - (* free a device *) destruct (dev_view w d I A) as (e & N & Op & M & O). unfold on_dev. rewrite N. eapply exec_ok; [apply device_free_gone; exact O|].
    intros u' h O'. cbv beta in *. destruct I as (_ & DM & SG & UG). unfold put_dev. split; [|split; [|split]]; cbn [w_devs w_heap w_sess w_user].
    + eapply owns_sub; [eapply gone_close; [exact N|exact Op|reflexivity|reflexivity]|]. cbn [de_mem]. eapply owns_perm; [|exact O'].
      pose proof (set_flat dblk _ _ _ (mkDe (de_val e) (de_mem e) false) N) as P. unfold dblk at 2 in P. cbn [de_open de_mem] in P. perm.
    + apply forall_set; assumption.
    + eapply Forall_impl; [|exact SG]. intros s S. eapply sgood_set; [exact N|reflexivity|exact S].
    + exact UG.
Qed.

Lemma run_inv cs : forall w w', obeys X allowed cs w -> Inv w -> mrun X cs w = Some w' -> Inv w'.
Proof.
  induction cs as [|c cs IH]; intros w w' Ob I R; cbn [mrun obeys] in *; [injection R as <-; exact I|].
  destruct Ob as [A Ob]. destruct (mstep X c w) as [w1|] eqn:S; [|discriminate].
  assert (NG : ~ device_gone c w) by (intros G; rewrite (step_gone c w I G) in S; discriminate).
  destruct (step_ok c w I A NG) as (w2 & S2 & I2). rewrite S in S2. injection S2 as <-. exact (IH w1 w' (Ob w1 eq_refl) I2 R).
Qed.
Theorem defined_exactly cs w c : obeys X allowed cs start -> mrun X cs start = Some w -> allowed c w ->
  (mstep X c w = None <-> device_gone c w).
Proof.
  intros Ob R A. pose proof (run_inv cs start w Ob inv_start R) as I. split; [|apply step_gone; exact I].
  intros N. destruct (mstep X c w) eqn:S; [discriminate|].
  assert (D : device_gone c w \/ ~ device_gone c w).
  { destruct c; try (right; intros (s1 & i1 & e1 & d1 & E & _); discriminate). cbn [allowed] in A. destruct A as (e & NS & Op).
    destruct I as (_ & _ & SG & _). rewrite Forall_forall in SG. destruct (SG e (nth_error_In _ _ NS)) as (_ & _ & _ & de & ND & _).
    assert (Other : (de_open de = true \/ ~ expects (se_val e) (zlen input)) -> ~ device_gone (NRead s input) w).
    { intros K (s1 & i1 & e1 & d1 & E & N1 & N2 & O2 & Ex). injection E as <- <-. rewrite NS in N1. injection N1 as <-. rewrite ND in N2. injection N2 as <-.
      destruct K as [K|K]; [congruence|exact (K Ex)]. }
    destruct (de_open de) eqn:OD; [right; apply Other; left; reflexivity|].
    assert (Dec : expects (se_val e) (zlen input) \/ ~ expects (se_val e) (zlen input)).
    { unfold expects. destruct (s_init (se_val e)); [right; intros [Z _]; discriminate|]. destruct (s_st (se_val e)) as [hh|t]; [|right; intros (_ & h & Z & _); discriminate].
      destruct (Z.eq_dec (h_step hh) 0) as [E0|E0], (Z.eq_dec (h_step hh) 2) as [E2|E2], (Z_le_gt_dec 48 (zlen input)) as [L1|L1], (Z_le_gt_dec 64 (zlen input)) as [L2|L2];
        try (left; split; [reflexivity|]; exists hh; split; [reflexivity|]; lia);
        right; intros (_ & h & Z & K); injection Z as <-; lia. }
    destruct Dec as [Ex|NE]; [left; exists s, input, e, de; auto|right; apply Other; right; exact NE]. }
  destruct D as [D|D]; [exact D|]. destruct (step_ok c w I A D) as (w' & S' & _). congruence.
Qed.

(** ** the documented use *)
Definition parents (w : world) : Prop := forall s e, nth_error (w_sess w) s = Some e -> se_open e = true -> dev_open w (se_dev e).
Lemma exec_some {A} w (m : M A) k w' : exec w m k = Some w' -> exists a h, w' = k a h.
Proof. unfold exec. destruct (m (w_heap w)) as [[a h]|]; [|discriminate]. intros E. injection E as <-. eauto. Qed.
Lemma open_set w d e e' l s u h x : nth_error (w_devs w) d = Some e -> l = set_nth d e' (w_devs w) -> de_open e' = de_open e ->
  dev_open w x -> dev_open (mkWorld h l s u) x.
Proof.
  intros N -> Op (e1 & N1 & O1). unfold dev_open. cbn [w_devs]. rewrite (nth_set _ _ _ _ e' N). destruct (Nat.eqb_spec x d) as [Q|Q]; [|eauto].
  subst x. exists e'. split; [reflexivity|]. congruence.
Qed.
Lemma parents_step c w w' : Inv w -> documented c w -> parents w -> mstep X c w = Some w' -> parents w'.
Proof.
  intros I [A Doc] P S. destruct c; cbn [mstep allowed] in *; unfold on_dev, on_sess in S.
  1:{ unfold device_create in S. apply exec_some in S. destruct S as (a & h & ->). intros s e N O. destruct (P s e N O) as (de & N2 & O2).
      exists de. split; [|exact O2]. cbn [w_devs]. rewrite nth_error_app1; [exact N2|]. apply nth_error_Some. congruence. }
  1:{ apply exec_some in S. destruct S as (a & h & ->). destruct (device_create_from_secret X prologue info sk enc) as [v|]; [|exact P].
      destruct a as [hd|]; [|exact P]. intros s e N O. destruct (P s e N O) as (de & N2 & O2).
      exists de. split; [|exact O2]. cbn [w_devs]. rewrite nth_error_app1; [exact N2|]. apply nth_error_Some. congruence. }
  1,2,5: (destruct (nth_error (w_devs w) d) as [e|] eqn:N; [|discriminate]; apply exec_some in S; destruct S as (a & h & ->);
          intros s e1 N1 O1; eapply open_set; [exact N|reflexivity|reflexivity|exact (P s e1 N1 O1)]).
  1,2,3,4: (destruct (nth_error (w_devs w) d) as [e|] eqn:N; [|discriminate]; apply exec_some in S; destruct S as (a & h & ->); exact P).
  1,2: (destruct A as (x & N & Op); rewrite N in S; apply exec_some in S; destruct S as (a & h & ->);
        match goal with |- context [match ?r with Some _ => _ | None => _ end] => destruct r as [[v sn]|] end; [|exact P]; destruct a as [hsn|]; [|exact P];
        intros s e1 N1 O1; cbn [w_sess] in N1; destruct (Nat.lt_ge_cases s (length (w_sess w))) as [L|L];
        [rewrite nth_error_app1 in N1 by exact L; eapply open_set; [exact N|reflexivity|reflexivity|exact (P s e1 N1 O1)]
        |rewrite nth_error_app2 in N1 by exact L; destruct (s - length (w_sess w))%nat as [|k]; [|destruct k; discriminate]; cbn [nth_error] in N1; injection N1 as <-; cbn [se_dev];
         eapply open_set; [exact N|reflexivity|reflexivity|exists x; auto]]).
  - apply exec_some in S. destruct S as (a & h & ->). exact P.
  - destruct (nth_error (w_user w) u) as [[|]|]; try discriminate. apply exec_some in S. destruct S as (a & h & ->). exact P.
  - destruct (nth_error (w_sess w) s) as [e|] eqn:N; [|discriminate]. destruct (nth_error (w_user w) u) as [[|]|]; try discriminate.
    destruct (session_write X e0 (se_val e)) as [[s' c] o]. apply exec_some in S. destruct S as (a & h & ->).
    intros s1 e1 N1 O1. cbn [put_sess w_sess] in N1. rewrite (nth_set _ _ _ _ _ N) in N1. destruct (Nat.eqb_spec s1 s) as [Q|Q]; [|exact (P s1 e1 N1 O1)].
    injection N1 as <-. exact (P s e N O1).
  - destruct (nth_error (w_sess w) s) as [e|] eqn:N; [|discriminate]. destruct (nth_error (w_devs w) (se_dev e)) as [de|]; try discriminate.
    destruct (session_read X (de_val de) (se_val e) input) as [[s' c] o]. apply exec_some in S. destruct S as (a & h & ->).
    intros s1 e1 N1 O1. cbn [put_sess w_sess] in N1. rewrite (nth_set _ _ _ _ _ N) in N1. destruct (Nat.eqb_spec s1 s) as [Q|Q]; [|exact (P s1 e1 N1 O1)].
    injection N1 as <-. exact (P s e N O1).
  - destruct (nth_error (w_sess w) s) as [e|] eqn:N; [|discriminate]. apply exec_some in S. destruct S as (a & h & ->). exact P.
  - destruct (nth_error (w_sess w) s) as [e|] eqn:N; [|discriminate]. apply exec_some in S. destruct S as (a & h & ->). exact P.
  - destruct (nth_error (w_user w) u) as [[|]|]; try discriminate; apply exec_some in S; destruct S as (a1 & h & ->); exact P.
  - destruct (nth_error (w_sess w) s) as [e|] eqn:N; [|discriminate]. apply exec_some in S. destruct S as (a & h & ->).
    intros s1 e1 N1 O1. cbn [put_sess w_sess] in N1. rewrite (nth_set _ _ _ _ _ N) in N1. destruct (Nat.eqb_spec s1 s) as [Q|Q]; [|exact (P s1 e1 N1 O1)].
    injection N1 as <-. discriminate.
  - destruct (nth_error (w_devs w) d) as [e|] eqn:N; [|discriminate]. apply exec_some in S. destruct S as (a & h & ->).
    intros s1 e1 N1 O1. cbn [put_dev w_sess] in N1. destruct (P s1 e1 N1 O1) as (de & N2 & O2).
    exists de. split; [|exact O2]. cbn [put_dev w_devs]. rewrite (nth_set _ _ _ _ _ N). destruct (Nat.eqb_spec (se_dev e1) d) as [Q|Q]; [|exact N2].
    specialize (Doc d eq_refl s1 e1 N1 Q). congruence.
Qed.
Lemma documented_run cs : forall w, obeys X documented cs w -> Inv w -> parents w -> exists w', mrun X cs w = Some w'.
Proof.
  induction cs as [|c cs IH]; intros w Ob I P; cbn [mrun obeys] in *; [eauto|]. destruct Ob as [D Ob].
  assert (NG : ~ device_gone c w).
  { intros (s & input & e & de & -> & N & ND & Op & _). destruct D as [(e' & N' & O') _]. rewrite N in N'. injection N' as <-.
    destruct (P s e N O') as (de' & N2 & O2). congruence. }
  destruct (step_ok c w I (proj1 D) NG) as (w1 & S & I1). rewrite S. apply (IH w1 (Ob w1 S) I1). exact (parents_step c w w1 I D P S).
Qed.
Theorem documented_defined cs : obeys X documented cs start -> exists w, mrun X cs start = Some w.
Proof. intros Ob. apply documented_run; [exact Ob|apply inv_start|]. intros s e N. destruct s; discriminate. Qed.

(** ** what is in memory *)
Lemma map_flat {A B C} (f : B -> C) (g : A -> list B) l : map f (flat_map g l) = flat_map (fun x => map f (g x)) l.
Proof. induction l as [|x l IH]; [reflexivity|]. cbn [flat_map]. rewrite map_app, IH. reflexivity. Qed.
Lemma flat_ext {A B} (f g : A -> list B) l : Forall (fun x => f x = g x) l -> flat_map f l = flat_map g l.
Proof. intros F. induction F as [|x l E F IH]; [reflexivity|]. cbn [flat_map]. rewrite E, IH. reflexivity. Qed.
Lemma lostp_kinds p : psized p -> @map blk what snd (lostp p) = of_peer (hp_val p).
Proof. intros S. unfold lostp, of_peer. cbn [map snd app]. do 3 apply f_equal. exact (sized_text _ _ Wtext S). Qed.
Lemma dev_kinds d v : dmatch d v -> @map blk what snd (dev_mem d) = of_device v /\ @map blk what snd (lost_mem d) = left_by_device v.
Proof.
  intros (P & Sz & A & B). split.
  - unfold dev_mem, of_device. cbn [map snd app]. rewrite !map_app. do 6 apply f_equal.
    apply f_equal2; [exact (sized_text _ _ Wtext A)|]. apply f_equal2; [exact (sized_text _ _ Wprologue B)|].
    rewrite <- P, map_flat. clear - Sz. induction Sz as [|p l S Sz IH]; [reflexivity|]. cbn [flat_map map]. rewrite IH. unfold pblk. cbn [map snd].
    rewrite (lostp_kinds p S). reflexivity.
  - unfold lost_mem, left_by_device. cbn [map snd]. f_equal. rewrite <- P, map_flat. clear - Sz. induction Sz as [|p l S Sz IH]; [reflexivity|]. cbn [flat_map map].
    rewrite IH, (lostp_kinds p S). reflexivity.
Qed.
Lemma sess_kinds s info v : smatch s info v -> @map blk what snd (sess_mem s) = of_session info v.
Proof.
  intros (A & B & C). unfold sess_mem, of_session. cbn [map snd app]. rewrite !map_app. do 5 apply f_equal.
  apply f_equal2; [exact (sized_text _ _ Wtext A)|]. apply f_equal2; [exact (sized_text _ _ Wtext B)|].
  destruct (hs_state s), (s_st v); try contradiction; reflexivity.
Qed.
Theorem memory cs w : obeys X allowed cs start -> mrun X cs start = Some w -> Permutation (map snd (live (w_heap w))) (in_use w).
Proof.
  intros Ob R. destruct (run_inv cs start w Ob inv_start R) as ((P & _) & DM & SG & UG).
  etransitivity; [apply Permutation_map; exact P|]. rewrite !map_app, !map_flat. unfold in_use.
  assert (E1 : flat_map (fun x => map snd (dblk x)) (w_devs w) = flat_map (fun e => if de_open e then of_device (de_val e) else left_by_device (de_val e)) (w_devs w)).
  { apply flat_ext. eapply Forall_impl; [|exact DM]. intros e M. cbv beta in *. destruct (dev_kinds _ _ M) as [A B]. unfold dblk. destruct (de_open e); assumption. }
  assert (E2 : flat_map (fun x => map snd (sblk x)) (w_sess w) = flat_map (fun e => if se_open e then of_session (se_info e) (se_val e) else []) (w_sess w)).
  { apply flat_ext. eapply Forall_impl; [|exact SG]. intros e (M & _). cbv beta in *. unfold sblk. destruct (se_open e); [apply sess_kinds; exact M|reflexivity]. }
  assert (E3 : flat_map (fun x => map snd (ublk x)) (w_user w) = flat_map of_object (w_user w)).
  { apply flat_ext. eapply Forall_impl; [|exact UG]. intros o M. cbv beta in *. destruct o as [a k|em e]; [reflexivity|]. cbn [ublk of_object encb map snd ugood] in *.
    apply f_equal. exact (sized_text _ _ Wpayload M). }
  apply Permutation_app; [|apply Permutation_app]; [exact (eq_ind_r (fun x => Permutation x _) (Permutation_refl _) E1)|exact (eq_ind_r (fun x => Permutation x _) (Permutation_refl _) E2)|exact (eq_ind_r (fun x => Permutation x _) (Permutation_refl _) E3)].
Qed.
Theorem all_freed_left cs w : obeys X allowed cs start -> mrun X cs start = Some w -> all_freed w ->
  Permutation (map snd (live (w_heap w))) (flat_map (fun e => left_by_device (de_val e)) (w_devs w)).
Proof.
  intros Ob R (D & S & U). etransitivity; [exact (memory cs w Ob R)|]. unfold in_use. rewrite U. cbn [flat_map]. rewrite app_nil_r.
  assert (E1 : flat_map (fun e => if de_open e then of_device (de_val e) else left_by_device (de_val e)) (w_devs w) = flat_map (fun e => left_by_device (de_val e)) (w_devs w)).
  { apply flat_ext. eapply Forall_impl; [|exact D]. intros e E. cbv beta in *. rewrite E. reflexivity. }
  assert (E2 : flat_map (fun e => if se_open e then of_session (se_info e) (se_val e) else []) (w_sess w) = []).
  { clear - S. induction S as [|e l E S IH]; [reflexivity|]. cbn [flat_map]. rewrite E, IH. reflexivity. }
  rewrite E1, E2, app_nil_r. reflexivity.
Qed.
Theorem wiped_only_keys cs w k : obeys X allowed cs start -> mrun X cs start = Some w -> In (k, true) (freed (w_heap w)) -> k = Wkey.
Proof.
  intros Ob R J. destruct (run_inv cs start w Ob inv_start R) as ((_ & _ & _ & F & _) & _). rewrite Forall_forall in F. exact (F _ J eq_refl).
Qed.
Theorem secrets_unwiped cs w k z : obeys X allowed cs start -> mrun X cs start = Some w -> In (k, z) (freed (w_heap w)) -> secret k = true -> z = false.
Proof.
  intros Ob R J S. destruct z; [|reflexivity]. rewrite (wiped_only_keys cs w k Ob R J) in S. discriminate.
Qed.
End Steps.

(** ** what the expected properties miss *)
Definition bare (X : xprims) (live : bool) : world :=
  let d := mkDe (mkXdev [] [] [] (x_base X []) [] 1 [] 1) (mkHd 5 3 None 0 1 2 None 4 []) live in
  if live then mkWorld (mkHeap 6 [(5%nat, Wdevice); (4%nat, Whead); (3%nat, Wname); (2%nat, Wspub); (1%nat, Wspriv); (0%nat, Wsk)] []) [d] [] []
  else mkWorld (mkHeap 6 [(0%nat, Wsk)] [(Wdevice, false); (Wspub, false); (Wspriv, false); (Whead, false); (Wname, false)]) [d] [] [].
Lemma bare_1 X : mstep X (NCreate [] [] [] []) start = Some (bare X true).
Proof. vm_compute. reflexivity. Qed.
Lemma bare_2 X : mstep X (NFreeDevice 0) (bare X true) = Some (bare X false).
Proof. vm_compute. reflexivity. Qed.
Lemma bare_obeys X : obeys X documented [NCreate [] [] [] []; NFreeDevice 0] start.
Proof.
  cbn [obeys]. split; [split; [exact Logic.I|intros d E; discriminate E]|]. intros w1 S1. rewrite bare_1 in S1. injection S1 as <-.
  split; [|intros; exact Logic.I]. split; [eexists; split; reflexivity|]. intros d _ s e N. destruct s; discriminate N.
Qed.
Lemma bare_run X : mrun X [NCreate [] [] [] []; NFreeDevice 0] start = Some (bare X false).
Proof. cbn [mrun]. rewrite bare_1, bare_2. reflexivity. Qed.
Theorem leak X : ~ (forall cs w, obeys X documented cs start -> mrun X cs start = Some w -> all_freed w -> live (w_heap w) = []).
Proof.
  intros H. specialize (H _ _ (bare_obeys X) (bare_run X)). assert (A : all_freed (bare X false)) by (repeat split; repeat constructor).
  specialize (H A). discriminate H.
Qed.
Theorem secret_kept X : ~ (forall cs w k z, obeys X documented cs start -> mrun X cs start = Some w -> In (k, z) (freed (w_heap w)) -> secret k = true -> z = true).
Proof.
  intros H. specialize (H _ _ Wspriv false (bare_obeys X) (bare_run X)). assert (I : In (Wspriv, false) (freed (w_heap (bare X false)))) by (cbn; tauto).
  specialize (H I eq_refl). discriminate H.
Qed.
(** a responder whose device is freed before it reads the first message *)
Definition early : list call := [NCreate [] [] [] []; NResponder 0 []; NFreeDevice 0].
Lemma early_run X : exists w, mrun X early start = Some w /\ obeys X allowed early start
  /\ allowed (NRead 0 (zeros 48)) w /\ device_gone (NRead 0 (zeros 48)) w.
Proof.
  unfold early. cbn [mrun obeys]. rewrite bare_1.
  set (r := session_create_responder X (mkXdev [] [] [] (x_base X []) [] 1 [] 1) []).
  assert (Er : exists v sn, r = Some (v, sn) /\ s_init sn = false /\ exists h, s_st sn = Handshake h /\ h_step h = 0).
  { unfold r, session_create_responder. cbn [d_states Z.eqb Pos.eqb]. do 2 eexists. split; [reflexivity|]. split; [reflexivity|]. eexists. split; reflexivity. }
  destruct Er as (v & sn & Er & In0 & h & Hs & H0).
  assert (S2 : exists hp hs u, mstep X (NResponder 0 []) (bare X true) = Some (mkWorld hp [mkDe v (mkHd 5 3 None 0 1 2 None 4 []) true] [mkSe sn [] hs 0 true] u)
     /\ forall k, exists hp', mem_device_free (mkHd 5 3 None 0 1 2 None 4 []) hp = Some (k, hp')).
  { cbn [mstep bare on_dev w_devs nth_error de_val]. fold r. rewrite Er.
    cbn [option_map snd d_states Z.eqb Pos.eqb d_info de_mem de_open set_nth app w_sess w_user].
    destruct (s_pinfo sn) eqn:SP.
    2:{ exfalso. unfold r, session_create_responder in Er. cbn [d_states Z.eqb Pos.eqb] in Er. injection Er as _ <-. discriminate SP. }
    unfold exec, mem_session_create_responder. rewrite SP. vm_compute. do 3 eexists. split; [reflexivity|]. intros []. eexists. reflexivity. }
  destruct S2 as (hp & hs & u & S2 & S3). rewrite S2. destruct (S3 tt) as (hp' & S3').
  assert (S4 : mstep X (NFreeDevice 0) (mkWorld hp [mkDe v (mkHd 5 3 None 0 1 2 None 4 []) true] [mkSe sn [] hs 0 true] u)
     = Some (mkWorld hp' [mkDe v (mkHd 5 3 None 0 1 2 None 4 []) false] [mkSe sn [] hs 0 true] u)).
  { cbn [mstep on_dev w_devs nth_error de_mem]. unfold exec. cbn [w_heap]. rewrite S3'. reflexivity. }
  rewrite S4. eexists. split; [reflexivity|]. split; [|split].
  - split; [exact Logic.I|]. intros w1 E1. assert (w1 = bare X true) by congruence. subst w1. split; [eexists; split; reflexivity|]. intros w2 E2. rewrite S2 in E2. injection E2 as <-.
    split; [eexists; split; reflexivity|]. intros; exact Logic.I.
  - eexists. split; reflexivity.
  - exists 0%nat, (zeros 48). do 2 eexists. split; [reflexivity|]. split; [reflexivity|]. split; [reflexivity|]. split; [reflexivity|]. cbn [se_val].
    split; [exact In0|]. exists h. split; [exact Hs|]. left. split; [exact H0|]. vm_compute. discriminate.
Qed.
Theorem device_first X : xprims_ok X -> ~ (forall cs, obeys X allowed cs start -> exists w, mrun X cs start = Some w).
Proof.
  intros HX H. destruct (early_run X) as (w & R & Ob & A & G).
  assert (Ob2 : obeys X allowed (early ++ [NRead 0 (zeros 48)]) start /\ mrun X (early ++ [NRead 0 (zeros 48)]) start = None).
  { assert (N : mstep X (NRead 0 (zeros 48)) w = None) by (apply (defined_exactly X HX early w); assumption).
    revert R Ob A N. generalize (NRead 0 (zeros 48)) as c. generalize start as w0. generalize early as cs. clear.
    induction cs as [|c cs IH]; intros w0 c0 R Ob A N; cbn [app mrun obeys] in *.
    - injection R as ->. rewrite N. split; [|reflexivity]. split; [exact A|intros; exact Logic.I].
    - destruct (mstep X c w0) as [w1|] eqn:S; [|discriminate]. destruct Ob as [Oa Ob]. destruct (IH w1 c0 R (Ob w1 eq_refl) A N) as [P Q].
      split; [|exact Q]. split; [exact Oa|]. intros w2 E. injection E as <-. exact P. }
  destruct (H _ (proj1 Ob2)) as (w' & R'). rewrite (proj2 Ob2) in R'. discriminate.
Qed.
