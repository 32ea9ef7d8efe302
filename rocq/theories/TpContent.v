(** What a trusted-party step that reports success did: every message it collected was accepted,
    and exactly these messages are in its output. *)
From Coq Require Import ZArith Lia List Bool.
From Coq.Strings Require Import Byte.
From Verif Require Import Bytes Res Mem Sodium ToprfModel DkgModel WireModel WireSpec WireProofs TpCrypto TpModel PeerModel.
From Verif Require Import TpFrame TpSpec TpMsg.
Import ListNotations.
Open Scope list_scope.
Open Scope Z_scope.

Section TP.
Variable C : crypto.
Notation S := (cS C).

Lemma app_nil_inv {A} (a b : list A) : [] = a ++ b -> a = [].
Proof. destruct a; [reflexivity|discriminate]. Qed.

Lemma clean_back c c' : tp_ext c c' -> t_cheaters c' = [] -> t_cheaters c = [].
Proof. intros H E. destruct (x_cheaters _ _ H) as (l & El). rewrite E in El. eapply app_nil_inv; exact El. Qed.

Lemma added_not_clean c step error peer other c' : add_cheater c step error peer other = Some c' -> t_cheaters c' = [] -> False.
Proof. intros H E. apply add_cheater_inv in H. destruct H as (_ & ->). cbn in E. destruct (t_cheaters c); discriminate. Qed.

(** a loop that ended without any recorded cheater had none at any time *)
Lemma clean_loop {X} (proj : X -> tp) (f : Z -> X -> res (ctl X)) (P : Z -> X -> Prop) k s s' :
  (forall i s r, f i s = Ok r -> tp_ext (proj s) (proj (ctl_state r))) ->
  P 0 s ->
  (forall i s1 s2, 0 <= i < Z.of_nat k -> P i s1 -> f i s1 = Ok (Next s2) -> t_cheaters (proj s2) = [] -> P (i + 1) s2) ->
  loopM f (zrange 0 k) s = Ok (Next s') -> t_cheaters (proj s') = [] -> P (Z.of_nat k) s'.
Proof.
  intros Hext H0 Hstep H Hc.
  pose proof (loopM_seq_inv f (fun i s => t_cheaters (proj s) = [] -> P i s) (fun _ _ => True) 0 k s (Next s')) as L.
  cbn beta iota in L. apply L; [auto| |exact H|exact Hc].
  intros i s1 c1 Hi HP E. destruct c1 as [s2|]; [|exact I]. intros Hc2. apply (Hstep i s1 s2); [lia| |exact E|exact Hc2].
  apply HP. eapply clean_back; [exact (Hext _ _ _ E)|exact Hc2].
Qed.

(** iterations that add no cheater *)
Lemma clean68 e input k c out w c' out' w' : tp_step68_body C e input k (c, out, w) = Ok (Next (c', out', w')) -> t_cheaters c' = [] ->
  let i := k / t_n c in let j := k mod t_n c in let p := (j * t_n c + i) * msg4_SIZE in
  exists pk last last' l m, getz (t_pks c) j = Ok pk /\ getz (t_last c) j = Ok last /\
    recv_msg S input p msg4_SIZE (u8 (2 + t_step c)) (j + 1) (i + 1) pk (t_sid c) (t_eps c) last (e_r e k) = Ok (0, last') /\
    updz (t_last c) j last' = Ok l /\ rd input p msg4_SIZE = Ok m /\ wr out w m = Ok out' /\
    c' = tp_last_set c l /\ w' = w + msg4_SIZE.
Proof.
  cbn zeta. unfold tp_step68_body. intros H Hc. apply bind_ok in H. destruct H as (pk & E1 & H).
  apply bind_ok in H. destruct H as ((ret & c1) & E2 & H). apply tp_recv_inv in E2. destruct E2 as (last & last' & l & R1 & R2 & R3 & ->).
  destruct (ret =? 0) eqn:Er; cbn [negb] in H.
  - apply Z.eqb_eq in Er. subst ret. cbn [t_n t_step tp_last_set] in H. inv H. exists pk, last, last', l. eexists. repeat split; eassumption.
  - exfalso. destruct (add_cheater _ _ _ _ _) eqn:Ea in H; [|inv H]. destruct (e_log e); [|discriminate].
    injection H as -> -> ->. eapply added_not_clean; eassumption.
Qed.

Lemma clean14 e input k c out w c' out' w' : tp_step14_body C e input k (c, out, w) = Ok (Next (c', out', w')) -> t_cheaters c' = [] ->
  let i := k / t_n c in let j := k mod t_n c in let p := (j * t_n c + i) * msg8_SIZE in
  exists pk last last' l m, getz (t_pks c) j = Ok pk /\ getz (t_last c) j = Ok last /\
    recv_msg S input p msg8_SIZE 8 (j + 1) (i + 1) pk (t_sid c) (t_eps c) last (e_r e k) = Ok (0, last') /\
    updz (t_last c) j last' = Ok l /\ rd input p msg8_SIZE = Ok m /\ wr out w m = Ok out' /\
    c' = tp_last_set c l /\ w' = w + msg8_SIZE.
Proof.
  cbn zeta. unfold tp_step14_body. intros H Hc. apply bind_ok in H. destruct H as (pk & E1 & H).
  apply bind_ok in H. destruct H as ((ret & c1) & E2 & H). apply tp_recv_inv in E2. destruct E2 as (last & last' & l & R1 & R2 & R3 & ->).
  destruct (ret =? 0) eqn:Er; cbn [negb] in H.
  - apply Z.eqb_eq in Er. subst ret. cbn [t_n t_step tp_last_set] in H. inv H. exists pk, last, last', l. eexists. repeat split; eassumption.
  - exfalso. destruct (add_cheater _ _ _ _ _) eqn:Ea in H; [|inv H].
    injection H as -> -> ->. eapply added_not_clean; eassumption.
Qed.

Lemma clean4 e input i c out w c' out' w' : tp_step4_body C e input i (c, out, w) = Ok (Next (c', out', w')) -> t_cheaters c' = [] ->
  let p := i * (msg2_SIZE + sign_BYTES) in
  exists ltsig m lt pk last last' l pks, rd input (p + msg2_SIZE) sign_BYTES = Ok ltsig /\ rd input p msg2_SIZE = Ok m /\
    getz (t_lt c) i = Ok lt /\ sig_verify S lt m ltsig = true /\ rd input (p + hdr_SIZE) 32 = Ok pk /\ getz (t_last c) i = Ok last /\
    recv_msg S input p msg2_SIZE 2 (i + 1) 255 pk (t_sid c) (t_eps c) last (e_r e i) = Ok (0, last') /\
    updz (t_last c) i last' = Ok l /\ updz (t_pks c) i pk = Ok pks /\ wr out w m = Ok out' /\
    c' = tp_pks_set (tp_last_set c l) pks /\ w' = w + msg2_SIZE.
Proof.
  cbn zeta. unfold tp_step4_body. intros H Hc. apply bind_ok in H. destruct H as (ltsig & E1 & H).
  apply bind_ok in H. destruct H as (m & E2 & H). apply bind_ok in H. destruct H as (lt & E3 & H).
  destruct (sig_verify _ _ _ _) eqn:Ev; cbn [negb] in H; [|discriminate].
  apply bind_ok in H. destruct H as (pk & E4 & H).
  apply bind_ok in H. destruct H as ((ret & c1) & E5 & H). apply tp_recv_inv in E5. destruct E5 as (last & last' & l & R1 & R2 & R3 & ->).
  destruct (ret =? 0) eqn:Er; cbn [negb] in H.
  - apply Z.eqb_eq in Er. subst ret. cbn [t_pks tp_last_set] in H. inv H. exists ltsig, m, lt, pk, last, last', l. eexists.
    repeat split; eassumption.
  - exfalso. destruct (add_cheater _ _ _ _ _) eqn:Ea in H; [|inv H].
    injection H as -> -> ->. eapply added_not_clean; eassumption.
Qed.

Lemma clean12 e input i c out w c' out' w' : tp_step12_body C e input i (c, out, w) = Ok (Next (c', out', w')) -> t_cheaters c' = [] ->
  let p := i * msg6_SIZE (t_t c) in
  exists pk last last' l data com m, getz (t_pks c) i = Ok pk /\ getz (t_last c) i = Ok last /\
    recv_msg S input p (msg6_SIZE (t_t c)) 6 (i + 1) 255 pk (t_sid c) (t_eps c) last (e_r e i) = Ok (0, last') /\
    updz (t_last c) i last' = Ok l /\ rd input (p + hdr_SIZE) (32 * t_t c) = Ok data /\
    updz (t_com c) i (rows (t_t c) data) = Ok com /\ rd input p (msg6_SIZE (t_t c)) = Ok m /\ wr out w m = Ok out' /\
    c' = tp_com_set (tp_last_set c l) com /\ w' = w + msg6_SIZE (t_t c).
Proof.
  cbn zeta. unfold tp_step12_body. intros H Hc. apply bind_ok in H. destruct H as (pk & E1 & H).
  apply bind_ok in H. destruct H as ((ret & c1) & E2 & H). apply tp_recv_inv in E2. destruct E2 as (last & last' & l & R1 & R2 & R3 & ->).
  destruct (ret =? 0) eqn:Er; cbn [negb] in H.
  - apply Z.eqb_eq in Er. subst ret. cbn [t_t t_com tp_last_set] in H. inv H. exists pk, last, last', l. do 3 eexists.
    repeat split; eassumption.
  - exfalso. destruct (add_cheater _ _ _ _ _) eqn:Ea in H; [|inv H].
    injection H as -> -> ->. eapply added_not_clean; eassumption.
Qed.

Lemma clean20 e input hash i c out c' out' : tp_step20_body C e input hash i (c, out) = Ok (Next (c', out')) -> t_cheaters c' = [] ->
  let p := i * msg19_SIZE in
  exists pk last last' l, getz (t_pks c) i = Ok pk /\ getz (t_last c) i = Ok last /\
    recv_msg S input p msg19_SIZE 20 (i + 1) 0 pk (t_sid c) (t_eps c) last (e_r e i) = Ok (0, last') /\
    updz (t_last c) i last' = Ok l /\ rd input (p + hdr_SIZE) 32 = Ok hash /\
    c' = tp_last_set c l /\ out' = out.
Proof.
  cbn zeta. unfold tp_step20_body. intros H Hc. apply bind_ok in H. destruct H as (pk & E1 & H).
  apply bind_ok in H. destruct H as ((ret & c1) & E2 & H). apply tp_recv_inv in E2. destruct E2 as (last & last' & l & R1 & R2 & R3 & ->).
  destruct (ret =? 0) eqn:Er; cbn [negb] in H.
  - apply Z.eqb_eq in Er. subst ret. apply bind_ok in H. destruct H as (d & E3 & H).
    destruct (bytes_eqb hash d) eqn:Eh; cbn [negb] in H.
    + apply bytes_eqb_eq in Eh. subst d. inv H. exists pk, last, last', l. repeat split; assumption.
    + exfalso. destruct (add_cheater _ _ _ _ _) eqn:Ea in H; [|inv H]. inv H. eapply added_not_clean; eassumption.
  - exfalso. destruct (add_cheater _ _ _ _ _) eqn:Ea in H; [|inv H]. inv H. eapply added_not_clean; eassumption.
Qed.

Lemma clean22 e input i c c' : tp_step22_body C e input i c = Ok (Next c') -> t_cheaters c' = [] ->
  let p := i * msg21_SIZE in
  exists pk last last' l, getz (t_pks c) i = Ok pk /\ getz (t_last c) i = Ok last /\
    recv_msg S input p msg21_SIZE 22 (i + 1) 0 pk (t_sid c) (t_eps c) last (e_r e i) = Ok (0, last') /\
    updz (t_last c) i last' = Ok l /\ c' = tp_last_set c l.
Proof.
  cbn zeta. unfold tp_step22_body. intros H Hc. apply bind_ok in H. destruct H as (pk & E1 & H).
  apply bind_ok in H. destruct H as ((ret & c1) & E2 & H). apply tp_recv_inv in E2. destruct E2 as (last & last' & l & R1 & R2 & R3 & ->).
  destruct (ret =? 0) eqn:Er; cbn [negb] in H.
  - apply Z.eqb_eq in Er. subst ret. apply bind_ok in H. destruct H as (d & E3 & H). inv H.
    exists pk, last, last', l. repeat split; assumption.
  - exfalso. destruct (add_cheater _ _ _ _ _) eqn:Ea in H; [|inv H]. inv H. eapply added_not_clean; eassumption.
Qed.

Notation delivered := (delivered C).

Lemma recv_delivered input off len m msgno from to pk sid eps last now last' : rd input off len = Ok m -> 111 <= len ->
  recv_msg S input off len msgno from to pk sid eps last now = Ok (0, last') -> delivered input off len pk sid msgno from to.
Proof. intros H1 H2 H3. destruct (recv_accepted _ _ _ _ _ _ _ _ _ _ _ _ _ _ H1 H2 H3) as (_ & _ & body & Hb). exists m, last', body. auto. Qed.

Lemma recv_rd input off len msgno from to pk sid eps last now r last' :
  recv_msg S input off len msgno from to pk sid eps last now = Ok (r, last') -> r = 0 -> 0 <= off -> 111 <= len -> exists m, rd input off len = Ok m.
Proof.
  intros H -> Hoff Hlen. destruct (Z.leb_spec (off + len) (zlen input)).
  - eexists. apply rd_ok; lia.
  - exfalso. unfold recv_msg in H. inv H; try discriminate;
    match goal with E : rd input (off + sign_BYTES) (len - sign_BYTES) = Ok _ |- _ => apply rd_inv in E; unfold sign_BYTES in E; lia end.
Qed.

(** steps 6, 8 (relay of handshake messages) *)
Lemma step68_content e c input out c' out' : 1 <= t_n c -> tp_step68 C e c input out = Ok (0, c', out') ->
  zlen out' = zlen input /\ zlen input = t_n c * t_n c * msg4_SIZE /\
  forall i j, 0 <= i < t_n c -> 0 <= j < t_n c ->
    rd out' ((i * t_n c + j) * msg4_SIZE) msg4_SIZE = rd input ((j * t_n c + i) * msg4_SIZE) msg4_SIZE /\
    exists pk, getz (t_pks c) j = Ok pk /\
      delivered input ((j * t_n c + i) * msg4_SIZE) msg4_SIZE pk (t_sid c) (u8 (2 + t_step c)) (j + 1) (i + 1).
Proof.
  intros Hn. unfold tp_step68. intros H.
  destruct (zlen input =? _) eqn:E1; cbn [negb] in H; [|inv H]. destruct (zlen input =? zlen out) eqn:E2; cbn [negb] in H; [|inv H].
  apply Z.eqb_eq in E1, E2. apply bind_ok in H. destruct H as (r & L & H). destruct r as [[[c1 out1] w1]|r [[c1 out1] w1]].
  2:{ injection H as -> -> ->. exfalso. 
      assert (0 = 7) by (refine (loopM_code (fun r => r = 7) _ _ _ _ _ _ L); intros x s1 r1 s2 E'; destruct s1 as [[a b] q]; unfold tp_step68_body in E'; inv E'; auto). discriminate. }
  destruct (Z.ltb_spec 0 (zlen (t_cheaters c1))) as [Hz|Hz]; [discriminate|]. injection H as -> ->.
  assert (Hc : t_cheaters c' = []) by (apply zlen_0; pose proof (zlen_nonneg (t_cheaters c')); lia).
  set (sz := msg4_SIZE) in *.
  set (P := fun k (s : tp * bytes * Z) => let '(c1, out1, w) := s in
     c1 = tp_last_set c (t_last c1) /\ zlen out1 = zlen out /\ w = k * sz /\
     forall k', 0 <= k' < k -> rd out1 (k' * sz) sz = rd input ((k' mod t_n c * t_n c + k' / t_n c) * sz) sz /\
       exists pk, getz (t_pks c) (k' mod t_n c) = Ok pk /\
         delivered input ((k' mod t_n c * t_n c + k' / t_n c) * sz) sz pk (t_sid c) (u8 (2 + t_step c)) (k' mod t_n c + 1) (k' / t_n c + 1)).
  assert (HP : P (Z.of_nat (Z.to_nat (t_n c * t_n c))) (c', out', w1)).
  { apply (clean_loop (fun s => fst (fst s)) (tp_step68_body C e input) P _ (c, out, 0) (c', out', w1)); [intros; eapply ext_step68_body; eassumption| | |exact L|exact Hc].
    - unfold P. split; [destruct c; reflexivity|]. split; [reflexivity|]. split; [lia|]. intros; lia.
    - intros k [[c1 out1] w] [[c2 out2] w2] Hk (P1 & P2 & P3 & P4) Hb Hc2. cbn [fst] in Hc2.
      apply clean68 in Hb; [|exact Hc2]. cbn zeta in Hb. destruct Hb as (pk & last & last' & l & m & B1 & B2 & B3 & B4 & B5 & B6 & B7 & B8).
      fold sz in B3, B5, B8.
      assert (En : t_n c1 = t_n c /\ t_pks c1 = t_pks c /\ t_sid c1 = t_sid c /\ t_step c1 = t_step c) by (rewrite P1; auto).
      destruct En as (En & Ep & Es & Et). rewrite En, Ep, Es, Et in *.
      pose proof (rd_inv _ _ _ _ B5) as (_ & _ & _ & Hm & _).
      unfold P. split; [rewrite B7, P1; reflexivity|]. split; [rewrite (wr_zlen _ _ _ _ B6); exact P2|]. split; [lia|].
      intros k' Hk'. destruct (Z.eq_dec k' k) as [->|Hne].
      + rewrite B5. rewrite <- P3. rewrite <- Hm. rewrite (rd_wr_same _ _ _ _ B6). split; [reflexivity|]. rewrite Hm.
        exists pk. split; [exact B1|]. eapply recv_delivered; [exact B5| |exact B3]. unfold sz; vm_compute; discriminate.
      + destruct (P4 k' ltac:(lia)) as (Q1 & Q2). split; [|exact Q2]. rewrite <- Q1. eapply rd_wr_before; [exact B6|].
        rewrite P3. assert (0 <= sz) by (unfold sz; vm_compute; discriminate). nia. }
  destruct HP as (P1 & P2 & P3 & P4). rewrite Z2Nat.id in P4 by nia.
  split; [lia|]. split; [lia|]. intros i j Hi Hj. specialize (P4 (i * t_n c + j) ltac:(nia)).
  rewrite Z.div_add_l, (Z.div_small j), Z.add_0_r in P4 by lia.
  replace ((i * t_n c + j) mod t_n c) with j in P4 by (rewrite Z.add_comm, Z.mod_add, Z.mod_small by lia; reflexivity).
  exact P4.
Qed.

(** step 14 (relay of encrypted shares) *)
Lemma step14_content e c input out c' out' : 1 <= t_n c -> tp_step14 C e c input out = Ok (0, c', out') ->
  zlen out' = zlen input /\ zlen input = t_n c * t_n c * msg8_SIZE /\
  wr (t_enc c) 0 input = Ok (t_enc c') /\
  forall i j, 0 <= i < t_n c -> 0 <= j < t_n c ->
    rd out' ((i * t_n c + j) * msg8_SIZE) msg8_SIZE = rd input ((j * t_n c + i) * msg8_SIZE) msg8_SIZE /\
    exists pk, getz (t_pks c) j = Ok pk /\
      delivered input ((j * t_n c + i) * msg8_SIZE) msg8_SIZE pk (t_sid c) 8 (j + 1) (i + 1).
Proof.
  intros Hn. unfold tp_step14. intros H.
  destruct (zlen input =? _) eqn:E1; cbn [negb] in H; [|inv H]. destruct (zlen input =? zlen out) eqn:E2; cbn [negb] in H; [|inv H].
  apply Z.eqb_eq in E1, E2. apply bind_ok in H. destruct H as (r & L & H). destruct r as [[[c1 out1] w1]|r [[c1 out1] w1]].
  2:{ injection H as -> -> ->. exfalso. 
      assert (0 = 7) by (refine (loopM_code (fun r => r = 7) _ _ _ _ _ _ L); intros x s1 r1 s2 E'; destruct s1 as [[a b] q]; unfold tp_step14_body in E'; inv E'; auto). discriminate. }
  destruct (Z.ltb_spec 0 (zlen (t_cheaters c1))) as [Hz|Hz]; [discriminate|].
  apply bind_ok in H. destruct H as (enc & Ee & H). injection H as <- <-.
  assert (Hc : t_cheaters c1 = []) by (apply zlen_0; pose proof (zlen_nonneg (t_cheaters c1)); lia).
  set (sz := msg8_SIZE) in *.
  set (P := fun k (s : tp * bytes * Z) => let '(c1, out1, w) := s in
     c1 = tp_last_set c (t_last c1) /\ zlen out1 = zlen out /\ w = k * sz /\
     forall k', 0 <= k' < k -> rd out1 (k' * sz) sz = rd input ((k' mod t_n c * t_n c + k' / t_n c) * sz) sz /\
       exists pk, getz (t_pks c) (k' mod t_n c) = Ok pk /\
         delivered input ((k' mod t_n c * t_n c + k' / t_n c) * sz) sz pk (t_sid c) 8 (k' mod t_n c + 1) (k' / t_n c + 1)).
  assert (HP : P (Z.of_nat (Z.to_nat (t_n c * t_n c))) (c1, out1, w1)).
  { apply (clean_loop (fun s => fst (fst s)) (tp_step14_body C e input) P _ (c, out, 0) (c1, out1, w1)); [intros; eapply ext_step14_body; eassumption| | |exact L|exact Hc].
    - unfold P. split; [destruct c; reflexivity|]. split; [reflexivity|]. split; [lia|]. intros; lia.
    - clear c1 out1 w1 L Hz Hc Ee. intros k [[c1 out1] w] [[c2 out2] w2] Hk (P1 & P2 & P3 & P4) Hb Hc2. cbn [fst] in Hc2.
      apply clean14 in Hb; [|exact Hc2]. cbn zeta in Hb. destruct Hb as (pk & last & last' & l & m & B1 & B2 & B3 & B4 & B5 & B6 & B7 & B8).
      fold sz in B3, B5, B8.
      assert (En : t_n c1 = t_n c /\ t_pks c1 = t_pks c /\ t_sid c1 = t_sid c /\ t_step c1 = t_step c) by (rewrite P1; auto).
      destruct En as (En & Ep & Es & Et). rewrite En, Ep, Es in *.
      pose proof (rd_inv _ _ _ _ B5) as (_ & _ & _ & Hm & _).
      unfold P. split; [rewrite B7, P1; reflexivity|]. split; [rewrite (wr_zlen _ _ _ _ B6); exact P2|]. split; [lia|].
      intros k' Hk'. destruct (Z.eq_dec k' k) as [->|Hne].
      + rewrite B5. rewrite <- P3. rewrite <- Hm. rewrite (rd_wr_same _ _ _ _ B6). split; [reflexivity|]. rewrite Hm.
        exists pk. split; [exact B1|]. eapply recv_delivered; [exact B5| |exact B3]. unfold sz; vm_compute; discriminate.
      + destruct (P4 k' ltac:(lia)) as (Q1 & Q2). split; [|exact Q2]. rewrite <- Q1. eapply rd_wr_before; [exact B6|].
        rewrite P3. assert (0 <= sz) by (unfold sz; vm_compute; discriminate). nia. }
  destruct HP as (P1 & P2 & P3 & P4). rewrite Z2Nat.id in P4 by nia.
  assert (Een : t_enc c1 = t_enc c) by (rewrite P1; reflexivity). rewrite Een in Ee.
  split; [lia|]. split; [lia|]. split; [exact Ee|]. intros i j Hi Hj. specialize (P4 (i * t_n c + j) ltac:(nia)).
  rewrite Z.div_add_l, (Z.div_small j), Z.add_0_r in P4 by lia.
  replace ((i * t_n c + j) mod t_n c) with j in P4 by (rewrite Z.add_comm, Z.mod_add, Z.mod_small by lia; reflexivity).
  exact P4.
Qed.

Lemma msg2_val : msg2_SIZE = 175. Proof. reflexivity. Qed.
Lemma hdr_val : hdr_SIZE = 111. Proof. reflexivity. Qed.
Lemma sign_val : sign_BYTES = 64. Proof. reflexivity. Qed.
Lemma msg6_val t : msg6_SIZE t = 111 + 32 * t. Proof. unfold msg6_SIZE, hdr_SIZE. lia. Qed.

(** the header of a broadcast is written last *)
Lemma broadcast_sent c out msgno out' now : crypto_ok C -> zlen (t_sid c) = 32 -> is_u64 now -> 111 <= zlen out < 2 ^ 32 -> is_byte msgno ->
  send_msg S out 0 (zlen out) msgno 0 255 (t_sk c) (t_sid c) now = Ok out' ->
  zlen out' = zlen out /\ delivered out' 0 (zlen out') (sig_pk S (t_sk c)) (t_sid c) msgno 0 255 /\
  (forall o k, 111 <= o -> rd out' o k = rd out o k).
Proof.
  intros HC Hs Hnow Hlen Hn H. destruct (rd out (0 + 111) (zlen out - 111)) as [body|] eqn:Eb; [|rewrite rd_ok in Eb by lia; discriminate].
  destruct (send_signed S out 0 (zlen out) msgno 0 255 (t_sk c) (t_sid c) now body (ok_cS C HC) ltac:(lia) ltac:(lia) Eb ltac:(lia) Hn
    ltac:(unfold is_byte; lia) ltac:(unfold is_byte; lia) Hs Hnow) as (b & m & E & Z & R & G & F).
  rewrite H in E. injection E as <-. split; [exact Z|]. split; [exists m, now, body; rewrite Z; auto|]. intros o k Ho. apply F. lia.
Qed.

(** step 4: the session keys of the peers are collected and broadcast *)
Lemma step4_content e c input out c' out' : crypto_ok C -> zlen (t_sid c) = 32 -> is_u64 (e_s e 0) -> 1 <= t_n c <= 255 ->
  tp_step4 C e c input out = Ok (0, c', out') ->
  zlen out' = msg2_SIZE * t_n c + hdr_SIZE /\ zlen input = t_n c * (msg2_SIZE + sign_BYTES) /\
  delivered out' 0 (zlen out') (sig_pk S (t_sk c)) (t_sid c) 3 0 255 /\
  t_transcript c' = update_transcript (t_transcript c) out' /\
  forall i, 0 <= i < t_n c -> exists m ltsig lt pk,
    rd input (i * (msg2_SIZE + sign_BYTES)) msg2_SIZE = Ok m /\
    rd input (i * (msg2_SIZE + sign_BYTES) + msg2_SIZE) sign_BYTES = Ok ltsig /\
    getz (t_lt c) i = Ok lt /\ sig_verify S lt m ltsig = true /\
    rd m hdr_SIZE 32 = Ok pk /\ getz (t_pks c') i = Ok pk /\
    delivered input (i * (msg2_SIZE + sign_BYTES)) msg2_SIZE pk (t_sid c) 2 (i + 1) 255 /\
    rd out' (hdr_SIZE + i * msg2_SIZE) msg2_SIZE = Ok m.
Proof.
  intros HC Hsid Hu Hn. unfold tp_step4. intros H.
  destruct (_ =? zlen input) eqn:E1; cbn [negb] in H; [|inv H]. destruct (zlen out =? _) eqn:E2; cbn [negb] in H; [|inv H].
  apply Z.eqb_eq in E1, E2. apply bind_ok in H. destruct H as (r & L & H). destruct r as [[[c1 out1] w1]|r [[c1 out1] w1]].
  2:{ injection H as -> -> ->. exfalso.
      assert (0 = 7 \/ 0 = 3) by (refine (loopM_code (fun r => r = 7 \/ r = 3) _ _ _ _ _ _ L); intros x s1 r1 s2 E'; destruct s1 as [[a b] q]; unfold tp_step4_body in E'; inv E'; auto). lia. }
  destruct (Z.ltb_spec 0 (zlen (t_cheaters c1))) as [Hz|Hz]; [discriminate|].
  apply bind_ok in H. destruct H as (outs & Es & H).
  assert (Hc : t_cheaters c1 = []) by (apply zlen_0; pose proof (zlen_nonneg (t_cheaters c1)); lia).
  rewrite msg2_val, sign_val, hdr_val in *. change (175 + 64) with 239 in *.
  set (P := fun k (s : tp * bytes * Z) => let '(c1, out1, w) := s in
     c1 = tp_pks_set (tp_last_set c (t_last c1)) (t_pks c1) /\ zlen out1 = zlen out /\ w = 111 + k * 175 /\
     forall i, 0 <= i < k -> exists m ltsig lt pk,
       rd input (i * 239) 175 = Ok m /\ rd input (i * 239 + 175) 64 = Ok ltsig /\
       getz (t_lt c) i = Ok lt /\ sig_verify S lt m ltsig = true /\
       rd m 111 32 = Ok pk /\ getz (t_pks c1) i = Ok pk /\
       delivered input (i * 239) 175 pk (t_sid c) 2 (i + 1) 255 /\
       rd out1 (111 + i * 175) 175 = Ok m).
  assert (HP : P (Z.of_nat (Z.to_nat (t_n c))) (c1, out1, w1)).
  { apply (clean_loop (fun s => fst (fst s)) (tp_step4_body C e input) P _ (c, out, 111) (c1, out1, w1)); [intros; eapply ext_step4_body; eassumption| | |exact L|exact Hc].
    - unfold P. split; [destruct c; reflexivity|]. split; [reflexivity|]. split; [lia|]. intros; lia.
    - clear c1 out1 w1 L Hz Hc Es H. intros k [[c1 out1] w] [[c2 out2] w2] Hk (P1 & P2 & P3 & P4) Hb Hc2. cbn [fst] in Hc2.
      apply clean4 in Hb; [|exact Hc2]. cbn zeta in Hb.
      destruct Hb as (ltsig & m & lt & pk & last & last' & l & pks & B1 & B2 & B3 & B4 & B5 & B6 & B7 & B8 & B9 & B10 & B11 & B12).
      rewrite msg2_val, sign_val, ?hdr_val in *. change (175 + 64) with 239 in *.
      assert (En : t_lt c1 = t_lt c /\ t_sid c1 = t_sid c) by (rewrite P1; auto).
      destruct En as (En & Ep). rewrite En, Ep in *.
      pose proof (rd_inv _ _ _ _ B2) as (_ & _ & _ & Hm & _). apply updz_inv in B9. destruct B9 as (U1 & U2 & U3).
      unfold P. split; [rewrite B11, P1; reflexivity|]. split; [rewrite (wr_zlen _ _ _ _ B10); exact P2|]. split; [lia|].
      intros i Hi. destruct (Z.eq_dec i k) as [->|Hne].
      + exists m, ltsig, lt, pk. repeat (split; [first [assumption|idtac]|]).
        * rewrite (rd_rd _ _ _ _ _ _ B2) by lia. exact B5.
        * rewrite B11. cbn [t_pks tp_pks_set]. rewrite U3, Z.eqb_refl. reflexivity.
        * eapply recv_delivered; [exact B2|lia|exact B7].
        * rewrite <- P3. rewrite <- Hm. apply (rd_wr_same _ _ _ _ B10).
      + destruct (P4 i ltac:(lia)) as (m0 & s0 & l0 & k0 & Q1 & Q2 & Q3 & Q4 & Q5 & Q6 & Q7 & Q8).
        exists m0, s0, l0, k0. repeat (split; [first [assumption|idtac]|]).
        * rewrite B11. cbn [t_pks tp_pks_set]. rewrite U3. destruct (Z.eqb_spec i k); [lia|exact Q6].
        * rewrite <- Q8. eapply rd_wr_before; [exact B10|]. lia. }
  destruct HP as (P1 & P2 & P3 & P4). rewrite Z2Nat.id in P4 by lia.
  assert (Et : t_sk c1 = t_sk c /\ t_sid c1 = t_sid c /\ t_transcript c1 = t_transcript c) by (rewrite P1; auto).
  destruct Et as (Et1 & Et2 & Et3).
  apply broadcast_sent in Es; [|assumption|congruence|assumption|lia|unfold is_byte; lia]. destruct Es as (S1 & S2 & S3).
  injection H as <- <-. rewrite Et1, Et2 in S2. cbn [t_transcript t_pks tp_transcript_set].
  split; [lia|]. split; [lia|]. split; [exact S2|]. split; [rewrite Et3; reflexivity|].
  intros i Hi. destruct (P4 i Hi) as (m0 & s0 & l0 & k0 & Q1 & Q2 & Q3 & Q4 & Q5 & Q6 & Q7 & Q8).
  exists m0, s0, l0, k0. repeat (split; [assumption|]). rewrite S3 by lia. exact Q8.
Qed.

(** step 12: the commitments are collected and broadcast *)
Lemma step12_content e c input out c' out' : crypto_ok C -> zlen (t_sid c) = 32 -> is_u64 (e_s e 0) -> 1 <= t_n c <= 255 -> 0 <= t_t c <= 255 ->
  tp_step12 C e c input out = Ok (0, c', out') ->
  zlen out' = hdr_SIZE + zlen input /\ zlen input = t_n c * msg6_SIZE (t_t c) /\
  delivered out' 0 (zlen out') (sig_pk S (t_sk c)) (t_sid c) 7 0 255 /\
  t_transcript c' = update_transcript (t_transcript c) out' /\
  forall i, 0 <= i < t_n c -> exists m data pk,
    rd input (i * msg6_SIZE (t_t c)) (msg6_SIZE (t_t c)) = Ok m /\
    rd m hdr_SIZE (32 * t_t c) = Ok data /\ getz (t_com c') i = Ok (rows (t_t c) data) /\
    getz (t_pks c) i = Ok pk /\
    delivered input (i * msg6_SIZE (t_t c)) (msg6_SIZE (t_t c)) pk (t_sid c) 6 (i + 1) 255 /\
    rd out' (hdr_SIZE + i * msg6_SIZE (t_t c)) (msg6_SIZE (t_t c)) = Ok m.
Proof.
  intros HC Hsid Hu Hn Ht. unfold tp_step12. intros H.
  destruct (_ =? zlen input) eqn:E1; cbn [negb] in H; [|inv H]. destruct (zlen out =? _) eqn:E2; cbn [negb] in H; [|inv H].
  apply Z.eqb_eq in E1, E2. apply bind_ok in H. destruct H as (r & L & H). destruct r as [[[c1 out1] w1]|r [[c1 out1] w1]].
  2:{ injection H as -> -> ->. exfalso.
      assert (0 = 7) by (refine (loopM_code (fun r => r = 7) _ _ _ _ _ _ L); intros x s1 r1 s2 E'; destruct s1 as [[a b] q]; unfold tp_step12_body in E'; inv E'; auto). lia. }
  destruct (Z.ltb_spec 0 (zlen (t_cheaters c1))) as [Hz|Hz]; [discriminate|].
  apply bind_ok in H. destruct H as (outs & Es & H).
  assert (Hc : t_cheaters c1 = []) by (apply zlen_0; pose proof (zlen_nonneg (t_cheaters c1)); lia).
  rewrite hdr_val in *. set (sz := msg6_SIZE (t_t c)) in *. assert (Hsz : sz = 111 + 32 * t_t c) by apply msg6_val.
  set (P := fun k (s : tp * bytes * Z) => let '(c1, out1, w) := s in
     c1 = tp_com_set (tp_last_set c (t_last c1)) (t_com c1) /\ zlen out1 = zlen out /\ w = 111 + k * sz /\
     forall i, 0 <= i < k -> exists m data pk,
       rd input (i * sz) sz = Ok m /\ rd m 111 (32 * t_t c) = Ok data /\ getz (t_com c1) i = Ok (rows (t_t c) data) /\
       getz (t_pks c) i = Ok pk /\
       delivered input (i * sz) sz pk (t_sid c) 6 (i + 1) 255 /\
       rd out1 (111 + i * sz) sz = Ok m).
  assert (HP : P (Z.of_nat (Z.to_nat (t_n c))) (c1, out1, w1)).
  { apply (clean_loop (fun s => fst (fst s)) (tp_step12_body C e input) P _ (c, out, 111) (c1, out1, w1)); [intros; eapply ext_step12_body; eassumption| | |exact L|exact Hc].
    - unfold P. split; [destruct c; reflexivity|]. split; [reflexivity|]. split; [lia|]. intros; lia.
    - clear c1 out1 w1 L Hz Hc Es H. intros k [[c1 out1] w] [[c2 out2] w2] Hk (P1 & P2 & P3 & P4) Hb Hc2. cbn [fst] in Hc2.
      apply clean12 in Hb; [|exact Hc2]. cbn zeta in Hb.
      destruct Hb as (pk & last & last' & l & data & com & m & B1 & B2 & B3 & B4 & B5 & B6 & B7 & B8 & B9 & B10).
      rewrite ?hdr_val in *.
      assert (En : t_pks c1 = t_pks c /\ t_sid c1 = t_sid c /\ t_t c1 = t_t c) by (rewrite P1; auto).
      destruct En as (En & Ep & Et). rewrite En, Ep, Et in *. fold sz in B3, B5, B7, B10.
      pose proof (rd_inv _ _ _ _ B7) as (_ & _ & _ & Hm & _). apply updz_inv in B6. destruct B6 as (U1 & U2 & U3).
      unfold P. split; [rewrite B9, P1; reflexivity|]. split; [rewrite (wr_zlen _ _ _ _ B8); exact P2|]. split; [lia|].
      intros i Hi. destruct (Z.eq_dec i k) as [->|Hne].
      + exists m, data, pk. repeat (split; [first [assumption|idtac]|]).
        * rewrite (rd_rd _ _ _ _ _ _ B7) by lia. exact B5.
        * rewrite B9. cbn [t_com tp_com_set]. rewrite U3, Z.eqb_refl. reflexivity.
        * eapply recv_delivered; [exact B7|lia|exact B3].
        * rewrite <- P3. rewrite <- Hm. apply (rd_wr_same _ _ _ _ B8).
      + destruct (P4 i ltac:(lia)) as (m0 & s0 & l0 & Q1 & Q2 & Q3 & Q4 & Q5 & Q6).
        exists m0, s0, l0. repeat (split; [first [assumption|idtac]|]).
        * rewrite B9. cbn [t_com tp_com_set]. rewrite U3. destruct (Z.eqb_spec i k); [lia|exact Q3].
        * rewrite <- Q6. eapply rd_wr_before; [exact B8|]. nia. }
  destruct HP as (P1 & P2 & P3 & P4). rewrite Z2Nat.id in P4 by lia.
  assert (Et : t_sk c1 = t_sk c /\ t_sid c1 = t_sid c /\ t_transcript c1 = t_transcript c) by (rewrite P1; auto).
  destruct Et as (Et1 & Et2 & Et3).
  apply broadcast_sent in Es; [|assumption|congruence|assumption|nia|unfold is_byte; lia]. destruct Es as (S1 & S2 & S3).
  injection H as <- <-. rewrite Et1, Et2 in S2. cbn [t_transcript t_com tp_transcript_set].
  split; [lia|]. split; [lia|]. split; [exact S2|]. split; [rewrite Et3; reflexivity|].
  intros i Hi. destruct (P4 i Hi) as (m0 & s0 & l0 & Q1 & Q2 & Q3 & Q4 & Q5 & Q6).
  exists m0, s0, l0. repeat (split; [assumption|]). rewrite S3 by nia. exact Q6.
Qed.

(** step 20: the transcript digests *)
Lemma step20_content e c input out c' out' : crypto_ok C -> zlen (t_sid c) = 32 -> is_u64 (e_s e 0) -> 1 <= t_n c ->
  tp_step20 C e c input out = Ok (0, c', out') ->
  zlen input = t_n c * msg19_SIZE /\ zlen out' = msg20_SIZE /\
  delivered out' 0 (zlen out') (sig_pk S (t_sk c)) (t_sid c) 21 0 255 /\ rd out' hdr_SIZE 2 = Ok str_OK /\
  forall i, 0 <= i < t_n c ->
    rd input (i * msg19_SIZE + hdr_SIZE) 32 = Ok (blake2b (cH C) 32 (t_transcript c)) /\
    exists pk, getz (t_pks c) i = Ok pk /\ delivered input (i * msg19_SIZE) msg19_SIZE pk (t_sid c) 20 (i + 1) 0.
Proof.
  intros HC Hsid Hu Hn. unfold tp_step20. intros H.
  destruct (_ =? zlen input) eqn:E1; cbn [negb] in H; [|inv H]. destruct (zlen out =? _) eqn:E2; cbn [negb] in H; [|inv H].
  apply Z.eqb_eq in E1, E2. apply bind_ok in H. destruct H as (out0 & E3 & H).
  set (hash := blake2b (cH C) 32 (t_transcript c)) in *.
  apply bind_ok in H. destruct H as (r & L & H). destruct r as [[c1 out1]|r [c1 out1]].
  2:{ injection H as -> -> ->. exfalso.
      assert (0 = 4) by (refine (loopM_code (fun r => r = 4) _ _ _ _ _ _ L); intros x s1 r1 s2 E'; destruct s1 as [a b]; unfold tp_step20_body in E'; inv E'; auto). lia. }
  apply bind_ok in H. destruct H as (outs & Es & H).
  destruct (zlen (t_cheaters c1) =? 0) eqn:Ez; [|discriminate]. injection H as -> ->.
  assert (Hc : t_cheaters c' = []) by (apply zlen_0; apply Z.eqb_eq; exact Ez).
  set (P := fun k (s : tp * bytes) => let '(c1, out1) := s in
     c1 = tp_last_set c (t_last c1) /\ out1 = out0 /\
     forall i, 0 <= i < k -> rd input (i * msg19_SIZE + hdr_SIZE) 32 = Ok hash /\
       exists pk, getz (t_pks c) i = Ok pk /\ delivered input (i * msg19_SIZE) msg19_SIZE pk (t_sid c) 20 (i + 1) 0).
  assert (HP : P (Z.of_nat (Z.to_nat (t_n c))) (c', out1)).
  { apply (clean_loop (fun s => fst s) (tp_step20_body C e input hash) P _ (c, out0) (c', out1)); [intros; eapply ext_step20_body; eassumption| | |exact L|exact Hc].
    - unfold P. split; [destruct c; reflexivity|]. split; [reflexivity|]. intros; lia.
    - clear c' out1 out' L Ez Hc Es. intros k [c1 out1] [c2 out2] Hk (P1 & P2 & P3) Hb Hc2. cbn [fst] in Hc2.
      apply clean20 in Hb; [|exact Hc2]. cbn zeta in Hb. destruct Hb as (pk & last & last' & l & B1 & B2 & B3 & B4 & B5 & B6 & B7).
      assert (En : t_pks c1 = t_pks c /\ t_sid c1 = t_sid c) by (rewrite P1; auto).
      destruct En as (En & Ep). rewrite En, Ep in *.
      unfold P. split; [rewrite B6, P1; reflexivity|]. split; [congruence|].
      intros i Hi. destruct (Z.eq_dec i k) as [->|Hne]; [|apply P3; lia].
      split; [exact B5|]. exists pk. split; [exact B1|].
      destruct (recv_rd _ _ _ _ _ _ _ _ _ _ _ _ _ B3 eq_refl) as (m & Em); [apply Z.mul_nonneg_nonneg; [lia|vm_compute; discriminate]|vm_compute; discriminate|].
      eapply recv_delivered; [exact Em|vm_compute; discriminate|exact B3]. }
  destruct HP as (P1 & P2 & P3). rewrite Z2Nat.id in P3 by lia. subst out1.
  assert (Et : t_sk c' = t_sk c /\ t_sid c' = t_sid c) by (rewrite P1; auto). destruct Et as (Et1 & Et2).
  pose proof (wr_zlen _ _ _ _ E3) as Z3. pose proof (rd_wr_same _ _ _ _ E3) as R3. change (zlen str_OK) with 2 in R3.
  assert (Hz : zlen out0 = 113) by (rewrite Z3, E2; reflexivity).
  apply broadcast_sent in Es; [|assumption|congruence|assumption|lia|unfold is_byte; lia]. destruct Es as (S1 & S2 & S3).
  rewrite Et1, Et2 in S2. split; [lia|]. split; [lia|]. split; [exact S2|]. split; [rewrite S3 by (vm_compute; discriminate); exact R3|exact P3].
Qed.

(** step 22: the acknowledgements *)
Lemma step22_content e c input out c' out' : 1 <= t_n c -> tp_step22 C e c input out = Ok (0, c', out') ->
  zlen input = t_n c * msg21_SIZE /\
  forall i, 0 <= i < t_n c ->
    exists pk, getz (t_pks c) i = Ok pk /\ delivered input (i * msg21_SIZE) msg21_SIZE pk (t_sid c) 22 (i + 1) 0.
Proof.
  intros Hn. unfold tp_step22. intros H.
  destruct (_ =? zlen input) eqn:E1; cbn [negb] in H; [|inv H]. destruct (zlen out =? _) eqn:E2; cbn [negb] in H; [|inv H].
  apply Z.eqb_eq in E1, E2. apply bind_ok in H. destruct H as (r & L & H). destruct r as [c1|r c1].
  2:{ injection H as -> -> ->. exfalso.
      assert (0 = 6) by (refine (loopM_code (fun r => r = 6) _ _ _ _ _ _ L); intros x s1 r1 s2 E'; unfold tp_step22_body in E'; inv E'; auto). lia. }
  destruct (Z.ltb_spec 0 (zlen (t_cheaters c1))) as [Hz|Hz]; [discriminate|]. injection H as -> ->.
  assert (Hc : t_cheaters c' = []) by (apply zlen_0; pose proof (zlen_nonneg (t_cheaters c')); lia).
  set (P := fun k (c1 : tp) => c1 = tp_last_set c (t_last c1) /\
     forall i, 0 <= i < k ->
       exists pk, getz (t_pks c) i = Ok pk /\ delivered input (i * msg21_SIZE) msg21_SIZE pk (t_sid c) 22 (i + 1) 0).
  assert (HP : P (Z.of_nat (Z.to_nat (t_n c))) c').
  { apply (clean_loop (fun s => s) (tp_step22_body C e input) P _ c c'); [intros; eapply ext_step22_body; eassumption| | |exact L|exact Hc].
    - unfold P. split; [destruct c; reflexivity|]. intros; lia.
    - clear c' out' L Hz Hc E2. intros k c1 c2 Hk (P1 & P3) Hb Hc2.
      apply clean22 in Hb; [|exact Hc2]. cbn zeta in Hb. destruct Hb as (pk & last & last' & l & B1 & B2 & B3 & B4 & B5).
      assert (En : t_pks c1 = t_pks c /\ t_sid c1 = t_sid c) by (rewrite P1; auto).
      destruct En as (En & Ep). rewrite En, Ep in *.
      unfold P. split; [rewrite B5, P1; reflexivity|].
      intros i Hi. destruct (Z.eq_dec i k) as [->|Hne]; [|apply P3; lia].
      exists pk. split; [exact B1|].
      destruct (recv_rd _ _ _ _ _ _ _ _ _ _ _ _ _ B3 eq_refl) as (m & Em); [apply Z.mul_nonneg_nonneg; [lia|vm_compute; discriminate]|vm_compute; discriminate|].
      eapply recv_delivered; [exact Em|vm_compute; discriminate|exact B3]. }
  destruct HP as (P1 & P3). rewrite Z2Nat.id in P3 by lia. split; [lia|exact P3].
Qed.
End TP.
