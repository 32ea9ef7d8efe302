(** Conversations with a group of peers *)
From Coq Require Import ZArith Lia List Bool.
From Coq.Strings Require Import Byte.
From Verif Require Import Bytes Res Mem MuxModel MuxSpec MuxProofs MuxGroupSpec.
Import ListNotations.
Open Scope list_scope.
Open Scope Z_scope.

Lemma connect_in_order env : forall ps ok ps', length env = length ps -> mux_connect env ps = (ok, ps') ->
  length ps' = length ps /\ exists k, (k <= length ps)%nat /\ (ok = true <-> k = length ps) /\
  forall i p up strm, nth_error ps i = Some p -> nth_error env i = Some (up, strm) -> exists p', nth_error ps' i = Some p' /\
    ((i < k)%nat -> (up = true /\ m_type p = SSL /\ is_connected p = false)
       /\ is_connected p' = true /\ m_fd p' = OpenFd /\ m_auth p' = negb (m_cert p) /\ bytes_of p' = wire strm /\ m_out p' = [])
    /\ (i = k -> (up = false \/ m_type p <> SSL \/ is_connected p = true) /\ m_state p' = m_state p)
    /\ ((k < i)%nat -> p' = p).
Proof.
  induction env as [|[u s] env IH]; intros [|q ps] ok ps' L H; cbn [length] in L; try lia.
  - cbn in H. injection H as <- <-. split; [reflexivity|]. exists 0%nat. split; [lia|]. split; [tauto|]. intros [|i] p up strm E; discriminate.
  - cbn [mux_connect] in H. destruct (m_connect u s q) as [[|] q1] eqn:M.
    + destruct (mux_connect env ps) as [ok' ps1] eqn:E. injection H as <- <-.
      destruct (IH ps ok' ps1 ltac:(lia) E) as (L1 & k & Lk & Hok & P). split; [cbn; lia|]. exists (S k). split; [cbn; lia|].
      split; [cbn; split; intros Q; [f_equal; apply Hok; exact Q|apply Hok; lia]|].
      intros [|i] p up strm Ep Ee; cbn [nth_error] in *.
      * injection Ep as <-. injection Ee as <- <-. exists q1. split; [reflexivity|]. split; [|split; intros; lia]. intros _.
        unfold m_connect in M. destruct (is_connected q); [discriminate|]. destruct (m_type q); try discriminate.
        destruct u; [|discriminate]. injection M as <-. repeat split.
      * destruct (P i p up strm Ep Ee) as (p' & Ep' & A & B & C). exists p'. split; [exact Ep'|].
        split; [intros; apply A; lia|]. split; [intros; apply B; lia|intros; apply C; lia].
    + injection H as <- <-. split; [reflexivity|]. exists 0%nat. split; [lia|]. split; [split; [discriminate|intros Q; cbn in Q; discriminate]|].
      intros [|i] p up strm Ep Ee; cbn [nth_error] in *.
      * injection Ep as <-. injection Ee as <- <-. exists q1. split; [reflexivity|]. split; [intros; lia|]. split; [|intros; lia]. intros _.
        unfold m_connect in M. destruct (is_connected q); [injection M as <-; split; [right; right; reflexivity|reflexivity]|].
        destruct (m_type q) eqn:Ty; [destruct u; [discriminate|]; injection M as <-; split; [left; reflexivity|reflexivity]| |];
          injection M as <-; (split; [right; left; discriminate|reflexivity]).
      * exists p. split; [exact Ep|]. split; [intros; lia|]. split; [intros; lia|reflexivity].
Qed.

Lemma broadcast_in_order env msg : forall ps ok ps', length env = length ps -> mux_broadcast env msg ps = (ok, ps') ->
  length ps' = length ps /\ exists k, (k <= length ps)%nat /\ (ok = true <-> k = length ps) /\
  forall i p up, nth_error ps i = Some p -> nth_error env i = Some up -> exists p', nth_error ps' i = Some p' /\
    m_state p' = m_state p /\ m_fd p' = m_fd p /\ m_auth p' = m_auth p /\ bytes_of p' = bytes_of p
    /\ ((i < k)%nat -> up = true /\ m_fd p = OpenFd /\ m_out p' = m_out p ++ msg)
    /\ (i = k -> (up = false \/ m_fd p <> OpenFd) /\ p' = p)
    /\ ((k < i)%nat -> p' = p).
Proof.
  induction env as [|u env IH]; intros [|q ps] ok ps' L H; cbn [length] in L; try lia.
  - cbn in H. injection H as <- <-. split; [reflexivity|]. exists 0%nat. split; [lia|]. split; [tauto|]. intros [|i] p up E; discriminate.
  - cbn [mux_broadcast] in H. destruct (m_send u msg q) as [[|] q1] eqn:M.
    + destruct (mux_broadcast env msg ps) as [ok' ps1] eqn:E. injection H as <- <-.
      destruct (IH ps ok' ps1 ltac:(lia) E) as (L1 & k & Lk & Hok & P). split; [cbn; lia|]. exists (S k). split; [cbn; lia|].
      split; [cbn; split; intros Q; [f_equal; apply Hok; exact Q|apply Hok; lia]|].
      intros [|i] p up Ep Ee; cbn [nth_error] in *.
      * injection Ep as <-. injection Ee as <-. exists q1. split; [reflexivity|].
        unfold m_send in M. destruct (m_fd q) eqn:Fd; try discriminate. destruct u; [|discriminate]. injection M as <-.
        repeat split; intros; lia.
      * destruct (P i p up Ep Ee) as (p' & Ep' & A1 & A2 & A3 & A4 & A & B & C). exists p'. split; [exact Ep'|].
        do 4 (split; [assumption|]). split; [intros; apply A; lia|]. split; [intros; apply B; lia|intros; apply C; lia].
    + injection H as <- <-. split; [reflexivity|]. exists 0%nat. split; [lia|]. split; [split; [discriminate|intros Q; cbn in Q; discriminate]|].
      assert (E : q1 = q /\ (u = false \/ m_fd q <> OpenFd)).
      { unfold m_send in M. destruct (m_fd q); [injection M as <-; split; [reflexivity|right; discriminate]| |injection M as <-; split; [reflexivity|right; discriminate]].
        destruct u; [discriminate|]. injection M as <-. split; [reflexivity|left; reflexivity]. }
      destruct E as [-> E].
      intros [|i] p up Ep Ee; cbn [nth_error] in *.
      * injection Ep as <-. injection Ee as <-. exists q. split; [reflexivity|]. do 4 (split; [reflexivity|]). split; [intros; lia|]. split; [|intros; lia].
        intros _. split; [exact E|reflexivity].
      * exists p. split; [exact Ep|]. do 4 (split; [reflexivity|]). split; [intros; lia|]. split; [intros; lia|reflexivity].
Qed.

(** what reading does not change *)
Definition same (p p' : mpeer) : Prop := m_out p' = m_out p /\ m_fd p' = m_fd p /\ m_auth p' = m_auth p /\ (m_state p <> Closed -> m_state p' <> Closed).
Lemma same_refl p : same p p.
Proof. repeat split; auto. Qed.
Lemma same_trans a b c : same a b -> same b c -> same a c.
Proof. intros (A & B & C & D) (E & F & G & H). repeat split; try congruence. intros K. apply H, D, K. Qed.
Lemma read_same len p o p1 : m_read len p = (o, p1) -> same p p1.
Proof.
  unfold m_read. destruct (negb (is_connected p)); [intros H; injection H as _ <-; apply same_refl|].
  destruct (len <=? 0); [intros H; injection H as _ <-; apply same_refl|].
  destruct (recv_all len (m_in p)) as [[b|] evs]; intros H; injection H as _ <-; repeat split; cbn; [destruct (zlen b <? len)|]; discriminate.
Qed.
Lemma rounds_same len n : forall sched l o l1, rounds bytes raw len n sched l = (o, l1) -> (exists out, o = Got out) -> Forall2 (fun s s' => same (fst s) (fst s')) l l1.
Proof.
  assert (Rf : forall l : list (slot bytes), Forall2 (fun s s' => same (fst s) (fst s')) l l) by (induction l; constructor; [apply same_refl|assumption]).
  induction sched as [|r sched IH]; intros l o l1 H Hg; cbn [rounds] in H.
  - destruct (n <=? answered bytes l); [injection H as _ <-; apply Rf|]. destruct (negb _); injection H as _ <-; apply Rf.
  - destruct (n <=? answered bytes l); [injection H as _ <-; apply Rf|]. destruct (negb _); [injection H as _ <-; apply Rf|].
    destruct (walk bytes (visit_ready bytes raw len) r 0 l) as [[|] l2] eqn:W; [|injection H as <- <-; destruct Hg as (out & Hg); discriminate].
    apply walk_forall2 in W. specialize (IH _ _ _ H Hg). refine (forall2_comp _ _ _ _ _ _ _ W IH).
    intros s s1 s2 (e & He) S2. refine (same_trans _ _ _ _ S2). unfold visit_ready in He. destruct (negb _); [injection He as <-; apply same_refl|].
    destruct s as [p rr]. destruct (m_read len p) as [[b|] p1] eqn:E; [|discriminate]. injection He as <-. cbn. exact (read_same _ _ _ _ E).
Qed.
Lemma gather_same len n pend sched ps out ps' : gather bytes raw len n pend sched ps = (Got out, ps') -> Forall2 same ps ps'.
Proof.
  unfold gather. destruct (walk bytes (visit_pending bytes raw len) pend 0 _) as [[|] l] eqn:W; [|discriminate].
  destruct (rounds bytes raw len n sched l) as [o l1] eqn:E. intros H. injection H as -> <-.
  apply walk_forall2 in W. apply rounds_same in E; [|eauto].
  assert (F : Forall2 (fun p s => same p (fst s)) ps l).
  { refine (forall2_comp _ _ _ _ _ _ _ (start_forall2 bytes ps) W). intros p s s1 -> (e & He). unfold visit_pending in He.
    destruct (m_fd p); [discriminate| |]; (destruct (e =? len); [|injection He as <-; apply same_refl]);
      destruct (m_read len p) as [[b|] p1] eqn:Er; try discriminate; injection He as <-; exact (read_same _ _ _ _ Er). }
  assert (G : Forall2 (fun p s => same p (fst s)) ps l1).
  { refine (forall2_comp _ _ _ _ _ _ _ F E). intros p s s1. apply same_trans. }
  clear - G. induction G; cbn; constructor; assumption.
Qed.

Lemma talk_peer rs ps outs ps' : talk rs ps outs ps' -> Forall (fun r => length (rd_up r) = length ps /\ zlen ps <= g_n (rd_call r)) rs ->
  length ps' = length ps /\ forall i p, nth_error ps i = Some p -> exists p' os, nth_error ps' i = Some p' /\
    m_out p' = m_out p ++ concat (map rd_msg rs) /\ m_fd p' = m_fd p /\ m_auth p' = m_auth p /\ (m_state p <> Closed -> m_state p' <> Closed) /\
    Forall2 (fun out o => nth_error out i = Some o) outs os /\ bytes_of p = concat (map said os) ++ bytes_of p'.
Proof.
  induction 1 as [ps|r rs ps ps1 out ps2 outs ps3 B G T IH]; intros F.
  - split; [reflexivity|]. intros i p E. exists p, []. cbn. rewrite app_nil_r. repeat split; auto.
  - inversion F as [|? ? [Lu Ln] F']; subst.
    destruct (broadcast_in_order _ _ _ _ _ Lu B) as (L1 & k & _ & Hk & P). assert (K : k = length ps) by (apply Hk; reflexivity). subst k.
    pose proof (gather_same _ _ _ _ _ _ _ G) as S. pose proof (forall2_len _ _ _ S) as L2.
    assert (F2 : Forall (fun r => length (rd_up r) = length ps2 /\ zlen ps2 <= g_n (rd_call r)) rs).
    { eapply Forall_impl; [|exact F']. intros a [A1 A2]. unfold zlen in *. rewrite <- L2, L1. split; assumption. }
    destruct (IH F2) as (L3 & Q). split; [lia|]. intros i p E.
    assert (Hi : (i < length ps)%nat) by (apply nth_error_Some; congruence).
    destruct (nth_error (rd_up r) i) as [up|] eqn:Eu; [|apply nth_error_None in Eu; lia].
    destruct (P i p up E Eu) as (p1 & E1 & S1 & Fd1 & Au1 & B1 & O1 & _). destruct (O1 Hi) as (_ & _ & O1').
    destruct (forall2_nth _ _ _ S _ _ E1) as (p2 & E2 & Sm). destruct Sm as (So & Sf & Sa & Ss).
    assert (Ln1 : zlen ps1 <= g_n (rd_call r)) by (unfold zlen in *; rewrite L1; exact Ln).
    destruct (gather_all _ _ _ _ _ _ _ G Ln1 _ _ E1) as (p2' & o & E2' & Eo & Ew & _). rewrite E2 in E2'. injection E2' as <-.
    destruct (Q i p2 E2) as (p3 & os & E3 & O3 & F3 & A3 & S3 & Os & W3). exists p3, (o :: os). split; [exact E3|].
    split; [cbn [map concat]; rewrite O3, So, O1', app_assoc; reflexivity|]. split; [congruence|]. split; [congruence|].
    split; [intros K; apply S3, Ss; rewrite S1; exact K|]. split; [constructor; assumption|].
    cbn [map concat]. rewrite <- B1, Ew, W3, app_assoc. reflexivity.
Qed.

Theorem conversation l env ps1 rs outs ps2 i ty cert up strm :
  length env = length l -> mux_connect env (new_peers l) = (true, ps1) -> talk rs ps1 outs ps2 ->
  Forall (fun r => length (rd_up r) = length l /\ zlen l <= g_n (rd_call r)) rs ->
  nth_error l i = Some (ty, cert) -> nth_error env i = Some (up, strm) ->
  ty = SSL /\ exists p os c, nth_error ps2 i = Some p /\ m_out p = concat (map rd_msg rs) /\ m_auth p = negb cert
    /\ Forall2 (fun out o => nth_error out i = Some o) outs os /\ wire strm = concat (map said os) ++ bytes_of p
    /\ nth_error (mux_close ps2) i = Some c /\ m_state c = Closed /\ m_fd c = ShutFd /\ m_out c = m_out p.
Proof.
  intros L C T F El Ee. assert (Ln : length (new_peers l) = length l) by (unfold new_peers; apply map_length).
  destruct (connect_in_order env (new_peers l) true ps1 ltac:(lia) C) as (L1 & k & _ & Hk & P). assert (K : k = length (new_peers l)) by (apply Hk; reflexivity). subst k.
  assert (En : nth_error (new_peers l) i = Some (new_peer ty cert)) by (unfold new_peers; rewrite nth_error_map, El; reflexivity).
  assert (Hi : (i < length l)%nat) by (apply nth_error_Some; congruence).
  destruct (P _ _ _ _ En Ee) as (p1 & E1 & A & _). destruct (A ltac:(lia)) as ((_ & Ty & _) & Cn & Fd & Au & By & Ou). cbn in Ty, Au.
  split; [exact Ty|].
  assert (F1 : Forall (fun r => length (rd_up r) = length ps1 /\ zlen ps1 <= g_n (rd_call r)) rs).
  { eapply Forall_impl; [|exact F]. intros a [A1 A2]. unfold zlen in *. rewrite L1, Ln. split; assumption. }
  destruct (talk_peer _ _ _ _ T F1) as (_ & Q). destruct (Q _ _ E1) as (p & os & E2 & O2 & F2 & A2 & S2 & Os & W).
  exists p, os, (m_close p). split; [exact E2|]. split; [rewrite O2, Ou; reflexivity|]. split; [congruence|]. split; [exact Os|].
  split; [rewrite <- By; exact W|]. split; [unfold mux_close; rewrite nth_error_map, E2; reflexivity|].
  assert (Nc : m_state p <> Closed). { apply S2. unfold is_connected in Cn. destruct (m_state p1); discriminate. }
  unfold m_close. destruct (m_state p); try contradiction; cbn; rewrite F2, Fd; repeat split.
Qed.
