(** C85: a peer that follows the protocol is blamed only through its own complaints. *)
From Coq Require Import ZArith Lia List Bool.
From Coq.Strings Require Import Byte.
From Verif Require Import PrimeL Fq Bytes Res Mem Sodium ToprfModel ToprfSpec DkgModel DkgSpec DkgProofs WireModel WireSpec WireProofs TpCrypto TpModel PeerModel CheaterModel.
From Verif Require Import TpFrame PeerFrame TpSpec TpMsg TpContent TpComplaints PeerContent TpControl TpSizes TpAgree TpMisc BlameSpec TpBlame TpClear TpReports TpRun.
From Verif Require Import ReportSpec TpTruth SafeSpec TpSafe PeerSafe HonestMsg HonestPeer PeerAnswer PeerSelf ClearSpec Cleared GoodSpec Good FairSpec FairPeer FairTp.
Import ListNotations.
Open Scope list_scope.
Open Scope Z_scope.

(** ** Time stamps *)
Definition lastz (d : Z) (l : list Z) : Z := fold_left (fun _ x => x) l d.
Lemma lastz_app d a b : lastz d (a ++ b) = lastz (lastz d a) b.
Proof. apply fold_left_app. Qed.
Lemma paced_head w d l : paced w d l -> d + w < 2 ^ 64.
Proof. destruct l; cbn; tauto. Qed.
Lemma paced_app w a : forall d b, paced w d (a ++ b) -> paced w d a /\ paced w (lastz d a) b.
Proof.
  induction a as [|x a IH]; intros d b H; cbn [app] in H.
  - split; [cbn; split; [eapply paced_head; exact H|exact I]|exact H].
  - cbn [paced] in H. destruct H as (H1 & H2 & H3). apply IH in H3. destruct H3 as (H3 & H4). split; [cbn [paced]; auto|exact H4].
Qed.
Lemma paced_lo w a : forall d, paced w d a -> d <= lastz d a.
Proof. induction a as [|x a IH]; intros d H; [cbn; lia|]. cbn [paced] in H. destruct H as (_ & H2 & H3). apply IH in H3. change (lastz d (x :: a)) with (lastz x a). lia. Qed.
Lemma paced_row w f n : forall a d, paced w d (map f (zrange a n)) -> 0 < d ->
  (forall i, a <= i < a + Z.of_nat n -> let b := if i =? a then d else f (i - 1) in b <= f i <= b + w /\ b + w < 2 ^ 64 /\ f i + w < 2 ^ 64 /\ 0 < b) /\
  lastz d (map f (zrange a n)) = (if Z.of_nat n =? 0 then d else f (a + Z.of_nat n - 1)).
Proof.
  induction n as [|n IH]; intros a d H Hd; [split; [intros i Hi; lia|reflexivity]|]. rewrite zrange_S in H |- *. cbn [map paced] in H |- *. destruct H as (H1 & H2 & H3).
  destruct (IH _ _ H3 ltac:(lia)) as (A & B). split.
  - intros i Hi. cbn zeta. destruct (Z.eqb_spec i a) as [->|Ne]; [pose proof (paced_head _ _ _ H3); lia|].
    specialize (A i ltac:(lia)). cbn zeta in A. destruct (Z.eqb_spec i (a + 1)) as [E|]; [replace (i - 1) with a by lia|]; exact A.
  - change (lastz d (f a :: map f (zrange (a + 1) n))) with (lastz (f a) (map f (zrange (a + 1) n))). rewrite B.
    destruct (Z.eqb_spec (Z.of_nat (S n)) 0); [lia|]. destruct (Z.eqb_spec (Z.of_nat n) 0) as [E|E]; [replace (a + Z.of_nat (S n) - 1) with a by lia|replace (a + Z.of_nat (S n) - 1) with (a + 1 + Z.of_nat n - 1) by lia]; reflexivity.
Qed.
Lemma stamps_app n a : forall s b, stamps n s (a ++ b) = stamps n s a ++ stamps n (s + length a) b.
Proof. induction a as [|[[e i] o] a IH]; intros s b; cbn [app stamps length]; [rewrite Nat.add_0_r; reflexivity|]. rewrite IH, <- app_assoc. replace (s + Datatypes.S (length a))%nat with (Datatypes.S s + length a)%nat by lia. reflexivity. Qed.
Lemma firstn_one {A} s : forall (l : list A) x, nth_error l s = Some x -> firstn (Datatypes.S s) l = firstn s l ++ [x].
Proof. induction s as [|s IH]; intros [|y l] x H; try discriminate; [injection H as ->; reflexivity|]. cbn [firstn app]. f_equal. exact (IH l x H). Qed.
Definition stamp_upto (n start : Z) (pcalls : list peer_call) (s : nat) : Z := lastz start (stamps n 0 (firstn s pcalls)).
Lemma stamp_at n w start pcalls s e i o : paced w start (stamps n 0 pcalls) -> 0 < start -> nth_error pcalls s = Some (e, i, o) ->
  let l := stamp_upto n start pcalls s in 0 < l /\ paced w l (stamps_of n s e) /\ stamp_upto n start pcalls (S s) = lastz l (stamps_of n s e).
Proof.
  intros H H0 Hs. cbn zeta. assert (E : pcalls = firstn s pcalls ++ (e, i, o) :: skipn (S s) pcalls) by (etransitivity; [symmetry; apply (firstn_skipn s)|f_equal; exact (skipn_nth_error s pcalls _ Hs)]).
  assert (Ls : length (firstn s pcalls) = s) by (rewrite firstn_length; assert (s < length pcalls)%nat by (apply nth_error_Some; congruence); lia).
  pose proof (firstn_one s pcalls _ Hs) as E2.
  rewrite E, stamps_app, Ls in H. cbn [stamps Nat.add] in H. apply paced_app in H. destruct H as (A & B). fold (stamp_upto n start pcalls s) in B. apply paced_app in B. destruct B as (B & _).
  split; [pose proof (paced_lo _ _ _ A); unfold stamp_upto; lia|]. split; [exact B|].
  unfold stamp_upto. rewrite E2, stamps_app, Ls, lastz_app. cbn [stamps Nat.add]. rewrite app_nil_r. reflexivity.
Qed.

(** ** The calls of a run *)
Definition state_at {X} (c : X) (outs : list (Z * X * bytes)) (j : nat) : X :=
  match j with O => c | S i => match nth_error outs i with Some o => snd (fst o) | None => c end end.
Lemma tp_call_at C calls : forall c outs j r c' v, tp_run C c calls = Ok outs -> nth_error outs j = Some (r, c', v) ->
  exists e i o, nth_error calls j = Some (e, i, o) /\ tp_next C e (state_at c outs j) i o = Ok (r, c', v).
Proof.
  induction calls as [|[[e i] o] calls IH]; intros c outs j r c' v H Hj; [cbn in H; injection H as <-; destruct j; discriminate|].
  apply tp_cons in H. destruct H as (ret & c1 & o1 & outs' & -> & N & H). destruct j as [|j]; cbn [nth_error] in *.
  - injection Hj as -> -> ->. exists e, i, o. auto.
  - destruct (IH _ _ _ _ _ _ H Hj) as (e' & i' & o' & A & B). exists e', i', o'. split; [exact A|]. destruct j as [|j]; [exact B|]. cbn [state_at nth_error]. cbn [state_at] in B.
    destruct (nth_error outs' j) eqn:E; [exact B|]. assert (nth_error outs' (S j) = None) by (apply nth_error_None; apply nth_error_None in E; lia). congruence.
Qed.
Lemma peer_call_at C calls : forall (c : peer C) outs j r c' v, peer_run C c calls = Ok outs -> nth_error outs j = Some (r, c', v) ->
  exists e i o, nth_error calls j = Some (e, i, o) /\ peer_next C e (state_at c outs j) i o = Ok (r, c', v).
Proof.
  induction calls as [|[[e i] o] calls IH]; intros c outs j r c' v H Hj; [cbn in H; injection H as <-; destruct j; discriminate|].
  apply (run_cons C) in H. destruct H as (ret & c1 & o1 & outs' & -> & N & H). destruct j as [|j]; cbn [nth_error] in *.
  - injection Hj as -> -> ->. exists e, i, o. auto.
  - destruct (IH _ _ _ _ _ _ H Hj) as (e' & i' & o' & A & B). exists e', i', o'. split; [exact A|]. destruct j as [|j]; [exact B|]. cbn [state_at nth_error]. cbn [state_at] in B.
    destruct (nth_error outs' j) eqn:E; [exact B|]. assert (nth_error outs' (S j) = None) by (apply nth_error_None; apply nth_error_None in E; lia). congruence.
Qed.
Lemma peer_run_len C calls : forall (c : peer C) outs, peer_run C c calls = Ok outs -> length outs = length calls.
Proof. induction calls as [|[[e i] o] calls IH]; intros c outs H; [cbn in H; injection H as <-; reflexivity|]. apply (run_cons C) in H. destruct H as (ret & c1 & o1 & outs' & -> & N & H). cbn [length]. rewrite (IH _ _ H). reflexivity. Qed.
Lemma tp_run_len C calls : forall c outs, tp_run C c calls = Ok outs -> length outs = length calls.
Proof. induction calls as [|[[e i] o] calls IH]; intros c outs H; [cbn in H; injection H as <-; reflexivity|]. apply (tp_cons C) in H. destruct H as (ret & c1 & o1 & outs' & -> & N & H). cbn [length]. rewrite (IH _ _ H). reflexivity. Qed.
Lemma peer_run_prefix C calls : forall (c : peer C) outs s, peer_run C c calls = Ok outs -> peer_run C c (firstn s calls) = Ok (firstn s outs).
Proof.
  induction calls as [|[[e i] o] calls IH]; intros c outs s H; [cbn in H; injection H as <-; rewrite !firstn_nil; reflexivity|].
  apply (run_cons C) in H. destruct H as (ret & c1 & o1 & outs' & -> & N & H). destruct s as [|s]; [reflexivity|]. cbn [firstn peer_run]. rewrite N. cbn [bind]. rewrite (IH _ _ s H). reflexivity.
Qed.

(** ** Step 18 only records entries of step 18 *)
Definition only18 (c c' : tp) : Prop := (t_complaints c' = t_complaints c /\ t_enc c' = t_enc c) /\ exists new, t_cheaters c' = t_cheaters c ++ new /\ Forall (fun ch => ch_step ch = 18 /\ 0 <= ch_other ch < 256) new.
Lemma only18_refl c c' : t_cheaters c' = t_cheaters c -> t_complaints c' = t_complaints c -> t_enc c' = t_enc c -> only18 c c'.
Proof. intros E E' E2. split; [auto|]. exists []. rewrite app_nil_r. auto. Qed.
Lemma only18_trans a b c : only18 a b -> only18 b c -> only18 a c.
Proof. intros ((C1 & D1) & l1 & E1 & F1) ((C2 & D2) & l2 & E2 & F2). split; [split; congruence|]. exists (l1 ++ l2). rewrite E2, E1, app_assoc. split; [reflexivity|]. apply Forall_app. auto. Qed.
Lemma u8_range x : 0 <= Mem.u8 x < 256.
Proof. unfold Mem.u8. apply Z.mod_pos_bound. lia. Qed.
Lemma only18_add c error peer other c' : add_cheater c 18 error peer other = Some c' -> only18 c c'.
Proof. intros H. apply add_cheater_inv in H. destruct H as (_ & ->). split; [auto|]. eexists. split; [reflexivity|]. repeat constructor; apply u8_range. Qed.
Lemma only18_key C e input p i k s r : tp_step18_key C e input p i k s = Ok r -> only18 (fst s) (fst (ctl_state r)).
Proof.
  destruct s as [c cs]. unfold tp_step18_key. intros H. cbn [fst].
  assert (Fin : forall cs1 error a b, match add_cheater c 18 error a b with None => Ok (Return 4 (c, cs1)) | Some c2 => Ok (Next (c2, cs1)) end = Ok r -> only18 c (fst (ctl_state r))).
  { intros cs1 error a b Hr. destruct (add_cheater _ _ _ _ _) eqn:Ea in Hr; injection Hr as <-; cbn [ctl_state fst]; [eapply only18_add; exact Ea|apply only18_refl; reflexivity]. }
  apply bind_ok in H. destruct H as (b & _ & H). apply bind_ok in H. destruct H as (b0 & _ & H). cbn zeta in H.
  destruct (find_pair _ _ _); [|eapply Fin; exact H].
  apply bind_ok in H. destruct H as (cs1 & _ & H). apply bind_ok in H. destruct H as (tsb & _ & H). apply bind_ok in H. destruct H as (pk & _ & H).
  apply bind_ok in H. destruct H as ((ret & l) & _ & H). destruct (negb (ret =? 0)); [eapply Fin; exact H|].
  apply bind_ok in H. destruct H as (key & _ & H). apply bind_ok in H. destruct H as (mac & _ & H). apply bind_ok in H. destruct H as (ct & _ & H).
  destruct (negb _); [eapply Fin; exact H|]. destruct (nz_aead_decrypt _ _ _) as [pt|]; [|eapply Fin; exact H].
  destruct (negb _).
  - destruct (add_cheater _ _ _ _ _) as [c1|] eqn:Ea; [|injection H as <-; apply only18_refl; reflexivity]. apply add_cheater_inv in Ea. destruct Ea as (_ & ->).
    cbn [t_cheaters tp_cheaters_set] in H. match type of H with context [t_cheaters c ++ [?x]] => set (ch := x) in H end. rewrite zlen_app in H. change (zlen [ch]) with 1 in H.
    replace (zlen (t_cheaters c) + 1 - 1) with (zlen (t_cheaters c)) in H by lia. rewrite (getz_mid (t_cheaters c) _ []) in H by reflexivity. cbn [bind] in H.
    rewrite (updz_mid (t_cheaters c) _ []) in H by reflexivity. cbn [bind] in H. injection H as <-. split; [auto|]. eexists. split; [reflexivity|]. repeat constructor; apply u8_range.
  - apply bind_ok in H. destruct H as (row & _ & H). apply bind_ok in H. destruct H as (v & _ & H). eapply Fin; exact H.
Qed.
Lemma only18_step C e c input out ret c' out' : tp_step18 C e c input out = Ok (ret, c', out') -> only18 c c'.
Proof.
  unfold tp_step18. intros H. apply bind_ok in H. destruct H as (isz & _ & H). destruct (negb _); [injection H as <- <- <-; apply only18_refl; reflexivity|].
  destruct (negb _); [injection H as <- <- <-; apply only18_refl; reflexivity|]. apply bind_ok in H. destruct H as (ctr & _ & H). apply bind_ok in H. destruct H as (r & E & H).
  apply (loop_rel (fun a b : tp * list Z * Z => only18 (fst (fst a)) (fst (fst b)))) in E; [|intros; apply only18_refl; reflexivity|intros ? ? ?; apply only18_trans|].
  2:{ intros i [[c1 cs] p] r1 H1. unfold tp_step18_body in H1. cbn [fst]. apply bind_ok in H1. destruct H1 as (k & _ & H1).
      destruct (k =? 0); [injection H1 as <-; apply only18_refl; reflexivity|]. apply bind_ok in H1. destruct H1 as (pk & _ & H1). apply bind_ok in H1. destruct H1 as ((rt & c2) & Hr & H1).
      apply tp_recv_inv in Hr. destruct Hr as (? & ? & l & _ & _ & _ & E2).
      assert (O : only18 c1 c2) by (subst c2; apply only18_refl; reflexivity). destruct (negb _).
      - destruct (add_cheater _ _ _ _ _) eqn:Ea in H1; injection H1 as <-; cbn [ctl_state fst]; [eapply only18_trans; [exact O|eapply only18_add; exact Ea]|exact O].
      - apply bind_ok in H1. destruct H1 as (r2 & E3 & H1). apply (loop_rel (fun a b : tp * list Z => only18 (fst a) (fst b))) in E3; [|intros; apply only18_refl; reflexivity|intros ? ? ?; apply only18_trans|intros; eapply only18_key; eassumption].
        eapply only18_trans; [exact O|]. cbn [fst] in E3. destruct r2 as [[c3 cs3]|code [c3 cs3]]; injection H1 as <-; exact E3. }
  cbn [fst] in E. destruct r as [[[c1 cs] p1]|code [[c1 cs] p1]]; cbn [ctl_state fst] in E; [|injection H as <- <- <-; exact E].
  apply bind_ok in H. destruct H as (r & E2 & H). apply (loop_rel only18) in E2; [|intros; apply only18_refl; reflexivity|intros ? ? ?; apply only18_trans|].
  2:{ intros x a r1 H1. unfold tp_step18_unanswered in H1. destruct (x =? 65535); [injection H1 as <-; apply only18_refl; reflexivity|].
      destruct (add_cheater _ _ _ _ _) eqn:Ea in H1; injection H1 as <-; cbn [ctl_state]; [eapply only18_add; exact Ea|apply only18_refl; reflexivity]. }
  destruct r as [c2|code c2]; injection H as <- <- <-; (eapply only18_trans; [exact E|]); cbn [ctl_state] in E2; exact E2.
Qed.
Lemma enc16 C e c input out ret c' out' : tp_step16 C e c input out = Ok (ret, c', out') -> t_enc c' = t_enc c.
Proof.
  unfold tp_step16. intros H. inv H; try reflexivity.
  all: match goal with E : loopM (tp_step16_body _ _ _) _ _ = Ok _ |- _ =>
    apply (loop_rel (fun a b : tp * bytes * Z => t_enc (fst (fst b)) = t_enc (fst (fst a)))) in E; [|intros; reflexivity|intros; congruence|] end.
  all: try match goal with E : add_cheater _ _ _ _ _ = Some _ |- _ => apply add_cheater_inv in E; destruct E as (_ & ->) end.
  all: try assumption.
  Ltac tk C := repeat match goal with
  | H : tp_recv C _ _ _ _ _ _ _ _ _ _ = Ok _ |- _ => apply tp_recv_inv in H; destruct H as (? & ? & ? & _ & _ & _ & ?)
  | H : add_cheater _ _ _ _ _ = Some _ |- _ => apply add_cheater_inv in H; destruct H as (_ & ?)
  end; subst; cbn [ctl_state fst snd]; reflexivity.
  all: intros i [[a b] w] r H; unfold tp_step16_body in H; inv H; try tk C.
  all: try match goal with E : loopM (tp_step16_complaint _ _ _ _) _ _ = Ok _ |- _ =>
    apply (loop_rel (fun a b : tp => t_enc b = t_enc a)) in E; [|intros; reflexivity|intros; congruence|] end.
  all: try (intros j a0 r0 H0; unfold tp_step16_complaint in H0; inv H0; try tk C).
  all: cbn [ctl_state fst snd] in *; repeat match goal with Q : tp_recv _ _ _ _ _ _ _ _ _ _ _ = Ok _ |- _ => apply tp_recv_inv in Q; destruct Q as (? & ? & ? & _ & _ & _ & ?) end; subst; assumption.
Qed.

(** ** An accused peer that answers *)
Lemma rd_len {A} (l : list A) off len r : rd l off len = Ok r -> zlen r = len.
Proof. intros H. apply rd_inv in H. tauto. Qed.
Lemma not_faulty S0 pk sid msgno from to ts body m f window last now why : zlen sid = 32 -> is_byte msgno -> is_byte from -> is_byte to -> 111 + zlen body < 2 ^ 32 ->
  signed S0 pk sid msgno from to ts body m -> fresh window last ts now -> fields_ok f -> m = encode f ->
  ~ fault S0 f (111 + zlen body) msgno from to pk sid window last now why.
Proof.
  intros Hs B1 B2 B3 Hl (sg & Z1 & U & E & V) Fr Fo Ef Q. pose proof (zlen_nonneg body).
  assert (Ff : f = mkFields sg msgno (111 + zlen body) from to ts sid body).
  { apply encode_inj; [exact Fo| |rewrite <- Ef; exact E]. unfold fields_ok. cbn. repeat split; try assumption; try (unfold is_byte, is_u64 in *; lia). }
  subst f. destruct why; cbn [fault f_sig f_msgno f_len f_from f_to f_ts f_sid f_body] in Q; try contradiction; apply Q; first [reflexivity|exact V].
Qed.
Lemma own_entry C e c input d ch : tp_wf c -> good_complaints (t_n c) (t_complaints c) -> 1 <= d <= t_n c -> answers_all C e c input d ->
  (forall b, 1 <= b <= t_n c -> In (b * 256 + d) (t_complaints c) -> reveal_accepted C e c input d /\ exists key sh row, answers c input d b key /\ share_kept C c d b /\
    opens C c d b key sh /\ s_index sh = b /\ getz (t_com c) (d - 1) = Ok row /\ matches (cR C) b row (s_value sh)) ->
  happened C e c input ch -> ch_step ch = 18 -> 0 <= ch_other ch < 256 -> blames ch = d ->
  unanswered c d ch \/ exists a row sh, ch = mkCheater 18 128 a d 0 /\ 1 <= a <= t_n c /\ complaint c d a /\ opened C e c input a d row sh /\ fits C a d row sh.
Proof.
  intros W (G1 & G2) Hd (An1 & An2 & An3) An H St Ot Bl. pose proof (w_n c W) as Hn. pose proof (w_sid c W) as Hsid.
  assert (Rg : forall a b, complaint c b a -> 0 <= a < 256 -> 1 <= b <= t_n c /\ 1 <= a <= t_n c).
  { intros a b I Ha. apply (proj1 (Forall_forall _ _) G1) in I. destruct (pair_parts b a ltac:(lia)) as (X1 & X2). unfold complaint_ok in I. rewrite X1, X2 in I. exact I. }
  assert (Full : forall b key, ReportSpec.revealed C e c input d b key -> exists sh row, share_kept C c d b /\ opens C c d b key sh /\ s_index sh = b /\ getz (t_com c) (d - 1) = Ok row /\ matches (cR C) b row (s_value sh)).
  { intros b key (_ & I & _ & Ak). destruct (Rg d b I ltac:(lia)) as (Rb & _). destruct (An b Rb I) as (_ & key' & sh & row & Q1 & Q2 & Q3 & Q4 & Q5 & Q6).
    rewrite (answers_fun _ _ _ _ _ _ Ak Q1). exists sh, row. auto. }
  assert (OpenF : forall b row sh, opened C e c input d b row sh -> s_index sh = b /\ matches (cR C) b row (s_value sh)).
  { intros b row sh (key & Rv & Op & Gr). destruct (Full _ _ Rv) as (sh' & row' & _ & Op' & I' & G' & M'). assert (row' = row) by congruence. subst row'.
    destruct Op as (ct & pt & O1 & O2 & O3 & ->). destruct Op' as (ct' & pt' & O1' & O2' & O3' & ->). assert (ct' = ct) by congruence. subst ct'. assert (pt' = pt) by congruence. subst pt'. auto. }
  destruct H; cbn [ch_step ch_other] in St, Ot; try discriminate St.
  - exfalso. subst step. cbn in H. lia.
  - assert (a = d); [|subst a]. { destruct (Z.eq_dec d a) as [|Ne]; [congruence|]. apply blames_18 in Bl; [|lia|exact Ne]. unfold refused in *. lia. }
    exfalso. destruct (Full _ _ H0) as (sh & row & (pk & m & ts & body & K1 & K2 & K3 & K4 & K5 & K6) & _). destruct H1 as (pk' & f & clk & J1 & J2 & J3 & J4).
    assert (pk' = pk) by congruence. subst pk'. change msg8_SIZE with 256 in K2. assert (Em : m = encode f) by congruence. pose proof (signed_zlen _ _ _ _ _ _ _ _ _ Hsid K3) as Zm. pose proof (rd_inv _ _ _ _ K2) as (_ & _ & _ & Zr).
    destruct H0 as (_ & I & _). destruct (Rg d b I ltac:(lia)) as (Rb & _). assert (Zb : zlen m = 256) by (apply rd_len in K2; exact K2).
    assert (Ts : f_ts f = ts). { destruct K3 as (sg & Z1 & U & E' & V). assert (Ff : f = mkFields sg 8 (111 + zlen body) d b ts (t_sid c) body).
      { apply encode_inj; [exact J2| |rewrite <- Em; exact E']. unfold fields_ok. cbn. pose proof (zlen_nonneg body). repeat split; try assumption; try (unfold is_byte, is_u64 in *; lia). } rewrite Ff. reflexivity. }
    rewrite Ts in J4. replace 256 with (111 + zlen body) in J4 by lia. revert J4. eapply not_faulty; try eassumption; try (unfold is_byte; lia).
    unfold fresh. rewrite (proj2 (Z.eqb_neq ts 0)) by lia. rewrite Z.mod_small by lia. lia.
  - assert (a = d); [|subst a]. { destruct (Z.eq_dec d a) as [|Ne]; [congruence|]. apply blames_18 in Bl; [|lia|exact Ne]. unfold refused in *. lia. }
    exfalso. destruct H1 as (pk & last & J1 & J2 & f & J3 & J4 & J5). unfold reveal_size in J4, J5. destruct (Z.eqb_spec (accusations d (t_complaints c)) 0) as [E0|Ne].
    + apply rd_len in J4. rewrite zlen_encode in J4 by exact J3. pose proof (zlen_nonneg (f_body f)). lia.
    + assert (Hp : 0 < accusations d (t_complaints c)) by (assert (0 <= accusations d (t_complaints c)) by apply zlen_nonneg; lia).
      destruct (An1 Hp) as (pk' & last' & K1 & K2 & m & ts & body & K3 & K4 & K5). assert (pk' = pk) by congruence. subst pk'. assert (last' = last) by congruence. subst last'.
      unfold reveal_size in K3. rewrite (proj2 (Z.eqb_neq _ _) Ne) in K3. assert (Em : m = encode f) by congruence. pose proof (signed_zlen _ _ _ _ _ _ _ _ _ Hsid K4) as Zm. pose proof (rd_len _ _ _ _ K3) as Zr.
      pose proof (accusations_bound (t_n c) d _ ltac:(lia) G1 G2) as Ab.
      replace (111 + 33 * accusations d (t_complaints c)) with (111 + zlen body) in J5 by lia. revert J5. eapply not_faulty; try eassumption; unfold is_byte; lia.
  - assert (a = d); [|subst a]. { destruct (Z.eq_dec d a) as [|Ne]; [congruence|]. apply blames_18 in Bl; [|lia|exact Ne]. lia. }
    exfalso. destruct (Full _ _ H) as (sh & row & _ & (ct & pt & O1 & O2 & _) & _). destruct H0 as (ct' & mac & J1 & J2 & J3). congruence.
  - assert (a = d); [|subst a]. { destruct (Z.eq_dec d a) as [|Ne]; [congruence|]. apply blames_18 in Bl; [|lia|exact Ne]. lia. }
    exfalso. destruct (Full _ _ H) as (sh & row & _ & (ct & pt & O1 & O2 & O3 & _) & _). destruct H0 as (ct' & J1 & J2 & J3). congruence.
  - assert (a = d); [|subst a]. { destruct (Z.eq_dec d a) as [|Ne]; [congruence|]. apply blames_18 in Bl; [|lia|exact Ne]. lia. }
    exfalso. destruct (OpenF _ _ _ H) as (Q & _). congruence.
  - assert (a = d); [|subst a]. { destruct (Z.eq_dec d a) as [|Ne]; [congruence|]. apply blames_18 in Bl; [|lia|exact Ne]. lia. }
    exfalso. pose proof H1 as (Nk & Nb). destruct (An2 _ Nk) as (b' & key & sh & row & Rb & Nb' & I & _). pose proof Nb' as (_ & Nb''). rewrite Nb in Nb''. injection Nb'' as Ez. apply zb_inj in Ez; [|lia|lia]. subst b'.
    destruct H2 as [Q|(k' & Lk & Q)]; [exact (Q I)|]. pose proof (An3 _ _ _ H1 Q). lia.
  - assert (b = d). { destruct (Z.eq_dec d b) as [|Ne]; [congruence|]. apply blames_18 in Bl; [|lia|exact Ne]. lia. }
    subst b. left. unfold unanswered. cbn [ch_step ch_error ch_peer ch_other]. auto.
  - assert (a = d); [|subst a]. { destruct (Z.eq_dec d a) as [|Ne]; [congruence|]. apply blames_18 in Bl; [|lia|exact Ne]. lia. }
    exfalso. destruct (OpenF _ _ _ H) as (_ & (Cs & M1 & M2 & _)). apply H1. destruct row as [|x row]; [exists []; split; [constructor|constructor]|]. 
    inversion M1; subst. cbn [tl] in *. eexists. split; [eassumption|exact M2].
  - right. exists a, row, sh. rewrite <- Bl. split; [reflexivity|]. pose proof H as (key & (Ra & I & _) & _). auto.
  - assert (a = d); [|subst a]. { destruct (Z.eq_dec d a) as [|Ne]; [congruence|]. apply blames_18 in Bl; [|lia|exact Ne]. lia. }
    exfalso. destruct (OpenF _ _ _ H) as (_ & Mt). apply H1. right. exact Mt.
Qed.

Section FAIR.
Variable C : crypto.
Hypothesis HC : crypto_ok C.
Notation peer := (peer C).
Notation N := (cN C).
Notation S := (cS C).
Let HN : noise_ok N := ok_cN C HC.
Let HS : sigs_ok S := ok_cS C HC.

(** ** The peer finds its number in the first message *)
Lemma numbered e c input out c' v : tp_step1 C e c input out = Ok (0, c', v) -> tp_wf c -> (forall i, is_u64 (e_s e i)) ->
  zlen v = t_n c * 111 /\ forall k, 0 <= k < t_n c -> exists m, rd v (k * 111) 111 = Ok m /\ getz m off_to = Ok (zb (k + 1)).
Proof.
  intros H W Hu. pose proof (w_n c W) as Hn. pose proof (w_sid c W) as Hsid. unfold tp_step1 in H. destruct (negb _); [discriminate|].
  destruct (Z.eqb_spec (zlen out) (t_n c * msg1_SIZE)) as [Zo|]; cbn [negb] in H; [|discriminate]. change msg1_SIZE with 111 in *. change hdr_SIZE with 111 in *.
  destruct (255 <=? t_n c); [discriminate|]. apply bind_ok in H. destruct H as (r & HL & H).
  set (P := fun (j : Z) (o : bytes) => zlen o = t_n c * 111 /\ forall k, 0 <= k < j - 1 -> exists m, rd o (k * 111) 111 = Ok m /\ getz m off_to = Ok (zb (k + 1))).
  assert (Q : match r with Next o => P (1 + t_n c) o | Return _ _ => False end).
  { pose proof (loopM_seq_inv (fun i out => do out <- send_msg S out ((i - 1) * 111) 111 1 0 i (t_sk c) (t_sid c) (e_s e i) ;; Ok (Next out)) P (fun _ _ => False) 1 (Z.to_nat (t_n c)) out r) as LL.
    rewrite Z2Nat.id in LL by lia. apply LL; [split; [exact Zo|intros; lia]| |exact HL].
    intros i o r1 Hi (Zi & Hk) E. apply bind_ok in E. destruct E as (o2 & Sn & E). injection E as <-.
    replace i with (i - 1 + 1) in Sn at 2 by lia.
    destruct (send_row C HC (t_sid c) Hsid o o 111 1 0 (i - 1) (t_sk c) (e_s e i) o2 None) as (A1 & A2 & body & m & A3 & A4); try (unfold is_byte; lia); try discriminate; try reflexivity; try assumption.
    { apply Hu. }
    split; [lia|]. intros k' Hk'. destruct (Z.eq_dec k' (i - 1)) as [->|Ne].
    - exists m. split; [exact A3|]. destruct A4 as (sg & Zs & _ & -> & _). unfold message, header.
      replace (sg ++ ([zb 1] ++ be_bytes 4 (111 + zlen body) ++ [zb 0] ++ [zb (i - 1 + 1)] ++ be_bytes 8 (e_s e i) ++ t_sid c) ++ body)
        with ((sg ++ [zb 1] ++ be_bytes 4 (111 + zlen body) ++ [zb 0]) ++ zb (i - 1 + 1) :: (be_bytes 8 (e_s e i) ++ t_sid c ++ body)) by (rewrite <- !app_assoc; reflexivity).
      apply getz_mid. rewrite !zlen_app, Zs. unfold zlen. rewrite be_bytes_length. reflexivity.
    - rewrite A2 by lia. apply Hk. lia. }
  destruct r as [o|]; [|destruct Q]. injection H as <- <-. destruct Q as (Q1 & Q2). split; [exact Q1|]. intros k Hk. apply Q2. lia.
Qed.

Lemma next6 e c input out ret c' out' : t_step c = 6 -> tp_next C e c input out = Ok (ret, c', out') -> exists c1, tp_step16 C e c input out = Ok (ret, c1, out') /\ c' = tp_step_set c1 (if zlen (t_complaints c1) =? 0 then 8 else 7) 6.
Proof.
  intros Hs H. rewrite tp_next_6 in H by exact Hs. apply bind_ok in H. destruct H as ([[r' c1] v'] & H & Eq). injection Eq as -> <- ->. exists c1. split; [exact H|].
  pose proof (ext_step16 C _ _ _ _ _ _ _ H) as X. rewrite (x_step _ _ X), Hs. destruct (_ =? 0); reflexivity.
Qed.
(** ** A whole session *)
Section SESSION.
Variables (c : tp) (calls : list tp_call) (before : list (Z * tp * bytes)) (last : Z * tp * bytes).
Variables (k : Z) (p : peer) (pcalls : list peer_call) (pouts : list (Z * peer * bytes)).
Notation outs := (before ++ [last]).
Hypothesis D : session C c calls before last.
Hypothesis A : alongside C c calls outs k p pcalls pouts.
Notation T := (state_at c outs).
Notation P := (state_at p pouts).

Lemma outs_len : length outs = length calls.
Proof. apply (tp_run_len C _ _ _ (se_run _ _ _ _ _ D)). Qed.
Lemma calls_len : length calls = Datatypes.S (length before).
Proof. rewrite <- outs_len, app_length. cbn. lia. Qed.
(** the trusted party's calls *)
Lemma call_at j : (j <= length before)%nat -> exists e i o r v, nth_error calls j = Some (e, i, o) /\ nth_error outs j = Some (r, T (Datatypes.S j), v) /\
  tp_next C e (T j) i o = Ok (r, T (Datatypes.S j), v) /\ ((j < length before)%nat -> r = 0).
Proof.
  intros Hj. assert (L : (j < length outs)%nat) by (rewrite app_length; cbn; lia). destruct (nth_error outs j) as [[[r c'] v]|] eqn:E; [|apply nth_error_None in E; lia].
  destruct (tp_call_at C _ _ _ _ _ _ _ (se_run _ _ _ _ _ D) E) as (e & i & o & B1 & B2). exists e, i, o, r, v.
  assert (ET : T (Datatypes.S j) = c') by (cbn [state_at]; rewrite E; reflexivity). rewrite ET. split; [exact B1|]. split; [reflexivity|]. split; [exact B2|].
  intros Hb. rewrite nth_error_app1 in E by exact Hb. apply nth_error_In in E. exact (proj1 (Forall_forall _ _) (se_ok _ _ _ _ _ D) _ E).
Qed.
Lemma pcall_at s : (s < length pouts)%nat -> exists e i o w, nth_error pcalls s = Some (e, i, o) /\ nth_error pouts s = Some (0, P (Datatypes.S s), w) /\
  peer_next C e (P s) i o = Ok (0, P (Datatypes.S s), w).
Proof.
  intros L. destruct (nth_error pouts s) as [[[r c'] v]|] eqn:E; [|apply nth_error_None in E; lia].
  destruct (peer_call_at C _ _ _ _ _ _ _ (al_run _ _ _ _ _ _ _ _ A) E) as (e & i & o & B1 & B2).
  assert (ET : P (Datatypes.S s) = c') by (cbn [state_at]; rewrite E; reflexivity). pose proof (proj1 (Forall_forall _ _) (al_ok _ _ _ _ _ _ _ _ A) _ (nth_error_In _ _ E)) as Q. cbn in Q. subst r.
  exists e, i, o, v. rewrite ET. auto.
Qed.
(** what is known throughout *)
Lemma tbase j : (j <= length before)%nat -> tp_wf (T j) /\ t_n (T j) = t_n c /\ t_t (T j) = t_t c /\ t_sid (T j) = t_sid c /\ t_eps (T j) = t_eps c /\
  ((j <= 6)%nat -> t_step (T j) = Z.of_nat j /\ ((0 < j)%nat -> t_prev (T j) = Z.of_nat j - 1)).
Proof.
  induction j as [|j IH]; intros Hj.
  - cbn [state_at]. split; [apply (se_wf _ _ _ _ _ D)|]. repeat (split; [reflexivity|]). intros _. split; [apply (se_step _ _ _ _ _ D)|lia].
  - destruct (IH ltac:(lia)) as (W & I1 & I2 & I3 & I4 & I5). destruct (call_at j ltac:(lia)) as (e & i & o & r & v & _ & _ & H & R). specialize (R ltac:(lia)). subst r.
    split; [exact (tp_wf_step C _ _ _ _ _ _ _ W H)|]. pose proof H as M. apply tp_next_moves in M. destruct M as [(_ & Q & _)|(_ & c1 & X & M)]; [discriminate|].
    assert (K : t_n (T (Datatypes.S j)) = t_n c1 /\ t_t (T (Datatypes.S j)) = t_t c1 /\ t_sid (T (Datatypes.S j)) = t_sid c1 /\ t_eps (T (Datatypes.S j)) = t_eps c1).
    { destruct M as [(_ & ->)|[(_ & _ & ->)|(_ & _ & [ -> |(_ & _ & ->)])]]; repeat split; reflexivity. }
    destruct K as (-> & -> & -> & ->). rewrite (x_n _ _ X), (x_t _ _ X), (x_sid _ _ X), (x_eps _ _ X). repeat (split; [assumption|]).
    intros Hs. destruct (I5 ltac:(lia)) as (I6 & _). destruct (next_tp C _ _ _ _ _ _ H ltac:(lia)) as (J1 & J2). split; [lia|]. intros _. lia.
Qed.
Lemma pbase s : (s <= length pouts)%nat -> pinv C (P s) /\ p_n C (P s) = t_n c /\ p_t C (P s) = t_t c /\ p_sid C (P s) = t_sid c /\ ((s <= 6)%nat -> p_step C (P s) = Z.of_nat s).
Proof.
  induction s as [|s IH]; intros Hs.
  - cbn [state_at]. split; [apply (fresh_inv C); apply (al_fresh _ _ _ _ _ _ _ _ A)|]. split; [apply (al_n _ _ _ _ _ _ _ _ A)|]. split; [apply (al_t _ _ _ _ _ _ _ _ A)|]. split; [apply (al_sid _ _ _ _ _ _ _ _ A)|].
    intros _. apply (proj1 (proj2 (al_fresh _ _ _ _ _ _ _ _ A))).
  - destruct (IH ltac:(lia)) as (W & I1 & I2 & I3 & I4). destruct (pcall_at s ltac:(lia)) as (e & i & o & w & _ & _ & H).
    split; [exact (pinv_next C HN _ _ _ _ _ _ _ W H)|]. destruct (peer_nt_step C _ _ _ _ _ _ _ H) as (-> & ->). split; [exact I1|]. split; [exact I2|]. split.
    + pose proof H as M. apply peer_next_moves in M. destruct M as [(_ & Q & _)|(_ & c1 & X & M)]; [discriminate|].
      destruct M as [(Q & _)|[(_ & _ & ->)|[(_ & _ & _ & ->)|[(_ & _ & ->)|(_ & _ & _ & -> & _)]]]]; [lia| | | |]; cbn [p_sid peer_step_set peer_share_set]; rewrite (y_sid C _ _ X); exact I3.
    + intros H6. specialize (I4 ltac:(lia)). pose proof (next_step C e (P s) i o _ w ltac:(lia) H). lia.
Qed.
(** from its second call on the peer keeps its number and its key *)
Lemma pframe s : (2 <= s <= 8)%nat -> (s <= length pouts)%nat -> p_index C (P s) = p_index C (P 1) /\ p_sk C (P s) = p_sk C (P 1).
Proof.
  induction s as [|s IH]; intros Hs Hl; [lia|]. destruct (pcall_at s ltac:(lia)) as (e & i & o & w & _ & _ & H). destruct (pbase s ltac:(lia)) as (W & _ & _ & _ & I4).
  assert (St : p_step C (P s) <> 0).
  { destruct (Nat.le_gt_cases s 6) as [Q|Q]; [rewrite I4 by exact Q; lia|]. assert (s = 7)%nat by lia. subst s.
    destruct (pbase 6 ltac:(lia)) as (_ & _ & _ & _ & S6). specialize (S6 ltac:(lia)). destruct (pcall_at 6 ltac:(lia)) as (e6 & i6 & o6 & w6 & _ & _ & H6).
    apply peer_next_moves in H6. destruct H6 as [(_ & Q6 & _)|(_ & c1 & X & M)]; [discriminate|].
    destruct M as [(Q6 & _)|[(_ & _ & E)|[(_ & _ & _ & E)|[(_ & _ & E)|(_ & Q6 & _)]]]]; [lia| | | |lia]; rewrite E; cbn [p_step peer_step_set]; lia. }
  assert (K : p_index C (P (Datatypes.S s)) = p_index C (P s) /\ p_sk C (P (Datatypes.S s)) = p_sk C (P s)).
  { pose proof H as M. apply peer_next_moves in M. destruct M as [(_ & Q & _)|(_ & c1 & X & M)]; [discriminate|].
    destruct M as [(Q & _)|[(_ & _ & ->)|[(_ & _ & _ & ->)|[(_ & _ & ->)|(_ & _ & _ & -> & _)]]]]; [lia| | | |]; cbn [p_index p_sk peer_step_set peer_share_set]; rewrite (y_index C _ _ X), (y_sk C _ _ X) by exact St; auto. }
  destruct K as (-> & ->). destruct (Nat.eq_dec s 1) as [->|Ne]; [auto|]. apply IH; lia.
Qed.
(** what reaches the trusted party *)
Lemma arrive j e i o : (0 < j <= length before)%nat -> nth_error calls j = Some (e, i, o) -> (read_in j < length pouts)%nat /\ exists w one sizes size,
  nth_error pouts (read_in j) = Some (0, P (Datatypes.S (read_in j)), w) /\ tp_input_sizes (T j) = Ok (one, sizes) /\ getz sizes k = Ok size /\
  rd i (fold_right Z.add 0 (firstn (Z.to_nat k) sizes)) size = Ok w.
Proof.
  intros Hj Hc. destruct (al_arrives _ _ _ _ _ _ _ _ A j) as (c' & out' & e' & input & out & p' & w & one & sizes & size & B1 & B2 & B3 & B4 & B5 & B6); [rewrite calls_len; lia|].
  rewrite Hc in B2. injection B2 as <- <- <-. split; [apply nth_error_Some; congruence|]. exists w, one, sizes, size.
  assert (ET : T j = c') by (destruct j as [|j]; [lia|]; cbn [state_at]; cbn [pred] in B1; rewrite B1; reflexivity).
  assert (EP : P (Datatypes.S (read_in j)) = p') by (cbn [state_at]; rewrite B3; reflexivity). rewrite ET, EP. auto.
Qed.
(** parts of equal size *)
Lemma equal_parts item sizes n size : sizes = repeat item (Z.to_nat n) -> 0 <= k < n -> getz sizes k = Ok size -> size = item /\ fold_right Z.add 0 (firstn (Z.to_nat k) sizes) = k * item.
Proof.
  intros -> Hk G. split.
  - apply getz_In in G. apply repeat_spec in G. exact G.
  - assert (Q : forall a b, (a <= b)%nat -> fold_right Z.add 0 (firstn a (repeat item b)) = Z.of_nat a * item).
    { clear. induction a as [|a IH]; intros [|b] H; try (cbn; lia). cbn [repeat firstn fold_right]. rewrite IH by lia. lia. }
    rewrite Q by lia. rewrite Z2Nat.id by lia. reflexivity.
Qed.
Lemma arrive_part j e i o item one : (0 < j <= length before)%nat -> nth_error calls j = Some (e, i, o) -> tp_input_sizes (T j) = Ok (one, repeat item (Z.to_nat (t_n (T j)))) ->
  (read_in j < length pouts)%nat /\ exists w, nth_error pouts (read_in j) = Some (0, P (Datatypes.S (read_in j)), w) /\ rd i (k * item) item = Ok w.
Proof.
  intros Hj Hc Es. destruct (arrive j e i o Hj Hc) as (L & w & one' & sizes' & size & B1 & B2 & B3 & B4). split; [exact L|]. exists w. split; [exact B1|].
  rewrite Es in B2. injection B2 as _ <-. destruct (tbase j ltac:(lia)) as (_ & En & _). pose proof (al_k _ _ _ _ _ _ _ _ A) as Hk.
  destruct (equal_parts item _ (t_n (T j)) size eq_refl ltac:(lia) B3) as (-> & E). rewrite E in B4. exact B4.
Qed.
Lemma gets_at s : (s <= 6)%nat -> (s < length pouts)%nat -> exists e i o off len v, nth_error pcalls s = Some (e, i, o) /\ nth_error outs s = Some (0, T (Datatypes.S s), v) /\
  tp_peer_msg (T (Datatypes.S s)) (zlen v) k = (0, Some (off, len)) /\ rd v off len = Ok i.
Proof.
  intros H6 Hs. rewrite (peer_run_len C _ _ _ (al_run _ _ _ _ _ _ _ _ A)) in Hs. destruct (al_gets _ _ _ _ _ _ _ _ A s H6 Hs) as (c' & v & off & len & e & i & o & B1 & B2 & B3 & B4).
  assert (ET : T (Datatypes.S s) = c') by (cbn [state_at]; rewrite B1; reflexivity). rewrite ET. eauto 12.
Qed.
Lemma my_number : (1 <= length before)%nat -> (1 <= length pouts)%nat -> p_index C (P 1) = k + 1.
Proof.
  intros Hb Hp. destruct (call_at 0 ltac:(lia)) as (e & i & o & r & v & E1 & E2 & H & R). specialize (R ltac:(lia)). subst r.
  destruct (gets_at 0 ltac:(lia) ltac:(lia)) as (e' & i' & o' & off & len & v' & G1 & G2 & G3 & G4). rewrite E2 in G2. injection G2 as <-.
  destruct (tbase 0 ltac:(lia)) as (W & _ & _ & _ & _ & S0). destruct (S0 ltac:(lia)) as (S0' & _). destruct (tbase 1 ltac:(lia)) as (W1 & N1 & _ & _ & _ & S1). destruct (S1 ltac:(lia)) as (_ & Pv). specialize (Pv ltac:(lia)).
  rewrite tp_next_0 in H by exact S0'. apply finish_inv in H. destruct H as (c1 & H & _).
  assert (Hu : forall j, is_u64 (e_s e j)) by (intros j; eapply (se_clock _ _ _ _ _ D); eapply nth_error_In; exact E1).
  destruct (numbered e _ _ _ _ _ H W Hu) as (Zv & Q). pose proof (al_k _ _ _ _ _ _ _ _ A) as Hk. destruct (Q k Hk) as (m & Q1 & Q2).
  assert (Em : i' = m).
  { unfold tp_peer_msg in G3. rewrite Pv in G3. cbn [Z.of_nat Pos.of_succ_nat Z.sub Z.add Z.opp Z.pos_sub Pos.pred_double] in G3. destruct (_ <=? k); [discriminate|].
    change (Z.of_nat 1 - 1) with 0 in G3. cbv beta iota zeta in G3. destruct (_ <? _); [discriminate|]. injection G3 as <- <-. change msg1_SIZE with 111 in G4. congruence. }
  subst i'. destruct (pcall_at 0 ltac:(lia)) as (e2 & i2 & o2 & w & G1' & _ & HP). rewrite G1 in G1'. injection G1' as <- <- <-.
  rewrite (peer_next_0 C) in HP by (apply (proj1 (proj2 (al_fresh _ _ _ _ _ _ _ _ A)))). apply pfinish_inv in HP. destruct HP as (q & HP & ->). cbn [p_index peer_step_set].
  unfold peer_step23 in HP. rewrite Q2 in HP. cbn [bind] in HP. pose proof (w_n c (se_wf _ _ _ _ _ D)) as Hn. rewrite bz_zb_small in HP by lia.
  inv HP; try (recvs; match goal with Q : recv_msg _ _ _ _ _ _ _ _ _ _ _ _ = _ |- _ => apply recv_codes in Q end; lia). reflexivity.
Qed.

(** ** Time stamps and calls *)
Variable start : Z.
Hypothesis St1 : getz (t_last c) k = Ok start.
Hypothesis St2 : 0 < start.
Hypothesis St3 : paced (t_eps c) start (stamps (t_n c) 0 pcalls).
Notation L := (stamp_upto (t_n c) start pcalls).
Notation pk := (sig_pk S (p_sk C (P 1))).

Lemma fresh_in l x now : 0 < l -> l <= x <= l + t_eps c -> l + t_eps c < 2 ^ 64 -> fresh (t_eps c) l x now.
Proof. intros H0 H1 H2. pose proof (se_eps _ _ _ _ _ D). unfold fresh. rewrite (proj2 (Z.eqb_neq l 0)) by lia. rewrite Z.mod_small by lia. exact H1. Qed.
Lemma one_stamp s e i o : nth_error pcalls s = Some (e, i, o) -> In s [0; 3; 5; 7; 8]%nat -> (forall now, fresh (t_eps c) (L s) (pe_s e 0) now) /\ L (Datatypes.S s) = pe_s e 0.
Proof.
  intros Hs Hin. destruct (stamp_at _ _ _ _ _ _ _ _ St3 St2 Hs) as (B1 & B2 & B3). cbn zeta in *.
  assert (E : stamps_of (t_n c) s e = [pe_s e 0]) by (cbn in Hin; destruct Hin as [<-|[<-|[<-|[<-|[<-|[]]]]]]; reflexivity). rewrite E in B2, B3. split; [|exact B3].
  intros now. cbn in B2. apply fresh_in; lia.
Qed.
Lemma row_stamps s e i o : nth_error pcalls s = Some (e, i, o) -> In s [1; 2; 4]%nat ->
  (forall x, 0 <= x < t_n c -> (forall now, fresh (t_eps c) (before_nth (L s) (pe_s e) x) (pe_s e x) now) /\ 0 < pe_s e x /\ pe_s e x + t_eps c < 2 ^ 64) /\ L (Datatypes.S s) = pe_s e (t_n c - 1).
Proof.
  intros Hs Hin. destruct (stamp_at _ _ _ _ _ _ _ _ St3 St2 Hs) as (B1 & B2 & B3). cbn zeta in *. pose proof (al_k _ _ _ _ _ _ _ _ A) as Hk.
  assert (E : stamps_of (t_n c) s e = map (pe_s e) (zrange 0 (Z.to_nat (t_n c)))) by (cbn in Hin; destruct Hin as [<-|[<-|[<-|[]]]]; reflexivity). rewrite E in B2, B3.
  destruct (paced_row _ _ _ _ _ B2 B1) as (R1 & R2). rewrite Z2Nat.id in * by lia. split.
  - intros x Hx. specialize (R1 x ltac:(lia)). cbn zeta in R1. split; [intros now; unfold before_nth; apply fresh_in; lia|lia].
  - rewrite B3, R2. rewrite (proj2 (Z.eqb_neq (t_n c) 0)) by lia. f_equal.
Qed.
Lemma silent_stamp : (6 < length pouts)%nat -> L 7 = L 6.
Proof. intros H. destruct (pcall_at 6 H) as (e & i & o & w & E & _). destruct (stamp_at _ _ _ _ _ _ _ _ St3 St2 E) as (_ & _ & B3). exact B3. Qed.
Lemma clock_ok s e i o j : nth_error pcalls s = Some (e, i, o) -> is_u64 (pe_s e j).
Proof. intros H. eapply (al_clock _ _ _ _ _ _ _ _ A). eapply nth_error_In. exact H. Qed.

(** the peer's calls the trusted party has read from before call [j] *)
Definition upto (j : nat) : nat := if (j <=? 7)%nat then pred j else j.
Definition in_step (j : nat) : Prop := getz (t_last (T j)) k = Ok (L (upto j)) /\ getz (t_pks (T j)) k = Ok pk.
Definition fair_call (j : nat) : Prop := innocent k (T j) (T (Datatypes.S j)) /\ ((j < length before)%nat -> in_step (Datatypes.S j)).
Lemma fair_of j (r : Z) c1 st pv : T (Datatypes.S j) = tp_step_set c1 st pv -> innocent k (T j) c1 /\ (r = 0 -> kept k (L (upto (Datatypes.S j))) pk c1) -> ((j < length before)%nat -> r = 0) -> fair_call j.
Proof. intros E (Q1 & Q2) R. split; [rewrite E; exact Q1|]. intros Hj. unfold in_step. rewrite E. exact (Q2 (R Hj)). Qed.

Lemma call0 : (1 <= length before)%nat -> t_cheaters (T 1) = [] /\ getz (t_last (T 1)) k = Ok start.
Proof.
  intros Hb. destruct (call_at 0 ltac:(lia)) as (e & i & o & r & v & _ & _ & H & R). specialize (R ltac:(lia)). subst r.
  rewrite tp_next_0 in H by (apply (se_step _ _ _ _ _ D)). apply finish_inv in H. destruct H as (c1 & H & ->). assert (E : c1 = c) by (unfold tp_step1 in H; inv H; reflexivity). subst c1.
  cbn [t_cheaters t_last tp_step_set]. split; [apply (se_cheaters _ _ _ _ _ D)|exact St1].
Qed.
Lemma fair_1 : (1 <= length before)%nat -> fair_call 1.
Proof.
  intros Hb. destruct (call0 Hb) as (_ & Ls). destruct (call_at 1 ltac:(lia)) as (e & i & o & r & v & E1 & _ & H & R). destruct (tbase 1 ltac:(lia)) as (W & Tn & _ & Ts & Te & S1). destruct (S1 ltac:(lia)) as (S1' & _).
  destruct (arrive_part 1 e i o 239 1 ltac:(lia) E1) as (Lp & w & Ew & Ri); [unfold tp_input_sizes; rewrite S1'; reflexivity|]. cbn [read_in Nat.leb pred] in *.
  destruct (pcall_at 0 Lp) as (e' & i' & o' & w' & F1 & F2 & HP). rewrite Ew in F2. injection F2 as <-. pose proof (al_k _ _ _ _ _ _ _ _ A) as Hk. pose proof (w_n _ W) as Hn.
  pose proof (my_number ltac:(lia) ltac:(lia)) as Idx. destruct (one_stamp 0 _ _ _ F1 ltac:(cbn; auto)) as (Fr & Lx).
  change (P 0) with p in HP. rewrite (peer_next_0 C) in HP by (apply (proj1 (proj2 (al_fresh _ _ _ _ _ _ _ _ A)))). apply pfinish_inv in HP. destruct HP as (q & HP & Eq).
  assert (Sid : zlen (p_sid C p) = 32) by (rewrite (al_sid _ _ _ _ _ _ _ _ A); apply (w_sid c (se_wf _ _ _ _ _ D))).
  apply s23_out in HP; [|exact HC|exact Sid|apply (clock_ok _ _ _ _ _ F1)]. destruct HP as (_ & _ & _ & _ & _ & _ & Zw & Rw).
  assert (Ex : p_index C q = k + 1 /\ p_sk C q = p_sk C (P 1)) by (rewrite <- Idx, Eq; auto). destruct Ex as (Ex1 & Ex2). rewrite Ex1, Ex2, (al_sid _ _ _ _ _ _ _ _ A) in Rw. rewrite (al_sid _ _ _ _ _ _ _ _ A) in Sid.
  assert (Rm : rd i (k * 239) 175 = rd w 0 175) by (rewrite (rd_rd _ _ _ _ 0 175 Ri) by lia; f_equal; lia). rewrite Rw in Rm.
  rewrite tp_next_1 in H by exact S1'. apply finish_inv in H. destruct H as (c1 & H & Ec).
  eapply (fair_of 1 r c1); [exact Ec| |exact R]. cbn [upto Nat.leb pred]. rewrite Lx.
  eapply (fair4 C); [exact H|lia|lia| |].
  - eapply (part_mk S HS _ Sid _ _ _ _ _ _ _ _ [] (sig_pk S (p_sk C (P 1)))); [exact Rm|change (zlen []) with 0; lia|rewrite (pk_zlen S HS); reflexivity].
  - unfold good. rewrite Ts, Te. split; [exact Sid|]. split; [lia|]. split; [unfold is_byte; lia|]. split; [unfold is_byte; lia|]. split; [unfold is_byte; lia|]. split; [apply (clock_ok _ _ _ _ _ F1)|]. split; [exists start; split; [exact Ls|apply (Fr (e_r e k))]|].
    eexists _, _. split; [exact Rm|]. apply (signed_mk S HS). apply (clock_ok _ _ _ _ _ F1).
Qed.

(** what peer and trusted party share at call [j], which reads the peer's call [s] *)
Lemma at_peer s : (1 <= s <= 8)%nat -> (s <= length pouts)%nat -> (1 <= length before)%nat ->
  peer_wf C (P s) /\ p_index C (P s) = k + 1 /\ p_sk C (P s) = p_sk C (P 1) /\ p_n C (P s) = t_n c /\ p_t C (P s) = t_t c /\ p_sid C (P s) = t_sid c.
Proof.
  intros Hs Hl Hb. destruct (pbase s Hl) as (I & B1 & B2 & B3 & _). split; [apply (i_wf C _ I)|].
  pose proof (my_number Hb ltac:(lia)) as Idx. destruct (Nat.eq_dec s 1) as [->|Ne]; [auto 10|].
  destruct (pframe s ltac:(lia) Hl) as (F1 & F2). rewrite F1, F2. auto 10.
Qed.
Lemma row_at (sz : Z) (w i : bytes) x msgno s e' : 0 <= x < t_n c -> 111 <= sz -> rd i (k * (sz * t_n c)) (sz * t_n c) = Ok w -> p_index C (P s) = k + 1 -> p_sk C (P s) = p_sk C (P 1) -> p_sid C (P s) = t_sid c ->
  sent_to C (P s) sz msgno e' w x -> exists m body, rd i ((k * t_n c + x) * sz) sz = Ok m /\ signed S pk (t_sid c) msgno (k + 1) (x + 1) (pe_s e' x) body m.
Proof.
  intros Hx Hsz Ri B1 B2 B3 (body & m & Rm & Sg). rewrite B1, B2, B3 in Sg. exists m, body. split; [|exact Sg].
  rewrite (rd_rd _ _ _ _ (x * sz) sz Ri) in Rm by nia. rewrite <- Rm. f_equal. lia.
Qed.
Lemma fair_23 j : (j = 2 \/ j = 3)%nat -> (j <= length before)%nat -> in_step j -> fair_call j.
Proof.
  intros Hj Hb (I1 & I2). destruct (call_at j ltac:(lia)) as (e & i & o & r & v & E1 & _ & H & R). destruct (tbase j ltac:(lia)) as (W & Tn & _ & Ts & Te & S1). destruct (S1 ltac:(lia)) as (S1' & _).
  destruct (arrive_part j e i o (159 * t_n c) 1 ltac:(lia) E1) as (Lp & w & Ew & Ri).
  { unfold tp_input_sizes. rewrite S1', Tn. destruct Hj as [ -> | -> ]; reflexivity. }
  assert (Er : read_in j = pred j) by (destruct Hj as [ -> | -> ]; reflexivity). rewrite Er in *.
  destruct (pcall_at (pred j) Lp) as (e' & i' & o' & w' & F1 & F2 & HP). rewrite Ew in F2. injection F2 as <-. pose proof (al_k _ _ _ _ _ _ _ _ A) as Hk. pose proof (w_n _ W) as Hn.
  destruct (at_peer (pred j) ltac:(lia) ltac:(lia) ltac:(lia)) as (PW & B1 & B2 & B3 & B4 & B5). destruct (pbase (pred j) ltac:(lia)) as (_ & _ & _ & _ & Ps). specialize (Ps ltac:(lia)).
  destruct (row_stamps (pred j) _ _ _ F1 ltac:(destruct Hj as [ -> | -> ]; cbn; auto)) as (Fr & Lx). replace (Datatypes.S (pred j)) with j in * by lia.
  assert (Hix : is_byte (p_index C (P (pred j)))) by (unfold is_byte; lia).
  assert (Snd : forall x, 0 <= x < t_n c -> sent_to C (P (pred j)) 159 (2 + t_step (T j)) e' w x).
  { destruct Hj as [ -> | -> ]; cbn [pred] in *; rewrite S1'.
    - rewrite (peer_next_1 C) in HP by exact Ps. apply pfinish_inv in HP. destruct HP as (q & HP & _). apply (s5_sent C HC) in HP; [|exact PW|intros; apply (clock_ok _ _ _ _ _ F1)|exact Hix]. rewrite B3 in HP. apply HP.
    - rewrite (peer_next_2 C) in HP by exact Ps. apply pfinish_inv in HP. destruct HP as (q & HP & _). apply (s7_sent C HC) in HP; [|exact PW|intros; apply (clock_ok _ _ _ _ _ F1)|exact Hix]. rewrite B3 in HP. apply HP. }
  assert (Hn68 : tp_next C e (T j) i o = tp_finish_step (tp_step68 C e (T j) i o)) by (destruct Hj as [ -> | -> ]; [apply tp_next_2|apply tp_next_3]; exact S1').
  rewrite Hn68 in H. apply finish_inv in H. destruct H as (c1 & H & Ec).
  assert (Eu : upto (Datatypes.S j) = j /\ upto j = pred j) by (destruct Hj as [ -> | -> ]; split; reflexivity). destruct Eu as (Eu & Eu'). rewrite Eu' in I1. eapply (fair_of j r c1); [exact Ec| |exact R]. rewrite Eu. rewrite Lx, <- Tn.
  eapply (fair68 C); [exact H|lia|lia|lia|exact I2|]. unfold good_row. rewrite Ts, Te, Tn. split; [apply (w_sid c (se_wf _ _ _ _ _ D))|]. split; [lia|]. split; [unfold is_byte; lia|]. split; [exact I1|].
  intros x Hx. split; [apply (clock_ok _ _ _ _ _ F1)|]. destruct (Fr x Hx) as (Fr1 & _). split; [exact Fr1|]. eapply row_at; [exact Hx|lia|exact Ri|exact B1|exact B2|exact B5|]. apply Snd. exact Hx.
Qed.
Lemma fair_5 : (5 <= length before)%nat -> in_step 5 -> fair_call 5.
Proof.
  intros Hb (I1 & I2). destruct (call_at 5 ltac:(lia)) as (e & i & o & r & v & E1 & _ & H & R). destruct (tbase 5 ltac:(lia)) as (W & Tn & _ & Ts & Te & S1). destruct (S1 ltac:(lia)) as (S1' & _).
  destruct (arrive_part 5 e i o (t_n c * 256) 1 ltac:(lia) E1) as (Lp & w & Ew & Ri).
  { unfold tp_input_sizes. rewrite S1', Tn. reflexivity. }
  cbn [read_in Nat.leb pred] in *.
  destruct (pcall_at 4 Lp) as (e' & i' & o' & w' & F1 & F2 & HP). rewrite Ew in F2. injection F2 as <-. pose proof (al_k _ _ _ _ _ _ _ _ A) as Hk. pose proof (w_n _ W) as Hn.
  destruct (at_peer 4 ltac:(lia) ltac:(lia) ltac:(lia)) as (PW & B1 & B2 & B3 & B4 & B5). destruct (pbase 4 ltac:(lia)) as (PI & _ & _ & _ & Ps). specialize (Ps ltac:(lia)).
  destruct (row_stamps 4 _ _ _ F1 ltac:(cbn; auto)) as (Fr & Lx).
  rewrite (peer_next_4 C) in HP by exact Ps. apply pfinish_inv in HP. destruct HP as (q & HP & _).
  pose proof (s13_sent C HC e' (P 4) i' o' q w (v_outs C _ PW) (i_fin C _ PI Ps) (v_sid C _ PW) (fun j => clock_ok _ _ _ _ j F1) HP) as Snd. rewrite B3 in Snd.
  rewrite tp_next_5 in H by exact S1'. apply finish_inv in H. destruct H as (c1 & H & Ec).
  eapply (fair_of 5 r c1); [exact Ec| |exact R]. cbn [upto Nat.leb pred]. rewrite Lx, <- Tn.
  eapply (fair14 C); [exact H|lia|lia|exact I2|]. unfold good_row. rewrite Ts, Te, Tn. split; [apply (w_sid c (se_wf _ _ _ _ _ D))|]. split; [lia|]. split; [unfold is_byte; lia|]. split; [exact I1|].
  intros x Hx. split; [apply (clock_ok _ _ _ _ _ F1)|]. destruct (Fr x Hx) as (Fr1 & _). split; [exact Fr1|]. rewrite (Z.mul_comm (t_n c) 256) in Ri. eapply row_at; [exact Hx|lia|exact Ri|exact B1|exact B2|exact B5|]. apply Snd. exact Hx.
Qed.
Lemma good_one j s e i o i' o' e' off len msgno to w body : in_step j -> t_sid (T j) = t_sid c -> t_eps (T j) = t_eps c -> L (upto j) = L s -> In s [0; 3; 5; 7; 8]%nat -> nth_error pcalls s = Some (e', i', o') ->
  nth_error calls j = Some (e, i, o) -> len < 2 ^ 32 -> is_byte msgno -> is_byte to -> is_byte (k + 1) -> rd i off len = Ok w -> signed S pk (t_sid c) msgno (k + 1) to (pe_s e' 0) body w ->
  good C k (T j) i off len msgno to pk (pe_s e' 0) (e_r e k).
Proof.
  intros (I1 & I2) Ts Te Ls Hs F1 E1 Hl B1 B2 B3 Rw Sg. destruct (one_stamp s _ _ _ F1 Hs) as (Fr & _).
  unfold good. rewrite Ts, Te. split; [apply (w_sid c (se_wf _ _ _ _ _ D))|]. split; [lia|]. split; [exact B1|]. split; [exact B3|]. split; [exact B2|]. split; [apply (clock_ok _ _ _ _ _ F1)|].
  split; [exists (L (upto j)); split; [exact I1|rewrite Ls; apply Fr]|]. exists w, body. auto.
Qed.
Lemma fair_4 : (4 <= length before)%nat -> in_step 4 -> fair_call 4.
Proof.
  intros Hb I. destruct (call_at 4 ltac:(lia)) as (e & i & o & r & v & E1 & _ & H & R). destruct (tbase 4 ltac:(lia)) as (W & Tn & Tt & Ts & Te & S1). destruct (S1 ltac:(lia)) as (S1' & _).
  destruct (arrive_part 4 e i o (msg6_SIZE (t_t (T 4))) 1 ltac:(lia) E1) as (Lp & w & Ew & Ri); [unfold tp_input_sizes; rewrite S1'; reflexivity|].
  cbn [read_in Nat.leb pred] in *.
  destruct (pcall_at 3 Lp) as (e' & i' & o' & w' & F1 & F2 & HP). rewrite Ew in F2. injection F2 as <-. pose proof (al_k _ _ _ _ _ _ _ _ A) as Hk. pose proof (w_n _ W) as Hn. pose proof (w_t _ W) as Ht.
  destruct (at_peer 3 ltac:(lia) ltac:(lia) ltac:(lia)) as (PW & B1 & B2 & B3 & B4 & B5). destruct (pbase 3 ltac:(lia)) as (PI & _ & _ & _ & Ps). specialize (Ps ltac:(lia)).
  destruct (one_stamp 3 _ _ _ F1 ltac:(cbn; auto)) as (Fr & Lx).
  rewrite (peer_next_3 C) in HP by exact Ps. apply pfinish_inv in HP. destruct HP as (q & HP & _).
  apply (s911_sent C HC) in HP; [|exact PW|lia|apply (clock_ok _ _ _ _ _ F1)|unfold is_byte; lia]. destruct HP as (Zw & body & Sg). rewrite B1, B2, B5 in Sg.
  rewrite tp_next_4 in H by exact S1'. apply finish_inv in H. destruct H as (c1 & H & Ec).
  eapply (fair_of 4 r c1); [exact Ec| |exact R]. cbn [upto Nat.leb pred]. rewrite Lx.
  eapply (fair12 C); [exact H|lia|lia|apply I|]. eapply (good_one 4 3); try eassumption; try reflexivity; try (unfold is_byte; lia); [cbn; auto|unfold msg6_SIZE, hdr_SIZE; lia].
Qed.
Lemma fair_6 : (6 <= length before)%nat -> in_step 6 -> fair_call 6.
Proof.
  intros Hb I. destruct (call_at 6 ltac:(lia)) as (e & i & o & r & v & E1 & _ & H & R). destruct (tbase 6 ltac:(lia)) as (W & Tn & Tt & Ts & Te & S1). destruct (S1 ltac:(lia)) as (S1' & _).
  destruct (arrive_part 6 e i o (msg9_SIZE (t_n (T 6))) 1 ltac:(lia) E1) as (Lp & w & Ew & Ri); [unfold tp_input_sizes; rewrite S1'; reflexivity|].
  rewrite msg9_val in Ri. cbn [read_in Nat.leb pred] in *.
  destruct (pcall_at 5 Lp) as (e' & i' & o' & w' & F1 & F2 & HP). rewrite Ew in F2. injection F2 as <-. pose proof (al_k _ _ _ _ _ _ _ _ A) as Hk. pose proof (w_n _ W) as Hn. pose proof (w_t _ W) as Ht.
  destruct (at_peer 5 ltac:(lia) ltac:(lia) ltac:(lia)) as (PW & B1 & B2 & B3 & B4 & B5). destruct (pbase 5 ltac:(lia)) as (PI & _ & _ & _ & Ps). specialize (Ps ltac:(lia)).
  destruct (one_stamp 5 _ _ _ F1 ltac:(cbn; auto)) as (Fr & Lx).
  rewrite (peer_next_5 C) in HP by exact Ps. apply pfinish_inv in HP. destruct HP as (q & HP & _).
  apply (s15_sent C HC) in HP; [|exact PW|exact Ps|lia|apply (clock_ok _ _ _ _ _ F1)]. destruct HP as (Zw & (body & Sg) & nm & N1 & N2 & N3 & N4 & N5). rewrite B1, B2, B5 in Sg. rewrite B3, <- Tn in N1, N4, Zw.
  apply next6 in H; [|exact S1']. destruct H as (c1 & H & Ec).
  eapply (fair_of 6 r c1); [exact Ec| |exact R]. cbn [upto Nat.leb pred]. rewrite Lx.
  eapply (fair16 C); [exact H|lia|lia|apply I| |exact N3|exact N4|exact N1| |].
  - eapply (good_one 6 5); try eassumption; try reflexivity; try (unfold is_byte; lia). cbn; auto 6.
  - destruct (getz_of_rd _ _ _ _ 111 _ Ri N2) as (_ & Q). exact Q.
  - rewrite (rd_rd _ _ _ _ 112 (zlen nm) Ri) in N5 by (pose proof (zlen_nonneg nm); lia). exact N5.
Qed.

(** ** What everyone hears *)
Lemma heard_all j e i o w : In j [1; 4; 6]%nat -> (j < length before)%nat -> (j < length pouts)%nat -> nth_error pcalls j = Some (e, i, o) -> nth_error outs j = Some (0, T (Datatypes.S j), w) -> i = w.
Proof.
  intros Hj Hb Hp E1 E2. destruct (gets_at j ltac:(cbn in Hj; lia) Hp) as (e' & i' & o' & off & len & v & G1 & G2 & G3 & G4). rewrite E1 in G1. injection G1 as <- <- <-. rewrite E2 in G2. injection G2 as <-.
  destruct (call_at j ltac:(lia)) as (f & inp & out & r & v & _ & E3 & H & R). rewrite E2 in E3. injection E3 as <- <-.
  destruct (tbase j ltac:(lia)) as (W & Tn & Tt & _ & _ & S1). destruct (S1 ltac:(cbn in Hj; lia)) as (S1' & _).
  destruct (tbase (Datatypes.S j) ltac:(lia)) as (_ & Tn' & Tt' & _). rewrite <- Tn in Tn'. rewrite <- Tt in Tt'.
  cbn in Hj. destruct Hj as [<-|[<-|[<-|[]]]].
  - destruct (tbase 2 ltac:(lia)) as (_ & _ & _ & _ & _ & S2). destruct (S2 ltac:(lia)) as (_ & Pv). specialize (Pv ltac:(lia)). change (Z.of_nat 2 - 1) with 1 in Pv.
    rewrite tp_next_1 in H by exact S1'. apply finish_inv in H. destruct H as (c1 & H & _). apply out4 in H.
    unfold tp_peer_msg in G3. rewrite Pv in G3. cbv beta iota zeta in G3. destruct (_ <=? k); [discriminate|]. destruct (_ <? _); [discriminate|]. assert (Eo : off = 0) by congruence. assert (El : len = zlen w) by congruence. subst off. eapply broadcast_all; [exact G4|exact El].
  - destruct (tbase 5 ltac:(lia)) as (_ & _ & _ & _ & _ & S2). destruct (S2 ltac:(lia)) as (_ & Pv). specialize (Pv ltac:(lia)). change (Z.of_nat 5 - 1) with 4 in Pv.
    rewrite tp_next_4 in H by exact S1'. apply finish_inv in H. destruct H as (c1 & H & _). apply out12 in H.
    unfold tp_peer_msg in G3. rewrite Pv in G3. cbv beta iota zeta in G3. destruct (_ <=? k); [discriminate|]. destruct (_ <? _); [discriminate|]. assert (Eo : off = 0) by congruence. assert (El : len = zlen w) by congruence. subst off. eapply broadcast_all; [exact G4|exact El].
  - apply next6 in H; [|exact S1']. destruct H as (c1 & H & Ec). apply out16 in H. assert (Pv : t_prev (T 7) = 6) by (rewrite Ec; reflexivity).
    unfold tp_peer_msg in G3. rewrite Pv in G3. cbv beta iota zeta in G3. destruct (_ <=? k); [discriminate|]. destruct (_ <? _); [discriminate|]. assert (Eo : off = 0) by congruence. assert (El : len = zlen w) by congruence. subst off. eapply broadcast_all; [exact G4|exact El].
Qed.
Lemma transcripts j : (j <= 7)%nat -> (j <= length before)%nat -> (j <= length pouts)%nat -> p_transcript C (P j) = t_transcript (T j).
Proof.
  induction j as [|j IH]; intros H7 Hb Hp; [apply (al_transcript _ _ _ _ _ _ _ _ A)|]. specialize (IH ltac:(lia) ltac:(lia) ltac:(lia)).
  destruct (call_at j ltac:(lia)) as (f & inp & out & r & v & _ & E2 & H & R). specialize (R ltac:(lia)). subst r. destruct (pcall_at j ltac:(lia)) as (e & i & o & w & F1 & _ & HP).
  destruct (tbase j ltac:(lia)) as (_ & _ & _ & _ & _ & S1). destruct (S1 ltac:(lia)) as (S1' & _). destruct (pbase j ltac:(lia)) as (_ & _ & _ & _ & Ps). specialize (Ps ltac:(lia)).
  apply tp_said_step in H. apply peer_heard_step in HP. destruct HP as (HP & _). rewrite H, HP, S1', Ps, IH.
  destruct (broadcast_step (Z.of_nat j)) eqn:B; [|reflexivity]. f_equal. apply (heard_all j e i o v); [|lia|lia|exact F1|exact E2].
  unfold broadcast_step in B. apply orb_prop in B. destruct B as [B|B]; [apply orb_prop in B; destruct B as [B|B]|]; apply Z.eqb_eq in B; cbn; lia.
Qed.
Lemma after6 : (7 <= length before)%nat -> (7 <= length pouts)%nat -> p_complaints C (P 7) = t_complaints (T 7) /\ p_step C (P 7) = t_step (T 7) /\
  t_step (T 7) = (if zlen (t_complaints (T 7)) =? 0 then 8 else 7).
Proof.
  intros Hb Hp. destruct (call_at 6 ltac:(lia)) as (f & inp & out & r & v & E1 & E2 & H & R). specialize (R ltac:(lia)). subst r. destruct (pcall_at 6 ltac:(lia)) as (e & i & o & w & F1 & _ & HP).
  destruct (tbase 6 ltac:(lia)) as (W & Tn & _ & _ & _ & S1). destruct (S1 ltac:(lia)) as (S1' & _). destruct (pbase 6 ltac:(lia)) as (PI & Pn & _ & _ & Ps). specialize (Ps ltac:(lia)).
  pose proof (heard_all 6 e i o v ltac:(cbn; auto) ltac:(lia) ltac:(lia) F1 E2) as Ei. subst i. change (Z.of_nat 6) with 6 in *.
  destruct (i_none C _ PI ltac:(lia)) as (C6 & M6).
  assert (Hu : is_u64 (e_s f 0)) by (eapply (se_clock _ _ _ _ _ D); eapply nth_error_In; exact E1).
  destruct (complaints_agree C f (T 6) inp out (T 7) v e (P 6) o (P 7) w HC W Hu S1' H Ps ltac:(congruence) C6 M6 HP) as (Y1 & _ & _ & Y4 & _).
  split; [exact Y1|]. split; [exact Y4|]. apply next6 in H; [|exact S1']. destruct H as (c1 & H & Ec). rewrite Ec. cbn [t_step t_complaints tp_step_set].
  reflexivity.
Qed.
Lemma fair_7 : (7 <= length before)%nat -> t_step (T 7) = 8 -> in_step 7 -> fair_call 7.
Proof.
  intros Hb S1' I. destruct (call_at 7 ltac:(lia)) as (e & i & o & r & v & E1 & _ & H & R). destruct (tbase 7 ltac:(lia)) as (W & Tn & Tt & Ts & Te & _).
  destruct (arrive_part 7 e i o 143 1 ltac:(lia) E1) as (Lp & w & Ew & Ri); [unfold tp_input_sizes; rewrite S1'; reflexivity|].
  cbn [read_in Nat.leb pred] in *.
  destruct (pcall_at 7 Lp) as (e' & i' & o' & w' & F1 & F2 & HP). rewrite Ew in F2. injection F2 as <-. pose proof (al_k _ _ _ _ _ _ _ _ A) as Hk. pose proof (w_n _ W) as Hn. pose proof (w_t _ W) as Ht.
  destruct (at_peer 7 ltac:(lia) ltac:(lia) ltac:(lia)) as (PW & B1 & B2 & B3 & B4 & B5). destruct (after6 Hb ltac:(lia)) as (_ & Ps & _). rewrite S1' in Ps.
  destruct (one_stamp 7 _ _ _ F1 ltac:(cbn; auto 6)) as (Fr & Lx).
  rewrite (peer_next_8 C) in HP by exact Ps. apply pfinish_inv in HP. destruct HP as (q & HP & _).
  apply (s19_sent C HC) in HP; [|exact PW|lia|apply (clock_ok _ _ _ _ _ F1)]. destruct HP as (Zw & (body & Sg) & Dg). rewrite B1, B2, B5 in Sg. rewrite (transcripts 7 ltac:(lia) Hb ltac:(lia)) in Dg.
  rewrite tp_next_8 in H by exact S1'. apply finish_inv in H. destruct H as (c1 & H & Ec).
  eapply (fair_of 7 r c1); [exact Ec| |exact R]. cbn [upto Nat.leb]. rewrite Lx.
  eapply (fair20 C); [exact H|lia|lia|apply I| |].
  - eapply (good_one 7 7); try eassumption; try reflexivity; try (unfold is_byte; lia); [cbn [upto Nat.leb pred]; symmetry; apply silent_stamp; lia|cbn; auto 6].
  - rewrite (rd_rd _ _ _ _ 111 32 Ri) in Dg by lia. exact Dg.
Qed.
Lemma after7 : (8 <= length before)%nat -> (8 <= length pouts)%nat -> t_step (T 7) = 8 /\ t_step (T 8) = 9 /\ p_step C (P 8) = 9.
Proof.
  intros Hb Hp. destruct (call_at 7 ltac:(lia)) as (e & i & o & r & v & E1 & _ & H & R). specialize (R ltac:(lia)). subst r. destruct (pcall_at 7 ltac:(lia)) as (e' & i' & o' & w & F1 & _ & HP).
  destruct (after6 ltac:(lia) ltac:(lia)) as (_ & Ps & S7).
  assert (S8 : t_step (T 7) = 8).
  { destruct (zlen (t_complaints (T 7)) =? 0); [exact S7|]. rewrite tp_next_7 in H by exact S7. apply finish_inv in H. destruct H as (c1 & H & _). apply step18_fails in H. congruence. }
  split; [exact S8|]. rewrite S8 in Ps. split.
  - rewrite tp_next_8 in H by exact S8. apply finish_inv in H. destruct H as (q & E & ->). pose proof (ext_step20 C _ _ _ _ _ _ _ E) as (y & X & [( -> & _)|(_ & X')]); [|discriminate]. cbn. rewrite (x_step _ _ X), S8. reflexivity.
  - rewrite (peer_next_8 C) in HP by exact Ps. apply pfinish_inv in HP. destruct HP as (q8 & Q & ->). apply pext_step19 in Q. subst q8. change (p_step C (P 7) + 1 = 9). rewrite Ps. reflexivity.
Qed.
Lemma fair_8 : (8 <= length before)%nat -> in_step 8 -> innocent k (T 8) (T 9).
Proof.
  intros Hb I. destruct (call_at 8 ltac:(lia)) as (e & i & o & r & v & E1 & _ & H & R). destruct (tbase 8 ltac:(lia)) as (W & Tn & Tt & Ts & Te & _).
  destruct (arrive 8 e i o ltac:(lia) E1) as (Lp & _). cbn [read_in Nat.leb pred] in Lp. destruct (after7 Hb ltac:(lia)) as (_ & S8 & Ps).
  destruct (arrive_part 8 e i o 113 1 ltac:(lia) E1) as (_ & w & Ew & Ri); [unfold tp_input_sizes; rewrite S8; reflexivity|].
  cbn [read_in Nat.leb pred] in *.
  destruct (pcall_at 8 Lp) as (e' & i' & o' & w' & F1 & F2 & HP). rewrite Ew in F2. injection F2 as <-. pose proof (al_k _ _ _ _ _ _ _ _ A) as Hk. pose proof (w_n _ W) as Hn. pose proof (w_t _ W) as Ht.
  destruct (at_peer 8 ltac:(lia) ltac:(lia) ltac:(lia)) as (PW & B1 & B2 & B3 & B4 & B5).
  apply ack_says_ok in HP; [|exact HC|apply (v_sid C _ PW)|apply (clock_ok _ _ _ _ _ F1)|lia|exact Ps]. destruct HP as (_ & Sg). rewrite B1, B2, B5 in Sg.
  rewrite tp_next_9 in H by exact S8. apply finish_inv in H. destruct H as (c1 & H & Ec). rewrite Ec. change (innocent k (T 8) c1).
  eapply (fair22 C); [exact H|lia|lia|apply I|]. eapply (good_one 8 8); try eassumption; try reflexivity; try (unfold is_byte; lia). cbn; auto 6.
Qed.
(** ** Complaints *)
Lemma com18 : (7 <= length before)%nat -> exists e i o w, nth_error pcalls 3 = Some (e, i, o) /\ nth_error pouts 3 = Some (0, P 4, w) /\
  getz (t_com (T 7)) k = Ok (commitments_of (cR C) (pe_a e)) /\ skipn 111 w = concat (commitments_of (cR C) (pe_a e)) /\
  Z.of_nat (length (pe_a e)) = p_t C p /\ Forall random_scalar (pe_a e).
Proof.
  intros Hb. destruct (call_at 4 ltac:(lia)) as (f & inp & out & r & v & E1 & _ & H & R). specialize (R ltac:(lia)). subst r.
  destruct (tbase 4 ltac:(lia)) as (W & Tn & Tt & Ts & Te & S1). destruct (S1 ltac:(lia)) as (S1' & _). change (Z.of_nat 4) with 4 in S1'.
  destruct (arrive_part 4 f inp out (msg6_SIZE (t_t (T 4))) 1 ltac:(lia) E1) as (Lp & w & Ew & Ri); [unfold tp_input_sizes; rewrite S1'; reflexivity|].
  cbn [read_in Nat.leb pred] in *.
  destruct (pcall_at 3 Lp) as (e & i & o & w' & F1 & F2 & HP). rewrite Ew in F2. injection F2 as <-. pose proof (al_k _ _ _ _ _ _ _ _ A) as Hk. pose proof (w_n _ W) as Hn. pose proof (w_t _ W) as Ht.
  destruct (at_peer 3 ltac:(lia) ltac:(lia) ltac:(lia)) as (PW & B1 & B2 & B3 & B4 & B5). destruct (pbase 3 ltac:(lia)) as (PI & _ & _ & _ & Ps). specialize (Ps ltac:(lia)).
  destruct (al_random _ _ _ _ _ _ _ _ A _ _ _ F1) as (Ra & Rs).
  exists e, i, o, w. split; [exact F1|]. split; [exact Ew|].
  rewrite (peer_next_3 C) in HP by exact Ps. apply pfinish_inv in HP. destruct HP as (q & HP & _).
  pose proof (al_t _ _ _ _ _ _ _ _ A) as Pt.
  destruct (s911_out C HC e (P 3) i o q w PW (clock_ok _ _ _ _ 0 F1) ltac:(congruence) Rs HP) as (_ & Cmt).
  assert (Row : getz (t_com (T 5)) k = Ok (commitments_of (cR C) (pe_a e))).
  { rewrite tp_next_4 in H by exact S1'. apply finish_inv in H. destruct H as (y & H & Ey).
    assert (Hu : is_u64 (e_s f 0)) by (eapply (se_clock _ _ _ _ _ D); eapply nth_error_In; exact E1).
    destruct (step12_content C f (T 4) inp out y v HC (w_sid _ W) Hu ltac:(lia) ltac:(lia) H) as (_ & _ & _ & _ & K12). destruct (K12 k ltac:(lia)) as (m' & data & pk' & D1 & D2 & D3 & _).
    rewrite Ey. cbn [t_com tp_step_set]. rewrite D3. f_equal. rewrite Ri in D1. injection D1 as <-.
    assert (Lc3 : zlen w = msg6_SIZE (t_t (T 4))) by (apply rd_len in Ri; exact Ri).
    assert (Ld : data = concat (commitments_of (cR C) (pe_a e))).
    { rewrite <- Cmt. rewrite rd_ok in D2; [|unfold hdr_SIZE; lia|lia|unfold msg6_SIZE in Lc3; unfold hdr_SIZE in *; lia]. match type of D2 with Ok ?x = _ => assert (Ed : data = x) by congruence end. rewrite Ed. change (Z.to_nat hdr_SIZE) with 111%nat. apply firstn_all2.
      unfold msg6_SIZE in Lc3. change hdr_SIZE with 111 in Lc3. rewrite skipn_length. unfold zlen in Lc3. lia. }
    rewrite Ld. apply rows_concat.
    - unfold commitments_of, zlen. rewrite map_length. congruence.
    - unfold commitments_of. apply Forall_forall. intros b Hb'. apply in_map_iff in Hb'. destruct Hb' as (y' & <- & _). unfold zlen. rewrite (ok_enc_len _ (ok_cR C HC)). reflexivity. }
  split; [|auto].
  destruct (call_at 5 ltac:(lia)) as (f5 & i5 & o5 & r5 & v5 & _ & _ & N5 & R5). specialize (R5 ltac:(lia)). subst r5. destruct (tbase 5 ltac:(lia)) as (_ & _ & _ & _ & _ & S5). destruct (S5 ltac:(lia)) as (S5' & _).
  destruct (call_at 6 ltac:(lia)) as (f6 & i6 & o6 & r6 & v6 & _ & _ & N6 & R6). specialize (R6 ltac:(lia)). subst r6. destruct (tbase 6 ltac:(lia)) as (_ & _ & _ & _ & _ & S6). destruct (S6 ltac:(lia)) as (S6' & _).
  rewrite (next_com C _ _ _ _ _ _ N6) by (rewrite S6'; cbn; auto). rewrite (next_com C _ _ _ _ _ _ N5) by (rewrite S5'; cbn; auto). exact Row.
Qed.
Lemma enc18 w : (7 <= length before)%nat -> nth_error pouts 4 = Some (0, P 5, w) -> rd (t_enc (T 7)) (share_off (t_n (T 7)) (k + 1) 1) (t_n (T 7) * msg8_SIZE) = Ok w.
Proof.
  intros Hb Ew. destruct (call_at 5 ltac:(lia)) as (f & inp & out & r & v & E1 & _ & H & R). specialize (R ltac:(lia)). subst r.
  destruct (tbase 5 ltac:(lia)) as (W & Tn & Tt & Ts & Te & S1). destruct (S1 ltac:(lia)) as (S1' & _). change (Z.of_nat 5) with 5 in S1'. pose proof (w_n _ W) as Hn. pose proof (al_k _ _ _ _ _ _ _ _ A) as Hk.
  destruct (arrive_part 5 f inp out (t_n (T 5) * msg8_SIZE) 1 ltac:(lia) E1) as (_ & w' & Ew' & Ri); [unfold tp_input_sizes; rewrite S1'; reflexivity|].
  cbn [read_in Nat.leb pred] in *. rewrite Ew in Ew'. injection Ew' as <-.
  rewrite tp_next_5 in H by exact S1'. apply finish_inv in H. destruct H as (y & H & Ey). destruct (step14_content C f (T 5) inp out y v ltac:(lia) H) as (_ & Zi & Wr & _).
  destruct (call_at 6 ltac:(lia)) as (f6 & i6 & o6 & r6 & v6 & _ & _ & N6 & R6). specialize (R6 ltac:(lia)). subst r6. destruct (tbase 6 ltac:(lia)) as (_ & _ & _ & _ & _ & S6). destruct (S6 ltac:(lia)) as (S6' & _).
  apply next6 in N6; [|exact S6']. destruct N6 as (z & N6 & Ez). apply enc16 in N6. destruct (tbase 7 ltac:(lia)) as (_ & Tn7 & _). rewrite Tn7, <- Tn.
  assert (Ee : t_enc (T 7) = t_enc y) by (rewrite Ez; cbn [t_enc tp_step_set]; rewrite N6, Ey; reflexivity). rewrite Ee.
  apply rd_wr_same in Wr. unfold share_off. change msg8_SIZE with 256 in *. rewrite <- Ri. replace ((k + 1 - 1) * t_n (T 5) + (1 - 1)) with (k * t_n (T 5)) by lia.
  rewrite (rd_rd _ _ _ _ (k * (t_n (T 5) * 256)) (t_n (T 5) * 256) Wr) by nia. f_equal; lia.
Qed.
Lemma good7 : (7 <= length before)%nat -> good_complaints (t_n (T 7)) (t_complaints (T 7)).
Proof.
  intros Hb. destruct (call_at 6 ltac:(lia)) as (f6 & i6 & o6 & r6 & v6 & _ & _ & N6 & R6). specialize (R6 ltac:(lia)). subst r6. destruct (tbase 6 ltac:(lia)) as (W & Tn & _ & _ & _ & S6). destruct (S6 ltac:(lia)) as (S6' & _).
  apply next6 in N6; [|exact S6']. destruct N6 as (z & N6 & Ez). destruct (tbase 7 ltac:(lia)) as (_ & Tn7 & _). rewrite Tn7, <- Tn, Ez. cbn [t_complaints tp_step_set].
  pose proof (w_n _ W). exact (proj1 (complaints_well_formed C f6 (T 6) i6 o6 0 z v6 ltac:(lia) N6 ltac:(lia) ltac:(lia))).
Qed.
Lemma sum_app l x : fold_right Z.add 0 (l ++ [x]) = fold_right Z.add 0 l + x.
Proof. induction l as [|y l IH]; cbn [app fold_right]; lia. Qed.
Lemma keys18 e i o w : (7 <= length before)%nat -> t_step (T 7) = 7 -> nth_error calls 7 = Some (e, i, o) -> nth_error pouts 7 = Some (0, P 8, w) ->
  rd i (reveal_off (t_complaints (T 7)) (k + 1)) (reveal_size (t_complaints (T 7)) (k + 1)) = Ok w.
Proof.
  intros Hb S7 E1 Ew. destruct (arrive 7 e i o ltac:(lia) E1) as (_ & w' & one & sizes & size & Ew' & Es & Gk & Ri). cbn [read_in Nat.leb pred] in Ew'. rewrite Ew in Ew'. injection Ew' as <-.
  destruct (good7 Hb) as (G1 & G2). destruct (tbase 7 ltac:(lia)) as (W & Tn & _). pose proof (w_n _ W) as Hn. pose proof (al_k _ _ _ _ _ _ _ _ A) as Hk.
  unfold tp_input_sizes in Es. rewrite S7 in Es. cbv iota beta zeta in Es. destruct (count_val 256 (t_n (T 7)) (t_complaints (T 7)) ltac:(lia) ltac:(lia) G1) as (ctr & F & Zc & G). rewrite F in Es. cbn [bind] in Es. injection Es as _ Es.
  assert (Gs : forall j, 0 <= j < t_n (T 7) -> getz sizes j = Ok (reveal_size (t_complaints (T 7)) (j + 1))).
  { intros j Hj. specialize (G (j + 1) ltac:(lia)). replace (j + 1 - 1) with j in G by lia. apply (getz_map (fun k => if 0 <? k then hdr_SIZE + (1 + noise_key_SIZE) * k else 0)) in G. rewrite Es in G. rewrite G. f_equal.
    pose proof (accusations_bound (t_n (T 7)) (j + 1) _ ltac:(lia) G1 G2) as Ab. rewrite Z.mod_small by lia. unfold reveal_size. change hdr_SIZE with 111. change (1 + noise_key_SIZE) with 33.
    destruct (Z.ltb_spec 0 (accusations (j + 1) (t_complaints (T 7)))), (Z.eqb_spec (accusations (j + 1) (t_complaints (T 7))) 0); lia. }
  rewrite (Gs k ltac:(lia)) in Gk. injection Gk as <-.
  assert (Off : forall j : nat, (Z.of_nat j <= t_n (T 7)) -> fold_right Z.add 0 (firstn j sizes) = reveal_off (t_complaints (T 7)) (Z.of_nat j + 1)).
  { induction j as [|j IH]; intros Hj; [reflexivity|]. specialize (Gs (Z.of_nat j) ltac:(lia)). apply getz_inv in Gs. destruct Gs as (_ & Gs). rewrite Nat2Z.id in Gs. rewrite (firstn_one _ _ _ Gs), sum_app, IH by lia.
    replace (Z.of_nat (Datatypes.S j) + 1) with ((Z.of_nat j + 1) + 1) by lia. rewrite (reveal_off_S _ (Z.of_nat j + 1)) by lia. reflexivity. }
  rewrite Off in Ri by lia. rewrite Z2Nat.id in Ri by lia. exact Ri.
Qed.
Definition blamed_fairly (c' : tp) (ch : cheater) : Prop := unanswered c' (k + 1) ch \/
  exists e i o p' w, nth_error calls 7 = Some (e, i, o) /\ nth_error pouts 5 = Some (0, p', w) /\ second_key C c' i (k + 1) p' ch.
(** what the peer knew when it complained *)
Lemma complained a : (7 <= length before)%nat -> (7 <= length pouts)%nat -> 1 <= a <= t_n (T 7) -> complaint (T 7) (k + 1) a ->
  exists row s key ct pt, a <> k + 1 /\ getz (t_com (T 7)) (a - 1) = Ok row /\ ~ matches (cR C) (k + 1) row (s_value (share_of pt)) /\
    getz (p_ins C (P 6)) (a - 1) = Ok (Live s) /\ nz_key N s = Some key /\ rd (t_enc (T 7)) (share_off (t_n (T 7)) a (k + 1) + 111 + 64) 49 = Ok ct /\
    rd (t_enc (T 7)) (share_off (t_n (T 7)) a (k + 1) + 111 + 64 + 49) 32 = Ok (c_auth C key ct) /\ nz_aead_decrypt N key ct = Some pt.
Proof.
  intros Hb Hp Ha I. destruct (tbase 7 ltac:(lia)) as (_ & Tn7 & _). pose proof (al_k _ _ _ _ _ _ _ _ A) as Hk.
  (* the trusted party's calls 4, 5, 6 *)
  destruct (call_at 4 ltac:(lia)) as (f4 & i4 & o4 & r4 & v4 & E4 & O4 & N4 & R4). specialize (R4 ltac:(lia)). subst r4. destruct (tbase 4 ltac:(lia)) as (W4 & Tn4 & Tt4 & _ & _ & S4). destruct (S4 ltac:(lia)) as (S4' & _). change (Z.of_nat 4) with 4 in S4'.
  destruct (call_at 5 ltac:(lia)) as (f5 & i5 & o5 & r5 & v5 & E5 & O5 & N5 & R5). specialize (R5 ltac:(lia)). subst r5. destruct (tbase 5 ltac:(lia)) as (W5 & Tn5 & Tt5 & _ & _ & S5). destruct (S5 ltac:(lia)) as (S5' & _). change (Z.of_nat 5) with 5 in S5'.
  destruct (call_at 6 ltac:(lia)) as (f6 & i6 & o6 & r6 & v6 & E6 & O6 & N6 & R6). specialize (R6 ltac:(lia)). subst r6. destruct (tbase 6 ltac:(lia)) as (W6 & Tn6 & Tt6 & _ & _ & S6). destruct (S6 ltac:(lia)) as (S6' & _). change (Z.of_nat 6) with 6 in S6'.
  pose proof (w_n _ W4) as Hn.
  (* the peer's calls 4 and 5 *)
  destruct (pcall_at 4 ltac:(lia)) as (e4 & j4 & u4 & w4 & F4 & G4 & P4). destruct (pbase 4 ltac:(lia)) as (J4 & Pn4 & Pt4 & _ & s4). specialize (s4 ltac:(lia)). change (Z.of_nat 4) with 4 in s4.
  destruct (pcall_at 5 ltac:(lia)) as (e5 & j5 & u5 & w5 & F5 & G5 & P5). destruct (pbase 5 ltac:(lia)) as (J5 & Pn5 & Pt5 & _ & s5). specialize (s5 ltac:(lia)). change (Z.of_nat 5) with 5 in s5.
  pose proof (i_wf C _ J4) as V4. pose proof (i_wf C _ J5) as V5. destruct (at_peer 5 ltac:(lia) ltac:(lia) ltac:(lia)) as (_ & Ix & _).
  (* commitments *)
  pose proof (heard_all 4 _ _ _ _ ltac:(cbn; auto) ltac:(lia) ltac:(lia) F4 O4) as Ej. subst j4.
  assert (Hu : is_u64 (e_s f4 0)) by (eapply (se_clock _ _ _ _ _ D); eapply nth_error_In; exact E4).
  pose proof (commitments_agree C f4 (T 4) i4 o4 (T 5) v4 e4 (P 4) u4 (P 5) w4 HC W4 Hu S4' N4 s4 ltac:(congruence) ltac:(congruence) ltac:(rewrite (v_com C _ V4); congruence) P4) as CA.
  assert (Cm : t_com (T 7) = t_com (T 5)).
  { rewrite (next_com C _ _ _ _ _ _ N6) by (rewrite S6'; cbn; auto). apply (next_com C _ _ _ _ _ _ N5). rewrite S5'. cbn. auto. }
  (* the complaint *)
  destruct (arrive_part 6 f6 i6 o6 (msg9_SIZE (t_n (T 6))) 1 ltac:(lia) E6) as (_ & w' & Ew & Ri); [unfold tp_input_sizes; rewrite S6'; reflexivity|].
  cbn [read_in Nat.leb pred] in *. rewrite G5 in Ew. injection Ew as <-.
  destruct (complains_exactly C e5 (P 5) j5 u5 (P 6) w5 HC s5 ltac:(lia) ltac:(pose proof (v_t C _ V5); lia) ltac:(lia) (v_com C _ V5) (v_rows C _ V5) (v_xshares C _ V5) (v_sid C _ V5) (clock_ok _ _ _ _ 0 F5) P5) as (X1 & X2 & X3 & _ & X5).
  assert (Nm : In a (named w5)).
  { pose proof N6 as Q. apply next6 in Q; [|exact S6']. destruct Q as (z & Q & Ez). assert (Hu6 : is_u64 (e_s f6 0)) by (eapply (se_clock _ _ _ _ _ D); eapply nth_error_In; exact E6).
    pose proof (w_n _ W6) as Hn6. destruct (step16_content C f6 (T 6) i6 o6 z v6 HC (w_sid _ W6) Hu6 ltac:(lia) Q) as (_ & _ & _ & _ & Ec & _ & _ & Rg).
    unfold complaint in I. rewrite Ez in I. cbn [t_complaints tp_step_set] in I. rewrite Ec in I. unfold complaints_in in I. apply in_flat_map in I. destruct I as (j & Hj & I). apply zrange_In in Hj. rewrite Z2Nat.id in Hj by lia.
    apply in_map_iff in I. destruct I as (b & Eb & I). rewrite Z.add_0_l in I.
    destruct (Rg j ltac:(lia)) as (Fb & _). pose proof (proj1 (Forall_forall _ _) Fb _ I) as Rb. cbv beta in Rb, Eb. assert (j = k /\ b = a) by lia. destruct H as (-> & ->).
    assert (Sl : slice (k * msg9_SIZE (t_n (T 6))) (msg9_SIZE (t_n (T 6))) i6 = w5).
    { pose proof (rd_inv _ _ _ _ Ri) as (B5 & B6 & B9 & _). rewrite rd_ok in Ri by lia. unfold slice. assert (Q' : forall x y : bytes, Ok x = Ok y -> x = y) by (intros; congruence). apply Q' in Ri. exact Ri. }
    rewrite Sl in I. exact I. }
  assert (Ch : cheated (cR C) (k + 1) (p_com C (P 6)) (p_xshares C (P 6)) a).
  { rewrite Ix in X5. destruct X5 as [(u & _ & _ & _ & X5)|(_ & X5)]; apply X5 in Nm; [apply Nm|exact Nm]. }
  destruct Ch as (Ne & row & sh & (D1 & D2 & D3) & Nmt).
  (* the share *)
  pose proof P5 as Z5. rewrite (peer_next_5 C) in Z5 by exact s5. apply pfinish_inv in Z5. destruct Z5 as (q6 & Z5 & Eq6). cbn [Z.eqb] in Eq6.
  destruct (s15_opened C (a - 1) e5 (P 5) j5 u5 q6 w5 ltac:(lia) Z5) as (sh' & Gx & s & s2 & s3 & m3 & p3 & key & ct & pt & H1 & H2 & H3 & H4 & H5 & H6 & H7 & ->).
  assert (Ex6 : p_xshares C (P 6) = p_xshares C q6 /\ p_ins C (P 6) = p_ins C q6) by (rewrite Eq6; auto). destruct Ex6 as (Ex6 & Ei6).
  assert (sh = share_of pt). { rewrite <- Ex6 in Gx. rewrite (getz_ok _ (a - 1) _ D3) in Gx by lia. congruence. } subst sh.
  pose proof (i_resp C _ J5 ltac:(lia) _ _ H1) as Rs. destruct (responder_key C HC _ _ _ _ Rs H3 _ _ _ _ H4 H7) as (K1 & K2).
  (* the message *)
  destruct (gets_at 5 ltac:(lia) ltac:(lia)) as (e5' & j5' & u5' & off & len & v & Q1 & Q2 & Q3 & Q4). rewrite F5 in Q1. injection Q1 as <- <- <-. rewrite O5 in Q2. injection Q2 as <-.
  destruct (relay_unchanged C f5 (T 5) i5 o5 (T 6) v5 k (a - 1) ltac:(lia) ltac:(rewrite S5'; cbn; auto) N5 ltac:(lia) ltac:(lia)) as (off' & M & Rl & Ro). rewrite S5' in M, Rl, Ro. cbv zeta in M, Rl, Ro. change (relay_size 5) with 256 in M, Rl, Ro.
  rewrite M in Q3. assert (off' = off) by congruence. assert (len = t_n (T 5) * 256) by congruence. subst off' len.
  assert (Ee : t_enc (T 7) = t_enc (T 6)) by (apply next6 in N6; [|exact S6']; destruct N6 as (z & N6 & Ez); apply enc16 in N6; rewrite Ez; exact N6).
  rewrite tp_next_5 in N5 by exact S5'. apply finish_inv in N5. destruct N5 as (y & N5 & Ey). destruct (step14_content C f5 (T 5) i5 o5 y v5 ltac:(lia) N5) as (_ & Zi & Wr & _).
  assert (Ey' : t_enc (T 6) = t_enc y) by (rewrite Ey; reflexivity). apply rd_wr_same in Wr. rewrite <- Ey', <- Ee in Wr.
  assert (Part : forall o l, 0 <= o -> 0 <= l -> o + l <= 256 -> rd (t_enc (T 7)) (share_off (t_n (T 7)) a (k + 1) + o) l = rd j5 ((a - 1) * 256 + o) l).
  { intros o l Ho Hl Hol. unfold share_off. change msg8_SIZE with 256. rewrite Tn7, <- Tn5.
    replace (((a - 1) * t_n (T 5) + (k + 1 - 1)) * 256 + o) with (0 + (((a - 1) * (t_n (T 5) * 256) + k * 256) + o)) by lia.
    assert (Zi' : zlen i5 = t_n (T 5) * (t_n (T 5) * 256)) by (change msg8_SIZE with 256 in Zi; lia).
    assert (Bd : (a - 1) * (t_n (T 5) * 256) + k * 256 + 256 <= zlen i5) by nia.
    assert (Bd0 : 0 <= (a - 1) * (t_n (T 5) * 256)) by nia.
    rewrite <- (rd_rd _ _ _ _ ((a - 1) * (t_n (T 5) * 256) + k * 256 + o) l Wr) by lia.
    destruct Ro as (m & Ro). rewrite Ro in Rl. symmetry in Rl. rewrite <- (rd_rd _ _ _ _ o l Rl) by lia.
    rewrite (rd_rd _ _ _ _ ((a - 1) * 256 + o) l Q4) by nia. rewrite (rd_rd _ _ _ _ o l Ro) by lia. rewrite <- (Z.add_assoc off). reflexivity. }
  exists row, s3, key, ct, pt. split; [exact Ne|]. split; [rewrite Cm, <- CA, <- X1; apply getz_ok; [exact D2|lia]|]. split; [exact Nmt|]. split; [rewrite Ei6; exact H2|]. split; [exact K2|].
  split; [rewrite <- Z.add_assoc, Part by lia; exact H5|]. split; [|exact K1]. rewrite <- !Z.add_assoc, Part by lia. exact H6.
Qed.
Lemma fair_18 : (7 <= length before)%nat -> t_step (T 7) = 7 -> in_step 7 ->
  exists new, t_cheaters (T 8) = t_cheaters (T 7) ++ new /\ Forall (fun ch => blames ch = k + 1 -> blamed_fairly (T 8) ch) new.
Proof.
  intros Hb S7 (I1 & I2). destruct (call_at 7 ltac:(lia)) as (f & inp & out & r & v & E1 & _ & H & R). destruct (tbase 7 ltac:(lia)) as (W & Tn & Tt & Ts & Te & _).
  destruct (arrive 7 f inp out ltac:(lia) E1) as (Lp & _). cbn [read_in Nat.leb pred] in Lp. pose proof (al_k _ _ _ _ _ _ _ _ A) as Hk. pose proof (w_n _ W) as Hn.
  destruct (pcall_at 0 ltac:(lia)) as (e0 & i0 & o0 & w0 & F0 & G0 & _). destruct (pcall_at 1 ltac:(lia)) as (e1 & i1 & o1 & w1 & F1 & G1 & _).
  destruct (pcall_at 2 ltac:(lia)) as (e2 & i2 & o2 & w2 & F2 & G2 & _). destruct (com18 Hb) as (e3 & i3 & o3 & w3 & F3 & G3 & Cm & Cc & Ra & Rs).
  destruct (pcall_at 4 ltac:(lia)) as (e4 & i4 & o4 & w4 & F4 & G4 & _). destruct (pcall_at 5 ltac:(lia)) as (e5 & i5 & o5 & w5 & F5 & G5 & _).
  destruct (pcall_at 6 ltac:(lia)) as (e6 & i6 & o6 & w6 & F6 & G6 & _). destruct (pcall_at 7 ltac:(lia)) as (e7 & i7 & o7 & w7 & F7 & G7 & P7).
  pose proof (peer_run_prefix C _ _ _ 8 (al_run _ _ _ _ _ _ _ _ A)) as PR.
  assert (Pc : firstn 8 pcalls = [(e0, i0, o0); (e1, i1, o1); (e2, i2, o2); (e3, i3, o3); (e4, i4, o4); (e5, i5, o5); (e6, i6, o6); (e7, i7, o7)]).
  { rewrite (firstn_one _ _ _ F7), (firstn_one _ _ _ F6), (firstn_one _ _ _ F5), (firstn_one _ _ _ F4), (firstn_one _ _ _ F3), (firstn_one _ _ _ F2), (firstn_one _ _ _ F1), (firstn_one _ _ _ F0). reflexivity. }
  assert (Po : firstn 8 pouts = [(0, P 1, w0); (0, P 2, w1); (0, P 3, w2); (0, P 4, w3); (0, P 5, w4); (0, P 6, w5); (0, P 7, w6); (0, P 8, w7)]).
  { rewrite (firstn_one _ _ _ G7), (firstn_one _ _ _ G6), (firstn_one _ _ _ G5), (firstn_one _ _ _ G4), (firstn_one _ _ _ G3), (firstn_one _ _ _ G2), (firstn_one _ _ _ G1), (firstn_one _ _ _ G0). reflexivity. }
  rewrite Pc, Po in PR.
  destruct (at_peer 8 ltac:(lia) ltac:(lia) ltac:(lia)) as (PW & B1 & B2 & B3 & B4 & B5). destruct (after6 Hb ltac:(lia)) as (A1 & A2 & _).
  destruct (peer_heard_step C _ _ _ _ _ _ P7) as (_ & PH). destruct (PH ltac:(rewrite A2, S7; lia)) as (PH1 & _).
  assert (SS : same_session C (T 7) (P 8)).
  { constructor; [congruence|congruence|congruence|rewrite B1; lia| |congruence]. rewrite B1, B2. replace (k + 1 - 1) with k by lia. exact I2. }
  destruct (row_stamps 4 _ _ _ F4 ltac:(cbn; auto)) as (Rw4 & _). destruct (one_stamp 7 _ _ _ F7 ltac:(cbn; auto 6)) as (Fr7 & _).
  assert (HD : heard C f (T 7) inp (P 8) (pe_s e7 0) w3 w4 w7).
  { constructor; rewrite B1; replace (k + 1 - 1) with k by lia.
    - exists (commitments_of (cR C) (pe_a e3)). split; [exact Cm|]. split; [|symmetry; exact Cc]. unfold commitments_of. apply Forall_forall. intros b Hb'. apply in_map_iff in Hb'. destruct Hb' as (y' & <- & _). unfold zlen. rewrite (ok_enc_len _ (ok_cR C HC)). reflexivity.
    - apply enc18; assumption.
    - eapply keys18; eassumption.
    - intros _. exists (L (upto 7)). split; [exact I1|]. rewrite Te. cbn [upto Nat.leb pred]. rewrite <- silent_stamp by lia. apply Fr7. }
  destruct (good7 Hb) as (Gc1 & Gc2).
  destruct (cleared_answers C HC p (P 1) (P 2) (P 3) (P 4) (P 5) (P 6) (P 7) (P 8) _ _ _ _ _ _ _ _ _ _ _ _ _ _ _ _ _ _ _ _ _ _ (al_fresh _ _ _ _ _ _ _ _ A) PR
    (clock_ok _ _ _ _ 0 F3) (fun j => clock_ok _ _ _ _ j F4) (clock_ok _ _ _ _ 0 F7) Ra Rs f (T 7) inp W Gc1 Gc2 SS HD ltac:(rewrite Te; apply (se_eps _ _ _ _ _ D))) as (An & Full).
  { intros j Hj. rewrite Te. rewrite Tn in Hj. destruct (Rw4 j Hj) as (_ & Q). exact Q. }
  rewrite B1 in An, Full.
  destruct (entries_happened C f (T 7) inp out r (T 8) v HC W (conj Gc1 Gc2) H) as (new & Er & Fh).
  pose proof H as N8. rewrite tp_next_7 in H by exact S7. apply finish_inv in H. destruct H as (c1 & H & Ec). apply only18_step in H. destruct H as ((Ecm & Een) & new' & Er' & F18).
  assert (Eq : (t_complaints (T 8) = t_complaints (T 7) /\ t_enc (T 8) = t_enc (T 7)) /\ t_cheaters (T 8) = t_cheaters (T 7) ++ new') by (rewrite Ec; cbn [t_complaints t_enc t_cheaters tp_step_set]; auto). destruct Eq as ((Eq1 & Eq3) & Eq2).
  unfold recorded in Er. assert (new' = new) by (rewrite Er in Eq2; apply app_inv_head in Eq2; congruence). subst new'.
  exists new. split; [exact Er|]. apply Forall_forall. intros ch Hch Bl.
  pose proof (proj1 (Forall_forall _ _) Fh _ Hch) as Q1. pose proof (proj1 (Forall_forall _ _) F18 _ Hch) as (Q2 & Q3).
  assert (Tn8 : t_n (T 8) = t_n (T 7)) by (destruct (next_nt C _ _ _ _ _ _ _ N8) as (Q & _); exact Q).
  assert (OC : unanswered (T 7) (k + 1) ch \/ exists a row sh, ch = mkCheater 18 128 a (k + 1) 0 /\ 1 <= a <= t_n (T 7) /\ complaint (T 7) (k + 1) a /\ opened C f (T 7) inp a (k + 1) row sh /\ fits C a (k + 1) row sh)
    by (eapply own_entry; try eassumption; [split; assumption|lia]).
  destruct OC as [OC|(a & row & sh & -> & Ha & I & (key' & (_ & _ & _ & Ans) & (ct' & pt' & O1 & O2 & O3 & ->) & Gr) & Ft)]; [left; unfold unanswered in *; rewrite Eq1; exact OC|right].
  destruct (complained a Hb ltac:(lia) Ha I) as (row' & s & key & ct & pt & Ne & Gr' & Nm & Gi & Gk & O4 & O5 & O6).
  assert (row' = row) by congruence. subst row'. assert (ct' = ct) by congruence. subst ct'. assert (Mac : c_auth C key ct = c_auth C key' ct) by congruence.
  assert (Nk : key <> key').
  { intros ->. assert (pt' = pt) by congruence. subst pt'. destruct Ft as [Q|Q]; [exact (Ne Q)|exact (Nm Q)]. }
  exists f, inp, out, (P 6), w5. split; [exact E1|]. split; [exact G5|]. unfold second_key. cbn [ch_step ch_error ch_other ch_peer]. unfold answers, names_at. rewrite Tn8, Eq1, Eq3.
  split; [reflexivity|]. split; [reflexivity|]. split; [reflexivity|]. split; [exact I|]. exists s, key, key', ct. repeat (split; [assumption|]). exact Mac.
Qed.
(** ** The whole session *)
Definition untouched (x : tp) : Prop := Forall (fun ch => ch_step ch <> 18 /\ ch_peer ch <> k + 1) (t_cheaters x).
Lemma untouched_next a b : untouched a -> innocent k a b -> untouched b.
Proof. intros U (new & E & F). unfold untouched. rewrite E. apply Forall_app. auto. Qed.
Lemma untouched_1 : untouched (T 1).
Proof.
  destruct (call_at 0 ltac:(lia)) as (e & i & o & r & v & _ & _ & H & _). rewrite tp_next_0 in H by (apply (se_step _ _ _ _ _ D)). apply finish_inv in H. destruct H as (c1 & H & E).
  assert (Ec : t_cheaters c1 = t_cheaters c).
  { unfold tp_step1 in H. inv H; try reflexivity. }
  unfold untouched. rewrite E. cbn [t_cheaters tp_step_set]. rewrite Ec, (se_cheaters _ _ _ _ _ D). constructor.
Qed.
Lemma fair_upto j : (1 <= j <= 6)%nat -> (j <= length before)%nat -> ((2 <= j)%nat -> in_step j) -> fair_call j.
Proof.
  intros Hj Hb I. destruct (Nat.eq_dec j 1) as [->|N1]; [apply fair_1; lia|]. specialize (I ltac:(lia)).
  assert (Hc : (j = 2 \/ j = 3 \/ j = 4 \/ j = 5 \/ j = 6)%nat) by lia. destruct Hc as [ -> |[ -> |[ -> |[ -> | -> ]]]].
  - apply fair_23; auto.
  - apply fair_23; auto.
  - apply fair_4; assumption.
  - apply fair_5; assumption.
  - apply fair_6; assumption.
Qed.
Lemma chain j : (j <= 6)%nat -> (Datatypes.S j <= length before)%nat -> untouched (T (Datatypes.S j)) /\ ((1 <= j)%nat -> in_step (Datatypes.S j)).
Proof.
  induction j as [|j IH]; intros H6 Hb; [split; [apply untouched_1|lia]|]. destruct (IH ltac:(lia) ltac:(lia)) as (U & I).
  destruct (fair_upto (Datatypes.S j) ltac:(lia) ltac:(lia) ltac:(intros; apply I; lia)) as (Q1 & Q2). split; [eapply untouched_next; eassumption|]. intros _. apply Q2. lia.
Qed.
Lemma blames_other ch : ch_step ch <> 18 -> blames ch = 0 \/ blames ch = ch_peer ch.
Proof.
  intros H. unfold blames, cheater_msg. cbv zeta. destruct (_ && _); [right; reflexivity|]. destruct (ch_step ch =? 16).
  - destruct (_ =? _); [left; reflexivity|]. destruct (_ =? _); [right; reflexivity|]. destruct (_ =? _); [right|left]; reflexivity.
  - rewrite (proj2 (Z.eqb_neq _ _) H). destruct (ch_step ch =? 20); [|left; reflexivity]. destruct (_ =? _); [right|left]; reflexivity.
Qed.
Lemma untouched_own x ch : untouched x -> In ch (t_cheaters x) -> blames ch = k + 1 -> False.
Proof.
  intros U Hi Bl. apply (proj1 (Forall_forall _ _) U) in Hi. destruct Hi as (H1 & H2). pose proof (al_k _ _ _ _ _ _ _ _ A). destruct (blames_other ch H1); lia.
Qed.
Lemma fair_session ch : In ch (t_cheaters (snd (fst last))) -> blames ch = k + 1 -> blamed_fairly (snd (fst last)) ch.
Proof.
  assert (El : snd (fst last) = T (Datatypes.S (length before))) by (cbn [state_at]; rewrite nth_error_app2, Nat.sub_diag by lia; reflexivity). rewrite El. intros Hi Bl.
  pose proof (se_len _ _ _ _ _ D) as Hl. rewrite calls_len in Hl.
  destruct (Nat.eq_dec (length before) 0) as [E0|N0]; [rewrite E0 in *; destruct (untouched_own _ _ untouched_1 Hi Bl)|].
  destruct (Nat.le_gt_cases (length before) 6) as [L6|L6].
  { destruct (chain (pred (length before)) ltac:(lia) ltac:(lia)) as (U & I). replace (Datatypes.S (pred (length before))) with (length before) in * by lia.
    destruct (fair_upto (length before) ltac:(lia) ltac:(lia) ltac:(intros; apply I; lia)) as (Q1 & _). destruct (untouched_own _ _ (untouched_next _ _ U Q1) Hi Bl). }
  destruct (chain 6 ltac:(lia) ltac:(lia)) as (U & I). specialize (I ltac:(lia)).
  destruct (call_at 7 ltac:(lia)) as (f & inp & out & r & v & E1 & _). destruct (arrive 7 f inp out ltac:(lia) E1) as (Lp & _). cbn [read_in Nat.leb pred] in Lp.
  destruct (after6 ltac:(lia) ltac:(lia)) as (_ & _ & S7).
  destruct (Nat.eq_dec (length before) 7) as [E7|N7].
  - rewrite E7 in *. destruct (zlen (t_complaints (T 7)) =? 0).
    + destruct (fair_7 ltac:(lia) S7 I) as (Q1 & _). destruct (untouched_own _ _ (untouched_next _ _ U Q1) Hi Bl).
    + destruct (fair_18 ltac:(lia) S7 I) as (new & E & F). rewrite E in Hi. apply in_app_or in Hi. destruct Hi as [Hi|Hi]; [destruct (untouched_own _ _ U Hi Bl)|].
      exact (proj1 (Forall_forall _ _) F _ Hi Bl).
  - assert (E8 : length before = 8%nat) by lia. rewrite E8 in *. destruct (after7 ltac:(lia) ltac:(lia)) as (S8 & _).
    destruct (fair_7 ltac:(lia) S8 I) as (Q1 & Q2). specialize (Q2 ltac:(lia)). pose proof (fair_8 ltac:(lia) Q2) as Q3.
    destruct (untouched_own _ _ (untouched_next _ _ (untouched_next _ _ U Q1) Q3) Hi Bl).
Qed.
End SESSION.

Theorem fair c calls before last k p pcalls pouts ch : session C c calls before last -> alongside C c calls (before ++ [last]) k p pcalls pouts ->
  In ch (t_cheaters (snd (fst last))) -> blames ch = k + 1 ->
  unanswered (snd (fst last)) (k + 1) ch \/
  exists e input out p' w, nth_error calls 7 = Some (e, input, out) /\ nth_error pouts 5 = Some (0, p', w) /\ second_key C (snd (fst last)) input (k + 1) p' ch.
Proof.
  intros D A. destruct (al_paced _ _ _ _ _ _ _ _ A) as (start & S1 & S2 & S3). exact (fair_session c calls before last k p pcalls pouts D A start S1 S2 S3 ch).
Qed.
End FAIR.
