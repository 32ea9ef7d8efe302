(** The cheater reports of every entry the trusted party can record (C38), and the complaints of
    every reachable state. *)
From Coq Require Import ZArith Lia List Bool.
From Coq.Strings Require Import Byte.
From Verif Require Import Bytes Res Mem Sodium ToprfModel ToprfSpec DkgModel DkgSpec DkgProofs WireModel WireSpec WireProofs TpCrypto TpModel PeerModel CheaterModel.
From Verif Require Import TpFrame PeerFrame TpSpec TpMsg TpContent TpComplaints TpControl TpSizes PeerContent TpAgree BlameSpec TpBlame.
Import ListNotations.
Open Scope list_scope.
Open Scope Z_scope.

(** what the report says about a recordable entry *)
Lemma report_of n ch : recordable n ch -> n <= 128 ->
  (unnamed ch -> blames ch = 0) /\
  (ch_step ch = 18 /\ ch_error ch = 128 -> blames ch = ch_other ch) /\
  (~ unnamed ch -> ~ (ch_step ch = 18 /\ ch_error ch = 128) -> blames ch = ch_peer ch).
Proof.
  intros H Hn. unfold unnamed, blames. destruct H; cbn [ch_step ch_error ch_peer ch_other] in *; unfold refused in *.
  - assert (D : r = 1 \/ r = 7 \/ r = 2 \/ r = 3 \/ r = 4 \/ r = 5 \/ r = 6) by lia. cbn [In] in *.
    repeat match goal with H : _ \/ _ |- _ => destruct H end; try contradiction; subst; cbn; (split; [try reflexivity; lia|]); (split; [lia|]); intros; try reflexivity; exfalso; lia.
  - split; [reflexivity|]. split; [lia|]. intros Hu. exfalso. apply Hu. auto.
  - cbn [In] in *. repeat match goal with H : _ \/ _ |- _ => destruct H end; try contradiction; subst; cbn; (split; [lia|]); (split; [lia|]); reflexivity.
  - assert (D : r = 1 \/ r = 7 \/ r = 2 \/ r = 3 \/ r = 4 \/ r = 5 \/ r = 6) by lia.
    repeat match goal with H : _ \/ _ |- _ => destruct H end; subst; cbn; (split; [lia|]); (split; [lia|]); reflexivity.
  - assert (D : r = 1 \/ r = 7 \/ r = 2 \/ r = 3 \/ r = 4 \/ r = 5 \/ r = 6) by lia.
    repeat match goal with H : _ \/ _ |- _ => destruct H end; subst; cbn; (split; [lia|]); (split; [lia|]); reflexivity.
  - cbn [In] in *. repeat match goal with H : _ \/ _ |- _ => destruct H end; try contradiction; subst; cbn; (split; [lia|]); (split; [try reflexivity; lia|]);
      intros; try reflexivity; exfalso; lia.
  - assert (D : r = 0 \/ r = 1 \/ r = 7 \/ r = 2 \/ r = 3 \/ r = 4 \/ r = 5 \/ r = 6) by lia.
    repeat match goal with H : _ \/ _ |- _ => destruct H end; subst; cbn; (split; [try reflexivity; lia|]); (split; [lia|]); intros; try reflexivity; exfalso; lia.
Qed.

Section REPORTS.
Variable C : crypto.
Notation S := (cS C).

(** only recordable entries are added; the complaints only change where [b] is false *)
Record cx (b : bool) (c c' : tp) : Prop := mkCx {
  cx_n : t_n c' = t_n c; cx_s : t_step c' = t_step c; cx_sid : t_sid c' = t_sid c;
  cx_complaints : b = true -> t_complaints c' = t_complaints c;
  cx_new : exists new, t_cheaters c' = t_cheaters c ++ new /\ Forall (recordable (t_n c)) new }.
Lemma cx_refl b c : cx b c c.
Proof. constructor; auto. exists []. rewrite app_nil_r. auto. Qed.
Lemma cx_trans b c1 c2 c3 : cx b c1 c2 -> cx b c2 c3 -> cx b c1 c3.
Proof.
  intros [n1 s1 d1 m1 (l1 & E1 & F1)] [n2 s2 d2 m2 (l2 & E2 & F2)]. constructor; try congruence.
  - intros Hb. rewrite m2, m1 by exact Hb. reflexivity.
  - exists (l1 ++ l2). rewrite E2, E1, app_assoc. split; [reflexivity|]. apply Forall_app. split; [exact F1|]. rewrite <- n1. exact F2.
Qed.
Lemma cx_same b c c' : t_n c' = t_n c -> t_step c' = t_step c -> t_sid c' = t_sid c -> (b = true -> t_complaints c' = t_complaints c) -> t_cheaters c' = t_cheaters c -> cx b c c'.
Proof. intros. constructor; auto. exists []. rewrite app_nil_r. auto. Qed.
Lemma cx_recv b c buf off len msgno from to pk i now ret c' : tp_recv C c buf off len msgno from to pk i now = Ok (ret, c') -> cx b c c' /\ 0 <= ret <= 7.
Proof.
  intros H. apply tp_recv_inv in H. destruct H as (last & last' & l & _ & H & _ & ->). apply recv_codes in H. split; [|exact H]. apply cx_same; reflexivity.
Qed.
Lemma cx_add b c step error peer other c' : add_cheater c step error peer other = Some c' -> 0 <= peer < 256 -> 0 <= other < 256 ->
  recordable (t_n c) (mkCheater step error peer other 0) -> cx b c c'.
Proof.
  intros H Hp Ho Hr. apply add_cheater_inv in H. destruct H as (_ & ->). constructor; try reflexivity.
  exists [mkCheater step error peer other 0]. cbn [t_cheaters tp_cheaters_set]. unfold Mem.u8. rewrite !Z.mod_small by lia. auto.
Qed.

Lemma loop_cx {I X} b (proj : X -> tp) (f : I -> X -> res (ctl X)) l s r (Q : tp -> Prop) :
  (forall c c', cx b c c' -> Q c -> Q c') -> Q (proj s) ->
  (forall i s r, In i l -> Q (proj s) -> f i s = Ok r -> cx b (proj s) (proj (ctl_state r))) ->
  loopM f l s = Ok r -> cx b (proj s) (proj (ctl_state r)).
Proof.
  intros HQ Hs Hf H.
  pose proof (loopM_inv f (fun s' => cx b (proj s) (proj s')) (fun _ s' => cx b (proj s) (proj s')) l s r) as L.
  assert (HH : match r with Next s2 => cx b (proj s) (proj s2) | Return _ s2 => cx b (proj s) (proj s2) end).
  { apply L; [apply cx_refl| |assumption]. intros i s1 c1 Hi H1 E. pose proof (Hf _ _ _ Hi (HQ _ _ H1 Hs) E) as H2.
    destruct c1; cbn in *; eapply cx_trans; eassumption. }
  destruct r; assumption.
Qed.

(** facts kept by [cx] *)
Definition here (n s : Z) (c : tp) : Prop := t_n c = n /\ t_step c = s /\ zlen (t_sid c) = 32.
Lemma here_cx b n s c c' : cx b c c' -> here n s c -> here n s c'.
Proof. intros [] (? & ? & ?). repeat split; congruence. Qed.

(** chain the facts in the context *)
Ltac cxchain :=
  cbn [ctl_state fst snd] in *;
  repeat match goal with
  | H : (?r =? 0) = false |- _ => apply Z.eqb_neq in H
  | H : (?r =? 0) = true |- _ => apply Z.eqb_eq in H
  | H : negb _ = true |- _ => apply negb_true_iff in H
  | H : negb _ = false |- _ => apply negb_false_iff in H
  | H : tp_recv C ?c _ _ _ _ _ _ _ _ _ = Ok (_, ?c') |- cx ?b ?c ?x =>
      let X := fresh "X" in let R := fresh "R" in destruct (cx_recv b _ _ _ _ _ _ _ _ _ _ _ _ H) as (X & R); eapply cx_trans; [exact X|]; clear H
  end.

Lemma cx_step4_body b e input n i s r : 0 <= i < n -> n <= 128 -> here n 1 (fst (fst s)) -> tp_step4_body C e input i s = Ok r -> cx b (fst (fst s)) (fst (fst (ctl_state r))).
Proof.
  destruct s as [[c out] w]. unfold tp_step4_body. intros Hi Hn Hh H. cbn [fst] in Hh. inv H; cxchain; try apply cx_refl; try (apply cx_same; reflexivity).
  eapply cx_add; [eassumption|lia|lia|]. destruct (here_cx _ _ _ _ _ X Hh) as (-> & _). apply rec_message; [lia|cbn; auto 12|unfold refused; lia].
Qed.
Lemma cx_step68_body b e input n st i s r : 0 <= i < n * n -> n <= 128 -> 0 < n -> (st = 2 \/ st = 3) -> here n st (fst (fst s)) -> tp_step68_body C e input i s = Ok r -> cx b (fst (fst s)) (fst (fst (ctl_state r))).
Proof.
  destruct s as [[c out] w]. unfold tp_step68_body. intros Hi Hn Hn0 Hst Hh H. cbn [fst] in Hh. inv H; cxchain; try apply cx_refl; try (apply cx_same; reflexivity).
  destruct Hh as (<- & Es & Hsid). pose proof (Z.mod_pos_bound i (t_n c) Hn0). assert (0 <= i / t_n c < t_n c) by (split; [apply Z.div_pos; lia|apply Z.div_lt_upper_bound; lia]).
  eapply cx_add; [eassumption|lia|lia|]. rewrite (cx_n _ _ _ X), (cx_s _ _ _ X), Es.
  apply rec_message; [lia| |unfold refused; lia]. destruct Hst as [-> | ->]; cbn; auto.
Qed.
Lemma cx_step12_body b e input n i s r : 0 <= i < n -> n <= 128 -> here n 4 (fst (fst s)) -> tp_step12_body C e input i s = Ok r -> cx b (fst (fst s)) (fst (fst (ctl_state r))).
Proof.
  destruct s as [[c out] w]. unfold tp_step12_body. intros Hi Hn Hh H. cbn [fst] in Hh. inv H; cxchain; try apply cx_refl; try (apply cx_same; reflexivity).
  eapply cx_add; [eassumption|lia|lia|]. destruct (here_cx _ _ _ _ _ X Hh) as (-> & _). apply rec_message; [lia|cbn; auto 12|unfold refused; lia].
Qed.
Lemma cx_step14_body b e input n i s r : 0 <= i < n * n -> n <= 128 -> 0 < n -> here n 5 (fst (fst s)) -> tp_step14_body C e input i s = Ok r -> cx b (fst (fst s)) (fst (fst (ctl_state r))).
Proof.
  destruct s as [[c out] w]. unfold tp_step14_body. intros Hi Hn Hn0 Hh H. cbn [fst] in Hh. inv H; cxchain; try apply cx_refl; try (apply cx_same; reflexivity).
  destruct Hh as (<- & _). pose proof (Z.mod_pos_bound i (t_n c) Hn0). assert (0 <= i / t_n c < t_n c) by (split; [apply Z.div_pos; lia|apply Z.div_lt_upper_bound; lia]).
  eapply cx_add; [eassumption|lia|lia|]. rewrite (cx_n _ _ _ X). apply rec_message; [lia|cbn; auto 12|unfold refused; lia].
Qed.
Lemma cx_step16_complaint input n p i lim k c r : 0 <= i < n -> n <= 128 -> here n 6 c -> tp_step16_complaint input p i lim k c = Ok r -> cx false c (ctl_state r).
Proof.
  unfold tp_step16_complaint. intros Hi Hn Hh H. destruct Hh as (<- & _). inv H; cxchain; try apply cx_refl; try (apply cx_same; [reflexivity..|discriminate|reflexivity]);
    (eapply cx_add; [eassumption|lia|apply Bytes.bz_range|]); apply rec_bad_complaint; cbn; auto; lia.
Qed.
Lemma cx_step16_body e input n i s r : 0 <= i < n -> n <= 128 -> here n 6 (fst (fst s)) -> tp_step16_body C e input i s = Ok r -> cx false (fst (fst s)) (fst (fst (ctl_state r))).
Proof.
  destruct s as [[c out] w]. unfold tp_step16_body. intros Hi Hn Hh H. cbn [fst] in Hh. inv H; cxchain; try apply cx_refl; try (apply cx_same; reflexivity).
  1: eapply cx_add; [eassumption|lia|lia|]; destruct (here_cx _ _ _ _ _ X Hh) as (-> & _); apply rec_message; [lia|cbn; auto 12|unfold refused; lia].
  all: match goal with H : loopM _ _ _ = Ok _ |- _ => apply (loop_cx false (fun c => c) _ _ _ _ (here n 6)) in H; [exact H|apply here_cx|exact (here_cx _ _ _ _ _ X Hh)|] end;
    intros ? ? ? _ Hq Hx; eapply cx_step16_complaint; eassumption.
Qed.

Lemma cx_step18_key e input n p i k s r : 0 <= i < n -> n <= 128 -> here n 7 (fst s) -> getz input (p + off_from) = Ok (zb (i + 1)) ->
  tp_step18_key C e input p i k s = Ok r -> cx true (fst s) (fst (ctl_state r)).
Proof.
  destruct s as [c cs]. unfold tp_step18_key. intros Hi Hn (En & _) Hf H. cbn [fst] in *. subst n. rewrite Hf in H.
  apply bind_ok in H. destruct H as (b & Hb & H). cbn [bind] in H. cbn zeta in H. rewrite bz_zb_small in H by lia. pose proof (Bytes.bz_range b) as Rb.
  assert (Fin : forall cs1 error, recordable (t_n c) (mkCheater 18 error (i + 1) (bz b) 0) ->
    match add_cheater c 18 error (i + 1) (bz b) with None => Ok (Return 4 (c, cs1)) | Some c2 => Ok (Next (c2, cs1)) end = Ok r -> cx true c (fst (ctl_state r))).
  { intros cs1 error He Hr. destruct (add_cheater _ _ _ _ _) eqn:Ea in Hr; injection Hr as <-; cbn [ctl_state fst]; [|apply cx_refl].
    eapply cx_add; [exact Ea|lia|exact Rb|exact He]. }
  destruct (find_pair _ _ _); [|apply (Fin cs 6); [apply rec_reveal; [lia|cbn; auto 12]|exact H]].
  apply bind_ok in H. destruct H as (cs1 & _ & H). apply bind_ok in H. destruct H as (tsb & _ & H). apply bind_ok in H. destruct H as (pk & _ & H).
  apply bind_ok in H. destruct H as ((ret & l) & Er & H). apply recv_codes in Er.
  destruct (ret =? 0) eqn:E0; cbn [negb] in H; [|apply Z.eqb_neq in E0; apply (Fin cs1 (16 + ret)); [apply rec_share_message; unfold refused; lia|exact H]].
  apply bind_ok in H. destruct H as (key & _ & H). apply bind_ok in H. destruct H as (mac & _ & H). apply bind_ok in H. destruct H as (ct & _ & H).
  destruct (bytes_eqb _ _); cbn [negb] in H; [|apply (Fin cs1 3); [apply rec_reveal; [lia|cbn; auto 12]|exact H]].
  destruct (nz_aead_decrypt _ _ _) as [pt|]; [|apply (Fin cs1 4); [apply rec_reveal; [lia|cbn; auto 12]|exact H]].
  destruct (s_index (share_of pt) =? bz b); cbn [negb] in H.
  - apply bind_ok in H. destruct H as (row & _ & H). apply bind_ok in H. destruct H as (v & Ev & H). apply verify_ret in Ev.
    apply (Fin cs1 (128 + v)); [|exact H]. apply rec_reveal; [lia|]. destruct Ev as [-> | [-> | ->]]; cbn; auto 12.
  - destruct (add_cheater _ _ _ _ _) as [c1|] eqn:Ea; [|injection H as <-; apply cx_refl]. apply add_cheater_inv in Ea. destruct Ea as (_ & ->).
    cbn [t_cheaters tp_cheaters_set] in H. rewrite zlen_app in H. change (zlen [mkCheater 18 5 (Mem.u8 (i + 1)) (Mem.u8 (bz b)) 0]) with 1 in H.
    replace (zlen (t_cheaters c) + 1 - 1) with (zlen (t_cheaters c)) in H by lia. rewrite (getz_mid (t_cheaters c) _ []) in H by reflexivity. cbn [bind] in H.
    rewrite (updz_mid (t_cheaters c) _ []) in H by reflexivity. cbn [bind] in H. injection H as <-. constructor; try reflexivity.
    eexists. split; [reflexivity|]. constructor; [|constructor]. cbn [ch_step ch_error ch_peer ch_other]. unfold Mem.u8. rewrite !Z.mod_small by lia.
    apply rec_reveal; [lia|cbn; auto 12].
Qed.

Lemma cx_step18_body e input ctr n i s r : 0 <= i < n -> n <= 128 -> here n 7 (fst (fst s)) -> 0 <= snd s -> (forall k, getz ctr i = Ok k -> 0 <= k) ->
  tp_step18_body C e input ctr i s = Ok r -> cx true (fst (fst s)) (fst (fst (ctl_state r))) /\ 0 <= snd (ctl_state r).
Proof.
  destruct s as [[c cs] p]. unfold tp_step18_body. intros Hi Hn Hh Hp Hk H. cbn [fst snd] in *. apply bind_ok in H. destruct H as (k & Ek & H). specialize (Hk _ Ek).
  destruct (k =? 0) eqn:K0; [injection H as <-; split; [apply cx_refl|exact Hp]|]. apply Z.eqb_neq in K0.
  unfold noise_key_SIZE in H. change (1 + 32) with 33 in H. rewrite hdr_val in H.
  apply bind_ok in H. destruct H as (pk & E1 & H). apply bind_ok in H. destruct H as ((ret & c1) & E2 & H). destruct (cx_recv true _ _ _ _ _ _ _ _ _ _ _ _ E2) as (X & R).
  pose proof (here_cx _ _ _ _ _ X Hh) as Hh1. destruct (ret =? 0) eqn:Er; cbn [negb] in H.
  - apply Z.eqb_eq in Er. subst ret. apply tp_recv_inv in E2. destruct E2 as (last & last' & l & R1 & R2 & R3 & _).
    assert (Hf : getz input (p + off_from) = Ok (zb (i + 1))).
    { assert (L111 : 111 <= 111 + 33 * k) by lia. destruct (recv_rd C _ _ _ _ _ _ _ _ _ _ _ _ _ R2 eq_refl Hp L111) as (m & Hm).
      destruct (recv_accepted _ _ _ _ _ _ _ _ _ _ _ _ _ _ Hm L111 R2) as (_ & _ & body & Hb). destruct Hh as (_ & _ & Hsid). apply (signed_ts C _ _ _ _ _ _ _ _ _ _ _ Hm Hsid Hb). }
    apply bind_ok in H. destruct H as (r1 & HL & H). apply (loop_cx true fst _ _ _ _ (here n 7)) in HL; [|apply here_cx|exact Hh1|].
    2:{ intros k' s' r' _ Hq Hx. eapply cx_step18_key; try eassumption. }
    destruct r1 as [[c2 cs2]|code [c2 cs2]]; injection H as <-; cbn [ctl_state fst snd] in *; (split; [eapply cx_trans; [exact X|exact HL]|lia]).
  - apply Z.eqb_neq in Er. destruct (add_cheater _ _ _ _ _) eqn:Ea in H; injection H as <-; cbn [ctl_state fst snd]; (split; [|lia]); [|exact X].
    eapply cx_trans; [exact X|]. eapply cx_add; [exact Ea|lia|lia|]. destruct Hh1 as (-> & _). apply rec_reveal_message; unfold refused; lia.
Qed.

Lemma cx_step18_unanswered n x c r : complaint_ok n x -> n <= 128 -> here n 7 c -> tp_step18_unanswered x c = Ok r -> cx true c (ctl_state r).
Proof.
  unfold tp_step18_unanswered, complaint_ok, complainer_of, accused_of. intros (Hx1 & Hx2) Hn (<- & _) H. inv H; try apply cx_refl; cbn [ctl_state].
  eapply cx_add; [eassumption|lia|unfold Mem.u8; apply Z.mod_pos_bound; lia|]. apply rec_reveal; [lia|cbn; auto 12].
Qed.

Lemma cx_step20_body e input hash n i s r : 0 <= i < n -> n <= 128 -> here n 8 (fst s) -> tp_step20_body C e input hash i s = Ok r -> cx true (fst s) (fst (ctl_state r)).
Proof.
  destruct s as [c out]. unfold tp_step20_body. intros Hi Hn Hh H. cbn [fst] in Hh. inv H; cxchain; try apply cx_refl; try (apply cx_same; reflexivity).
  all: eapply cx_add; [eassumption|lia|lia|]; destruct (here_cx _ _ _ _ _ X Hh) as (-> & _).
  1: apply rec_digest; lia. apply (rec_digest n 0); lia.
Qed.
Lemma cx_step22_body e input n i c r : 0 <= i < n -> n <= 128 -> here n 9 c -> tp_step22_body C e input i c = Ok r -> cx true c (ctl_state r).
Proof.
  unfold tp_step22_body. intros Hi Hn Hh H. inv H; cxchain; try apply cx_refl; try (apply cx_same; reflexivity).
  eapply cx_add; [eassumption|lia|lia|]. destruct (here_cx _ _ _ _ _ X Hh) as (-> & _). apply rec_message; [lia|cbn; auto 12|unfold refused; lia].
Qed.

Lemma zrange_bound i n : In i (zrange 0 (Z.to_nat n)) -> 0 <= n -> 0 <= i < n.
Proof. intros H Hn. apply zrange_In in H. lia. Qed.

Lemma cx_step1 e c input out ret c' out' : tp_step1 C e c input out = Ok (ret, c', out') -> cx true c c'.
Proof. unfold tp_step1. intros H. inv H; apply cx_refl. Qed.

Lemma cx_step4 e c input out ret c' out' : t_step c = 1 -> tp_wf c -> tp_step4 C e c input out = Ok (ret, c', out') -> cx true c c'.
Proof.
  intros Hs W. unfold tp_step4. intros H. pose proof (w_n c W) as Hn.
  assert (HB : forall i s r, In i (zrange 0 (Z.to_nat (t_n c))) -> here (t_n c) 1 (fst (fst s)) -> tp_step4_body C e input i s = Ok r -> cx true (fst (fst s)) (fst (fst (ctl_state r)))).
  { intros i s r Hi Hq Hx. apply zrange_bound in Hi; [|lia]. eapply cx_step4_body; try eassumption; lia. }
  pose proof (fun l s r => loop_cx true (fun s => fst (fst s)) (tp_step4_body C e input) l s r (here (t_n c) 1) (here_cx true _ _)) as L.
  inv H; try apply cx_refl; match goal with H : loopM _ _ _ = Ok _ |- _ => apply L in H; [|exact (conj eq_refl (conj Hs (w_sid c W)))|exact HB]; cbn [ctl_state fst snd] in H end; try assumption.
  eapply cx_trans; [eassumption|apply cx_same; reflexivity].
Qed.
Lemma cx_step68 e c input out ret c' out' : t_step c = 2 \/ t_step c = 3 -> tp_wf c -> tp_step68 C e c input out = Ok (ret, c', out') -> cx true c c'.
Proof.
  intros Hs W. unfold tp_step68. intros H. pose proof (w_n c W) as Hn.
  assert (HB : forall i s r, In i (zrange 0 (Z.to_nat (t_n c * t_n c))) -> here (t_n c) (t_step c) (fst (fst s)) -> tp_step68_body C e input i s = Ok r -> cx true (fst (fst s)) (fst (fst (ctl_state r)))).
  { intros i s r Hi Hq Hx. apply zrange_bound in Hi; [|lia]. eapply (cx_step68_body _ _ _ (t_n c) (t_step c)); try eassumption; lia. }
  pose proof (fun l s r => loop_cx true (fun s => fst (fst s)) (tp_step68_body C e input) l s r (here (t_n c) (t_step c)) (here_cx true _ _)) as L.
  inv H; try apply cx_refl; match goal with H : loopM _ _ _ = Ok _ |- _ => apply L in H; [|exact (conj eq_refl (conj eq_refl (w_sid c W)))|exact HB]; cbn [ctl_state fst snd] in H end; assumption.
Qed.
Lemma cx_step12 e c input out ret c' out' : t_step c = 4 -> tp_wf c -> tp_step12 C e c input out = Ok (ret, c', out') -> cx true c c'.
Proof.
  intros Hs W. unfold tp_step12. intros H. pose proof (w_n c W) as Hn.
  assert (HB : forall i s r, In i (zrange 0 (Z.to_nat (t_n c))) -> here (t_n c) 4 (fst (fst s)) -> tp_step12_body C e input i s = Ok r -> cx true (fst (fst s)) (fst (fst (ctl_state r)))).
  { intros i s r Hi Hq Hx. apply zrange_bound in Hi; [|lia]. eapply cx_step12_body; try eassumption; lia. }
  pose proof (fun l s r => loop_cx true (fun s => fst (fst s)) (tp_step12_body C e input) l s r (here (t_n c) 4) (here_cx true _ _)) as L.
  inv H; try apply cx_refl; match goal with H : loopM _ _ _ = Ok _ |- _ => apply L in H; [|exact (conj eq_refl (conj Hs (w_sid c W)))|exact HB]; cbn [ctl_state fst snd] in H end; try assumption.
  eapply cx_trans; [eassumption|apply cx_same; reflexivity].
Qed.
Lemma cx_step14 e c input out ret c' out' : t_step c = 5 -> tp_wf c -> tp_step14 C e c input out = Ok (ret, c', out') -> cx true c c'.
Proof.
  intros Hs W. unfold tp_step14. intros H. pose proof (w_n c W) as Hn.
  assert (HB : forall i s r, In i (zrange 0 (Z.to_nat (t_n c * t_n c))) -> here (t_n c) 5 (fst (fst s)) -> tp_step14_body C e input i s = Ok r -> cx true (fst (fst s)) (fst (fst (ctl_state r)))).
  { intros i s r Hi Hq Hx. apply zrange_bound in Hi; [|lia]. eapply (cx_step14_body _ _ _ (t_n c)); try eassumption; lia. }
  pose proof (fun l s r => loop_cx true (fun s => fst (fst s)) (tp_step14_body C e input) l s r (here (t_n c) 5) (here_cx true _ _)) as L.
  inv H; try apply cx_refl; match goal with H : loopM _ _ _ = Ok _ |- _ => apply L in H; [|exact (conj eq_refl (conj Hs (w_sid c W)))|exact HB]; cbn [ctl_state fst snd] in H end; try assumption.
  eapply cx_trans; [eassumption|apply cx_same; reflexivity].
Qed.
Lemma cx_step16 e c input out ret c' out' : t_step c = 6 -> tp_wf c -> tp_step16 C e c input out = Ok (ret, c', out') -> cx false c c'.
Proof.
  intros Hs W. unfold tp_step16. intros H. pose proof (w_n c W) as Hn.
  assert (HB : forall i s r, In i (zrange 0 (Z.to_nat (t_n c))) -> here (t_n c) 6 (fst (fst s)) -> tp_step16_body C e input i s = Ok r -> cx false (fst (fst s)) (fst (fst (ctl_state r)))).
  { intros i s r Hi Hq Hx. apply zrange_bound in Hi; [|lia]. eapply cx_step16_body; try eassumption; lia. }
  pose proof (fun l s r => loop_cx false (fun s => fst (fst s)) (tp_step16_body C e input) l s r (here (t_n c) 6) (here_cx false _ _)) as L.
  assert (X0 : cx false c (tp_complaints_set c [])) by (apply cx_same; try reflexivity; discriminate).
  inv H; try apply cx_refl; (match goal with H : loopM _ _ _ = Ok _ |- _ => apply L in H; [|exact (conj eq_refl (conj Hs (w_sid c W)))|exact HB]; cbn [ctl_state fst snd] in H end);
    (eapply cx_trans; [exact X0|]); try assumption; (eapply cx_trans; [eassumption|]); try (apply cx_same; [reflexivity..|discriminate|reflexivity]).
  eapply cx_add; [eassumption|lia|lia|apply rec_too_many].
Qed.
Lemma cx_step20 e c input out ret c' out' : t_step c = 8 -> tp_wf c -> tp_step20 C e c input out = Ok (ret, c', out') -> exists c1, cx true c c1 /\ t_complaints c' = t_complaints c1 /\ t_cheaters c' = t_cheaters c1.
Proof.
  intros Hs W. unfold tp_step20. intros H. pose proof (w_n c W) as Hn. set (hash := blake2b _ _ _) in H.
  assert (HB : forall i s r, In i (zrange 0 (Z.to_nat (t_n c))) -> here (t_n c) 8 (fst s) -> tp_step20_body C e input hash i s = Ok r -> cx true (fst s) (fst (ctl_state r))).
  { intros i s r Hi Hq Hx. apply zrange_bound in Hi; [|lia]. eapply cx_step20_body; try eassumption; lia. }
  pose proof (fun l s r => loop_cx true (fun s : tp * bytes => fst s) (tp_step20_body C e input hash) l s r (here (t_n c) 8) (here_cx true _ _)) as L.
  inv H; try (exists c'; split; [apply cx_refl|auto]; fail); (match goal with H : loopM _ _ _ = Ok _ |- _ => apply L in H; [|exact (conj eq_refl (conj Hs (w_sid c W)))|exact HB]; cbn [ctl_state fst snd] in H end);
    eexists; (split; [eassumption|]); split; reflexivity.
Qed.
Lemma cx_step22 e c input out ret c' out' : t_step c = 9 -> tp_wf c -> tp_step22 C e c input out = Ok (ret, c', out') -> cx true c c'.
Proof.
  intros Hs W. unfold tp_step22. intros H. pose proof (w_n c W) as Hn.
  assert (HB : forall i s r, In i (zrange 0 (Z.to_nat (t_n c))) -> here (t_n c) 9 s -> tp_step22_body C e input i s = Ok r -> cx true s (ctl_state r)).
  { intros i s r Hi Hq Hx. apply zrange_bound in Hi; [|lia]. eapply cx_step22_body; try eassumption; lia. }
  pose proof (fun l s r => loop_cx true (fun s : tp => s) (tp_step22_body C e input) l s r (here (t_n c) 9) (here_cx true _ _)) as L.
  inv H; try apply cx_refl; match goal with H : loopM _ _ _ = Ok _ |- _ => apply L in H; [|exact (conj eq_refl (conj Hs (w_sid c W)))|exact HB]; cbn [ctl_state fst snd] in H end; assumption.
Qed.
Lemma cx_step18 e c input out ret c' out' : t_step c = 7 -> tp_wf c -> good_complaints (t_n c) (t_complaints c) -> tp_step18 C e c input out = Ok (ret, c', out') ->
  exists c1, cx true c c1 /\ t_complaints c' = t_complaints c1 /\ t_cheaters c' = t_cheaters c1.
Proof.
  intros Hs W (Hok & Hnd) H. pose proof (w_n c W) as Hn. unfold tp_step18 in H. apply bind_ok in H. destruct H as (isz & _ & H).
  destruct (zlen input =? isz); cbn [negb] in H; [|injection H as <- <- <-; exists c; split; [apply cx_refl|auto]].
  destruct (zlen out =? 0); cbn [negb] in H; [|injection H as <- <- <-; exists c; split; [apply cx_refl|auto]].
  destruct (count_val (2 ^ 32) (t_n c) (t_complaints c) ltac:(lia) ltac:(lia) Hok) as (ctr & F & _ & G). rewrite F in H. cbn [bind] in H.
  assert (G2 : forall i, 0 <= i < t_n c -> getz ctr i = Ok (accusations (i + 1) (t_complaints c))).
  { intros i Hi. replace i with (i + 1 - 1) at 1 by lia. rewrite G by lia. f_equal. apply Z.mod_small.
    pose proof (accusations_bound (t_n c) (i + 1) _ ltac:(lia) Hok Hnd). lia. }
  apply bind_ok in H. destruct H as (r & HL & H).
  assert (XL : cx true c (fst (fst (ctl_state r)))).
  { pose proof (loopM_inv (tp_step18_body C e input ctr) (fun s => cx true c (fst (fst s)) /\ 0 <= snd s) (fun _ s => cx true c (fst (fst s)) /\ 0 <= snd s) (zrange 0 (Z.to_nat (t_n c))) (c, t_complaints c, 0) r) as L.
    specialize (fun A B => L A B HL). assert (Z0 : cx true c (fst (fst (c, t_complaints c, 0))) /\ 0 <= snd (c, t_complaints c, 0)) by (split; [apply cx_refl|cbn; lia]).
    specialize (L Z0). destruct r as [s1|code s1]; cbn [ctl_state]; apply L; intros i s2 r2 Hi (X & Hp) Hx; apply zrange_bound in Hi; try lia;
      (eapply (cx_step18_body _ _ _ (t_n c)) in Hx; [|exact Hi|lia|exact (here_cx _ _ _ _ _ X (conj eq_refl (conj Hs (w_sid c W))))|exact Hp|
        intros k Hk; rewrite G2 in Hk by exact Hi; injection Hk as <-; apply zlen_nonneg]); destruct Hx as (X2 & Hp2);
      destruct r2; (split; [eapply cx_trans; eassumption|exact Hp2]). }
  destruct r as [[[c2 cs2] p2]|code [[c2 cs2] p2]]; cbn [ctl_state fst snd] in XL.
  2:{ injection H as <- <- <-. exists c2. auto. }
  apply (bodies_inv C _ _ _ (t_complaints c)) in HL; [|intros i Hi; apply G2; lia|exact (w_sid c W)|lia|lia|lia|reflexivity].
  destruct HL as (_ & _ & _ & _ & HO).
  apply bind_ok in H. destruct H as (r & HU & H).
  apply (loop_cx true (fun c => c) _ _ _ _ (here (t_n c) 7)) in HU; [|apply here_cx|exact (here_cx _ _ _ _ _ XL (conj eq_refl (conj Hs (w_sid c W))))|].
  2:{ intros x s1 r1 Hx Hq E. destruct (Z.eq_dec x 65535) as [->|Nx]; [unfold tp_step18_unanswered in E; cbn [Z.eqb Pos.eqb] in E; injection E as <-; apply cx_refl|].
      eapply (cx_step18_unanswered (t_n c)); [|lia|exact Hq|exact E]. rewrite Forall_forall in Hok. apply Hok. apply (count_occ_In Z.eq_dec).
      apply (count_occ_In Z.eq_dec) in Hx. destruct (HO x Nx). lia. }
  destruct r as [c3|code c3]; cbn [ctl_state] in HU; injection H as <- <- <-; exists c3; (split; [eapply cx_trans; eassumption|]); split; reflexivity.
Qed.

(** one call *)
Lemma call_records e c input out ret c' out' : tp_wf c -> good_complaints (t_n c) (t_complaints c) -> tp_next C e c input out = Ok (ret, c', out') ->
  t_n c' = t_n c /\ good_complaints (t_n c) (t_complaints c') /\ exists new, recorded c c' new /\ Forall (recordable (t_n c)) new.
Proof.
  intros W G H. assert (Hn' : t_n c' = t_n c).
  { pose proof (tp_next_moves _ _ _ _ _ _ _ _ H) as [(_ & _ & -> & _)|(_ & c1 & X & D)]; [reflexivity|]. rewrite <- (x_n _ _ X).
    destruct D as [(_ & ->)|[(_ & _ & ->)|(_ & _ & D)]]; try reflexivity. destruct D as [->|(_ & _ & ->)]; reflexivity. }
  split; [exact Hn'|].
  assert (K : (exists c1, cx true c c1 /\ t_complaints c' = t_complaints c1 /\ t_cheaters c' = t_cheaters c1) ->
    good_complaints (t_n c) (t_complaints c') /\ exists new, recorded c c' new /\ Forall (recordable (t_n c)) new).
  { intros (c1 & X & E1 & E2). rewrite E1, (cx_complaints _ _ _ X eq_refl). split; [exact G|]. destruct (cx_new _ _ _ X) as (new & E & Fn). exists new. unfold recorded. rewrite E2. auto. }
  assert (D : (t_step c < 0 \/ 9 < t_step c) \/ t_step c = 0 \/ t_step c = 1 \/ (t_step c = 2 \/ t_step c = 3) \/ t_step c = 4 \/ t_step c = 5 \/ t_step c = 6 \/ t_step c = 7 \/ t_step c = 8 \/ t_step c = 9) by lia.
  destruct D as [D|[D|[D|[D|[D|[D|[D|[D|[D|D]]]]]]]]].
  - rewrite tp_next_other in H by exact D. injection H as <- <- <-. apply K. exists c. split; [apply cx_refl|auto].
  - rewrite tp_next_0 in H by exact D. apply finish_inv in H. destruct H as (c1 & H & ->). apply K. exists c1. split; [eapply cx_step1; eassumption|auto].
  - rewrite tp_next_1 in H by exact D. apply finish_inv in H. destruct H as (c1 & H & ->). apply K. exists c1. split; [eapply cx_step4; eassumption|auto].
  - assert (HH : tp_next C e c input out = tp_finish_step (tp_step68 C e c input out)) by (destruct D; [apply tp_next_2|apply tp_next_3]; assumption).
    rewrite HH in H. apply finish_inv in H. destruct H as (c1 & H & ->). apply K. exists c1. split; [eapply cx_step68; eassumption|auto].
  - rewrite tp_next_4 in H by exact D. apply finish_inv in H. destruct H as (c1 & H & ->). apply K. exists c1. split; [eapply cx_step12; eassumption|auto].
  - rewrite tp_next_5 in H by exact D. apply finish_inv in H. destruct H as (c1 & H & ->). apply K. exists c1. split; [eapply cx_step14; eassumption|auto].
  - rewrite tp_next_6 in H by exact D. apply bind_ok in H. destruct H as (((r & c1) & o1) & H & E). injection E as <- <- <-.
    cbn [t_complaints tp_step_set]. pose proof (cx_step16 _ _ _ _ _ _ _ D W H) as X. split.
    + destruct (Z.eq_dec r 1) as [E1|E1]; [|destruct (Z.eq_dec r 2) as [E2|E2]].
      * subst r. unfold tp_step16 in H. destruct (_ =? zlen input); cbn [negb] in H; [|injection H as <- <-; exact G].
        destruct (zlen out =? _); cbn [negb] in H; [|discriminate].
        apply bind_ok in H. destruct H as (q & L & H). destruct q as [[[c3 out3] w]|code [[c3 out3] w]].
        -- inv H; discriminate.
        -- injection H as -> -> ->. exfalso.
           assert (1 = 6 \/ 1 = 4) by (refine (loopM_code (fun r => r = 6 \/ r = 4) _ _ _ _ _ _ L); intros x s1 r1 s2 E'; destruct s1 as [[a b] q]; unfold tp_step16_body in E'; inv E'; auto;
             match goal with HQ : loopM _ _ _ = Ok (Return _ _) |- _ => refine (loopM_code (fun r => r = 6 \/ r = 4) _ _ _ _ _ _ HQ) end;
             intros x2 s3 r2 s4 E''; unfold tp_step16_complaint in E''; inv E''; auto). lia.
      * subst r. unfold tp_step16 in H. destruct (_ =? zlen input); cbn [negb] in H; [|discriminate].
        destruct (zlen out =? _); cbn [negb] in H; [|injection H as <- <-; exact G].
        apply bind_ok in H. destruct H as (q & L & H). destruct q as [[[c3 out3] w]|code [[c3 out3] w]].
        -- inv H; discriminate.
        -- injection H as -> -> ->. exfalso.
           assert (2 = 6 \/ 2 = 4) by (refine (loopM_code (fun r => r = 6 \/ r = 4) _ _ _ _ _ _ L); intros x s1 r1 s2 E'; destruct s1 as [[a b] q]; unfold tp_step16_body in E'; inv E'; auto;
             match goal with HQ : loopM _ _ _ = Ok (Return _ _) |- _ => refine (loopM_code (fun r => r = 6 \/ r = 4) _ _ _ _ _ _ HQ) end;
             intros x2 s3 r2 s4 E''; unfold tp_step16_complaint in E''; inv E''; auto). lia.
      * exact (proj1 (complaints_well_formed C _ _ _ _ _ _ _ (w_n c W) H E1 E2)).
    + destruct (cx_new _ _ _ X) as (new & E & Fn). exists new. split; [exact E|exact Fn].
  - rewrite tp_next_7 in H by exact D. apply finish_inv in H. destruct H as (c1 & H & ->). apply K.
    destruct (cx_step18 _ _ _ _ _ _ _ D W G H) as (c2 & X & E1 & E2). exists c2. split; [exact X|]. split; [exact E1|exact E2].
  - rewrite tp_next_8 in H by exact D. apply finish_inv in H. destruct H as (c1 & H & ->). apply K.
    destruct (cx_step20 _ _ _ _ _ _ _ D W H) as (c2 & X & E1 & E2). exists c2. split; [exact X|]. split; [exact E1|exact E2].
  - rewrite tp_next_9 in H by exact D. apply finish_inv in H. destruct H as (c1 & H & ->). apply K. exists c1. split; [eapply cx_step22; eassumption|auto].
Qed.

(** a whole history *)
Lemma run_records calls : forall c outs, tp_wf c -> good_complaints (t_n c) (t_complaints c) -> tp_run C c calls = Ok outs ->
  t_n (final c outs) = t_n c /\ good_complaints (t_n c) (t_complaints (final c outs)) /\ exists new, recorded c (final c outs) new /\ Forall (recordable (t_n c)) new.
Proof.
  induction calls as [|[[e input] out] calls IH]; intros c outs W G H; cbn [tp_run] in H.
  - injection H as <-. cbn. split; [reflexivity|]. split; [exact G|]. exists []. unfold recorded. rewrite app_nil_r. auto.
  - apply bind_ok in H. destruct H as (((ret & c') & out') & E & H). apply bind_ok in H. destruct H as (outs' & E2 & H). injection H as <-.
    destruct (call_records _ _ _ _ _ _ _ W G E) as (A1 & A2 & new & A3 & A4). pose proof (tp_wf_step C _ _ _ _ _ _ _ W E) as W'.
    rewrite <- A1 in A2. destruct (IH _ _ W' A2 E2) as (B1 & B2 & new2 & B3 & B4). rewrite final_cons. cbn [fst snd]. rewrite A1 in *.
    split; [exact B1|]. split; [exact B2|]. exists (new ++ new2). unfold recorded in *. rewrite B3, A3, app_assoc. split; [reflexivity|]. apply Forall_app. auto.
Qed.

(** C38: the list of cheaters of a history that started without any *)
Lemma reports_history calls c outs : tp_wf c -> t_complaints c = [] -> t_cheaters c = [] -> tp_run C c calls = Ok outs ->
  forall ch, In ch (t_cheaters (final c outs)) -> recordable (t_n c) ch /\
    (unnamed ch -> blames ch = 0) /\
    (ch_step ch = 18 /\ ch_error ch = 128 -> blames ch = ch_other ch) /\
    (~ unnamed ch -> ~ (ch_step ch = 18 /\ ch_error ch = 128) -> blames ch = ch_peer ch).
Proof.
  intros W Hc Hch H ch Hin. assert (G : good_complaints (t_n c) (t_complaints c)) by (rewrite Hc; split; constructor).
  destruct (run_records calls c outs W G H) as (_ & _ & new & R & F). unfold recorded in R. rewrite Hch in R. cbn [app] in R. rewrite R in Hin.
  rewrite Forall_forall in F. specialize (F _ Hin). pose proof (w_n c W). split; [exact F|]. apply (report_of (t_n c)); [exact F|lia].
Qed.
End REPORTS.
