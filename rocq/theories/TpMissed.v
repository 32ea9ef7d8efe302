(** Every violation is reported (C93). *)
From Coq Require Import ZArith Lia List Bool.
From Coq.Strings Require Import Byte.
From Verif Require Import Bytes Res Mem Sodium ToprfModel ToprfSpec DkgModel DkgSpec DkgProofs WireModel WireSpec WireProofs TpCrypto TpModel PeerModel CheaterModel.
From Verif Require Import TpFrame PeerFrame TpSpec TpMsg TpContent TpComplaints TpControl TpSizes PeerContent TpAgree BlameSpec TpBlame TpReports TpSafe TpRun ReportSpec TpTruth MissedSpec.
Import ListNotations.
Open Scope list_scope.
Open Scope Z_scope.

Section MISSED.
Variable C : crypto.
Notation S := (cS C).
Notation proj3 := (fun s : tp * bytes * Z => fst (fst s)).
Notation anyone := (fun _ : cheater => True).

(** What every step keeps; the list of cheaters grows by [news]. *)
Record ux (b : bool) (c c' : tp) : Prop := mkUx { ux_tx : tx b anyone c c'; ux_max : t_chmax c' = t_chmax c }.
Definition news (c c' : tp) : list cheater := skipn (length (t_cheaters c)) (t_cheaters c').
Definition full (c c' : tp) : Prop := t_chmax c <= zlen (t_cheaters c').

Lemma some_left {A} (l : list A) : 0 < zlen l -> l <> [].
Proof. intros H ->. unfold zlen in H. cbn in H. lia. Qed.
Lemma ux_refl b c : ux b c c.
Proof. constructor; [apply tx_refl|reflexivity]. Qed.
Lemma ux_same b c c1 c2 : ux b c c1 -> t_n c2 = t_n c1 -> t_t c2 = t_t c1 -> t_sid c2 = t_sid c1 -> t_eps c2 = t_eps c1 -> t_step c2 = t_step c1 ->
  (b = true -> t_pks c2 = t_pks c1) -> t_cheaters c2 = t_cheaters c1 -> t_chmax c2 = t_chmax c1 -> ux b c c2.
Proof. intros [X M] H1 H2 H3 H4 H5 H6 H7 H8. constructor; [apply (tx_same _ _ _ _ _ X); assumption|congruence]. Qed.
Lemma ux_news b c c' : ux b c c' -> recorded c c' (news c c').
Proof. intros [X _]. destruct (tx_new _ _ _ _ X) as (new & E & _). unfold recorded, news. rewrite E, skipn_app, skipn_all, Nat.sub_diag. reflexivity. Qed.
Lemma ux_add b c c1 step error peer other c2 : ux b c c1 -> add_cheater c1 step error peer other = Some c2 -> 0 <= peer < 256 -> 0 <= other < 256 ->
  ux b c c2 /\ t_last c2 = t_last c1 /\ t_complaints c2 = t_complaints c1 /\ news c c2 = news c c1 ++ [mkCheater step error peer other 0].
Proof.
  intros [X M] H Hp Ho. destruct (tx_add _ _ _ _ _ _ _ _ _ X H Hp Ho I) as (X2 & L & K). pose proof H as H0. apply add_cheater_inv in H. destruct H as (_ & ->).
  split; [constructor; [exact X2|exact M]|]. split; [exact L|]. split; [exact K|]. unfold news. cbn [t_cheaters tp_cheaters_set]. unfold Mem.u8. rewrite !Z.mod_small by lia.
  destruct (tx_new _ _ _ _ X) as (new & E & _). rewrite E, <- app_assoc, !skipn_app, !skipn_all, !Nat.sub_diag. reflexivity.
Qed.
Lemma ux_full b c c1 step error peer other : ux b c c1 -> add_cheater c1 step error peer other = None -> full c c1.
Proof. intros [_ M] H. unfold add_cheater in H. unfold full. rewrite <- M. destruct (Z.leb_spec (t_chmax c1) (zlen (t_cheaters c1))); [assumption|discriminate]. Qed.

Lemma named_more l1 l2 step p o : named l1 step p o -> named (l1 ++ l2) step p o.
Proof. intros (ch & H & Q). exists ch. split; [apply in_or_app; left; exact H|exact Q]. Qed.
Lemma named_last l step err p o inv : named (l ++ [mkCheater step err p o inv]) step p o.
Proof. exists (mkCheater step err p o inv). split; [apply in_or_app; right; left; reflexivity|repeat split]. Qed.

(** ** One message of each peer *)
Definition fine1 (e : env) (c : tp) (input : bytes) (step to i : Z) (c' : tp) : Prop :=
  forall q, 0 <= q < i -> named (news c c') step (q + 1) to \/ good_message C e c input step (q + 1) to.
Lemma fine1_same e c input step to i c1 c2 : fine1 e c input step to i c1 -> t_cheaters c2 = t_cheaters c1 -> fine1 e c input step to i c2.
Proof. intros H E q Hq. unfold news. rewrite E. exact (H q Hq). Qed.
Lemma fine1_good e c input step to i c1 : fine1 e c input step to i c1 -> good_message C e c input step (i + 1) to -> fine1 e c input step to (i + 1) c1.
Proof. intros H G q Hq. destruct (Z.eq_dec q i) as [->|]; [right; exact G|apply H; lia]. Qed.
Lemma fine1_named e c input step to i c1 c2 err : fine1 e c input step to i c1 -> news c c2 = news c c1 ++ [mkCheater step err (i + 1) to 0] -> fine1 e c input step to (i + 1) c2.
Proof.
  intros H E q Hq. rewrite E. destruct (Z.eq_dec q i) as [->|]; [left; apply named_last|]. destruct (H q ltac:(lia)) as [N|G]; [left; apply named_more; exact N|right; exact G].
Qed.

Lemma good_one e c input step i off len msgno to pk last : 0 <= i < t_n c ->
  slot (t_n c) (t_t c) step (i + 1) to = Some (off, len, msgno, i) -> key_of c input step (i + 1) pk -> getz (t_last c) i = Ok last ->
  accepted C input off len pk (t_sid c) msgno (i + 1) to (t_eps c) last (e_r e i) -> good_message C e c input step (i + 1) to.
Proof.
  intros Hi Hsl Hk Hl Ha. exists off, len, msgno, i, pk, last. split; [exact Hsl|]. split; [exact Hk|]. split; [|exact Ha].
  left. replace (i + 1 - 1) with i by lia. exact Hl.
Qed.

Lemma take_one b c c1 input off len msgno to pk i now ret c2 : ux b c c1 -> later c i c1 ->
  tp_recv C c1 input off len msgno (i + 1) to pk i now = Ok (ret, c2) -> 0 <= off -> 111 <= len -> off + len <= zlen input ->
  ux b c c2 /\ later c (i + 1) c2 /\ t_complaints c2 = t_complaints c1 /\ t_cheaters c2 = t_cheaters c1 /\
  exists last, getz (t_last c) i = Ok last /\ (ret = 0 -> accepted C input off len pk (t_sid c) msgno (i + 1) to (t_eps c) last now).
Proof.
  intros [X M] L H Ho Hl Hb. destruct (recv_one C _ _ _ _ _ _ _ _ _ _ _ _ _ _ X L H Ho Hl Hb) as (X2 & L2 & K2 & _ & last & G1 & _ & G3).
  apply tp_recv_inv in H. destruct H as (la & la' & l & _ & _ & _ & ->).
  split; [constructor; [exact X2|exact M]|]. split; [exact L2|]. split; [exact K2|]. split; [reflexivity|]. exists last. auto.
Qed.

Lemma loop1' {X} b c e input step to (proj : X -> tp) f s r (Q : Z -> Prop) :
  (forall i s r, 0 <= i < t_n c -> ux b c (proj s) -> later c i (proj s) -> fine1 e c input step to i (proj s) -> f i s = Ok r ->
    match r with Next s' => ux b c (proj s') /\ later c (i + 1) (proj s') /\ fine1 e c input step to (i + 1) (proj s') | Return code s' => ux b c (proj s') /\ (full c (proj s') \/ Q code) end) ->
  ux b c (proj s) -> later c 0 (proj s) -> loopM f (zrange 0 (Z.to_nat (t_n c))) s = Ok r -> 0 <= t_n c ->
  match r with Next s' => ux b c (proj s') /\ fine1 e c input step to (t_n c) (proj s') | Return code s' => ux b c (proj s') /\ (full c (proj s') \/ Q code) end.
Proof.
  intros Hf H1 H2 H Hn.
  pose proof (loopM_seq_inv f (fun i s => ux b c (proj s) /\ later c i (proj s) /\ fine1 e c input step to i (proj s)) (fun code s => ux b c (proj s) /\ (full c (proj s) \/ Q code)) 0 (Z.to_nat (t_n c)) s r) as L.
  assert (R : match r with Next s2 => ux b c (proj s2) /\ later c (0 + Z.of_nat (Z.to_nat (t_n c))) (proj s2) /\ fine1 e c input step to (0 + Z.of_nat (Z.to_nat (t_n c))) (proj s2) | Return code s2 => ux b c (proj s2) /\ (full c (proj s2) \/ Q code) end).
  { apply L; [split; [exact H1|split; [exact H2|intros q Hq; lia]]| |exact H]. intros i s1 r1 Hi (A & B & D) E. eapply Hf; try eassumption. lia. }
  destruct r; [|exact R]. destruct R as (A & _ & D). split; [exact A|]. replace (t_n c) with (0 + Z.of_nat (Z.to_nat (t_n c))) by lia. exact D.
Qed.

(** ** Step 4 *)
Definition keyed4 (c : tp) (c' : tp) : Prop := t_lt c' = t_lt c.
Lemma fine_step4_body e c input i s r : 0 <= i < t_n c -> t_n c <= 128 -> zlen input = 239 * t_n c ->
  ux false c (proj3 s) -> t_lt (proj3 s) = t_lt c -> later c i (proj3 s) -> fine1 e c input 4 255 i (proj3 s) -> tp_step4_body C e input i s = Ok r ->
  t_lt (proj3 (ctl_state r)) = t_lt c /\
  match r with Next s' => ux false c (proj3 s') /\ later c (i + 1) (proj3 s') /\ fine1 e c input 4 255 (i + 1) (proj3 s')
  | Return code s' => ux false c (proj3 s') /\ (full c (proj3 s') \/ code = 3 /\ ~ vouched C c input (i + 1)) end.
Proof.
  destruct s as [[c1 out] w]. cbn [fst]. intros Hi Hn Hz X LT L F H. unfold tp_step4_body in H. change (msg2_SIZE + sign_BYTES) with 239 in H. change msg2_SIZE with 175 in H. change sign_BYTES with 64 in H.
  apply bind_ok in H. destruct H as (ltsig & Hs & H). apply bind_ok in H. destruct H as (m & Hm & H). apply bind_ok in H. destruct H as (lt & Hlt & H). rewrite LT in Hlt.
  destruct (sig_verify _ _ _ _) eqn:Ev; cbn [negb] in H.
  2:{ injection H as <-. split; [exact LT|]. split; [exact X|]. right. split; [reflexivity|]. intros (lt' & m' & s' & V1 & V2 & V3 & V4).
      replace (i + 1 - 1) with i in V1, V2, V3 by lia. rewrite (Z.mul_comm 239) in V2, V3. rewrite Hlt in V1. rewrite Hm in V2. rewrite Hs in V3. congruence. }
  apply bind_ok in H. destruct H as (pk & Hpk & H). apply bind_ok in H. destruct H as ((ret & c2) & E2 & H). rewrite hdr_val in Hpk.
  assert (LT2 : t_lt c2 = t_lt c) by (pose proof E2 as E3; apply tp_recv_inv in E3; destruct E3 as (? & ? & ? & _ & _ & _ & ->); exact LT).
  destruct (take_one _ _ _ _ _ _ _ _ _ _ _ _ _ X L E2 ltac:(lia) ltac:(lia) ltac:(lia)) as (X2 & L2 & _ & Ec & last & G1 & G3).
  pose proof (fine1_same _ _ _ _ _ _ _ _ F Ec) as F2.
  destruct (ret =? 0) eqn:E0; cbn [negb] in H.
  - apply bind_ok in H. destruct H as (pks & _ & H). apply bind_ok in H. destruct H as (out' & _ & H). injection H as <-. cbn [fst ctl_state]. split; [exact LT2|]. apply Z.eqb_eq in E0. split; [|split; [exact L2|]].
    + apply (ux_same _ _ _ _ X2); try reflexivity. discriminate.
    + apply (fine1_same _ _ _ _ _ _ c2); [|reflexivity]. apply fine1_good; [exact F2|].
      apply (good_one e c input 4 i (239 * i) 175 2 255 pk last); [exact Hi| | |exact G1|].
      * cbn [slot]. replace (i + 1 - 1) with i by lia. reflexivity.
      * unfold key_of. cbn [Z.eqb Pos.eqb]. replace (i + 1 - 1) with i by lia. rewrite <- Hpk. f_equal; lia.
      * rewrite Z.mul_comm. apply G3. exact E0.
  - destruct (add_cheater _ _ _ _ _) eqn:Ea in H; injection H as <-; cbn [fst ctl_state].
    2:{ split; [exact LT2|]. split; [exact X2|]. left. eapply ux_full; eassumption. }
    destruct (ux_add _ _ _ _ _ _ _ _ X2 Ea ltac:(lia) ltac:(lia)) as (X3 & L3 & _ & N3).
    split; [apply add_cheater_inv in Ea; destruct Ea as (_ & ->); exact LT2|]. split; [exact X3|]. split; [unfold later; rewrite L3; exact L2|]. eapply fine1_named; eassumption.
Qed.

Definition unsigned (c : tp) (input : bytes) : Prop := exists p, 1 <= p <= t_n c /\ ~ vouched C c input p.
Lemma fine_step4 e c input out ret c' out' : tp_wf c -> zlen input = 239 * t_n c -> zlen out = msg2_SIZE * t_n c + hdr_SIZE -> tp_step4 C e c input out = Ok (ret, c', out') ->
  ux false c c' /\ (fine1 e c input 4 255 (t_n c) c' /\ (ret <> 0 -> t_cheaters c' <> []) \/ full c c' \/ unsigned c input).
Proof.
  intros W Hz Hzo H. pose proof (w_n c W) as Hn. unfold tp_step4 in H. change (msg2_SIZE + sign_BYTES) with 239 in H.
  rewrite (proj2 (Z.eqb_eq _ _) (eq_sym Hz)), (proj2 (Z.eqb_eq _ _) Hzo) in H. cbn [negb] in H.
  apply bind_ok in H. destruct H as (r & HL & H).
  pose proof (loopM_seq_inv (tp_step4_body C e input) (fun i s => ux false c (proj3 s) /\ t_lt (proj3 s) = t_lt c /\ later c i (proj3 s) /\ fine1 e c input 4 255 i (proj3 s))
    (fun code s => ux false c (proj3 s) /\ (full c (proj3 s) \/ unsigned c input)) 0 (Z.to_nat (t_n c)) (c, out, hdr_SIZE) r) as L.
  specialize (fun A B => L A B HL).
  assert (Q : match r with Next s2 => ux false c (proj3 s2) /\ t_lt (proj3 s2) = t_lt c /\ later c (0 + Z.of_nat (Z.to_nat (t_n c))) (proj3 s2) /\ fine1 e c input 4 255 (0 + Z.of_nat (Z.to_nat (t_n c))) (proj3 s2)
    | Return code s2 => ux false c (proj3 s2) /\ (full c (proj3 s2) \/ unsigned c input) end).
  { apply L.
    - cbn [fst]. split; [apply ux_refl|]. split; [reflexivity|]. split; [intros j _; reflexivity|intros q Hq; lia].
    - intros i s1 r1 Hi (A1 & A2 & A3 & A4) E. destruct (fine_step4_body e c input i s1 r1 ltac:(lia) ltac:(lia) Hz A1 A2 A3 A4 E) as (B1 & B2).
      destruct r1 as [s2|code s2]; cbn [ctl_state] in B1; [destruct B2 as (B2 & B3 & B4); auto|]. destruct B2 as (B2 & [B3|(_ & B3)]); [auto|].
      split; [exact B2|]. right. exists (i + 1). split; [lia|exact B3]. }
  clear L. destruct r as [[[c1 o1] w1]|code [[c1 o1] w1]]; cbn [fst] in Q.
  2:{ injection H as <- <- <-. destruct Q as (Q1 & Q2). split; [exact Q1|right; exact Q2]. }
  destruct Q as (Q1 & _ & _ & Q4). replace (0 + Z.of_nat (Z.to_nat (t_n c))) with (t_n c) in Q4 by lia.
  destruct (Z.ltb_spec 0 (zlen (t_cheaters c1))) as [Hc|].
  - injection H as <- <- <-. split; [exact Q1|]. left. split; [exact Q4|]. intros _. apply some_left. exact Hc.
  - apply bind_ok in H. destruct H as (o2 & _ & H). injection H as <- <- <-. split; [apply (ux_same _ _ _ _ Q1); reflexivity|]. left. split; [|congruence].
    apply (fine1_same _ _ _ _ _ _ c1); [exact Q4|reflexivity].
Qed.

(** ** Step 12 *)
Lemma fine_step12_body e c input i s r : 0 <= i < t_n c -> t_n c <= 128 -> 0 <= t_t c -> zlen input = msg6_SIZE (t_t c) * t_n c ->
  ux true c (proj3 s) -> later c i (proj3 s) -> fine1 e c input 12 255 i (proj3 s) -> tp_step12_body C e input i s = Ok r ->
  match r with Next s' => ux true c (proj3 s') /\ later c (i + 1) (proj3 s') /\ fine1 e c input 12 255 (i + 1) (proj3 s') | Return code s' => ux true c (proj3 s') /\ (full c (proj3 s') \/ False) end.
Proof.
  destruct s as [[c1 out] w]. cbn [fst]. intros Hi Hn Ht Hz X L F H. unfold tp_step12_body in H. rewrite (tx_t _ _ _ _ (ux_tx _ _ _ X)) in H.
  assert (E6 : msg6_SIZE (t_t c) = 111 + 32 * t_t c) by reflexivity. rewrite E6 in *.
  apply bind_ok in H. destruct H as (pk & Hpk & H). apply bind_ok in H. destruct H as ((ret & c2) & E2 & H).
  rewrite (tx_pks _ _ _ _ (ux_tx _ _ _ X) eq_refl) in Hpk.
  destruct (take_one _ _ _ _ _ _ _ _ _ _ _ _ _ X L E2 ltac:(nia) ltac:(lia) ltac:(nia)) as (X2 & L2 & _ & Ec & last & G1 & G3).
  pose proof (fine1_same _ _ _ _ _ _ _ _ F Ec) as F2.
  destruct (ret =? 0) eqn:E0; cbn [negb] in H.
  - apply bind_ok in H. destruct H as (data & _ & H). apply bind_ok in H. destruct H as (com & _ & H). apply bind_ok in H. destruct H as (m & _ & H).
    apply bind_ok in H. destruct H as (out' & _ & H). injection H as <-. cbn [fst]. apply Z.eqb_eq in E0. split; [|split; [exact L2|]].
    + apply (ux_same _ _ _ _ X2); reflexivity.
    + apply (fine1_same _ _ _ _ _ _ c2); [|reflexivity]. apply fine1_good; [exact F2|].
      apply (good_one e c input 12 i ((111 + 32 * t_t c) * i) (111 + 32 * t_t c) 6 255 pk last); [exact Hi| | |exact G1|].
      * cbn [slot]. replace (i + 1 - 1) with i by lia. reflexivity.
      * unfold key_of. cbn [Z.eqb Pos.eqb]. replace (i + 1 - 1) with i by lia. exact Hpk.
      * rewrite (Z.mul_comm _ i). apply G3. exact E0.
  - destruct (add_cheater _ _ _ _ _) eqn:Ea in H; injection H as <-; cbn [fst]; [|split; [exact X2|left; eapply ux_full; eassumption]].
    destruct (ux_add _ _ _ _ _ _ _ _ X2 Ea ltac:(lia) ltac:(lia)) as (X3 & L3 & _ & N3).
    split; [exact X3|]. split; [unfold later; rewrite L3; exact L2|]. eapply fine1_named; eassumption.
Qed.
Lemma fine_step12 e c input out ret c' out' : tp_wf c -> zlen input = msg6_SIZE (t_t c) * t_n c -> zlen out = hdr_SIZE + zlen input -> tp_step12 C e c input out = Ok (ret, c', out') ->
  ux true c c' /\ (fine1 e c input 12 255 (t_n c) c' /\ (ret <> 0 -> t_cheaters c' <> []) \/ full c c').
Proof.
  intros W Hz Hzo H. pose proof (w_n c W) as Hn. pose proof (w_t c W) as Ht. unfold tp_step12 in H.
  rewrite (proj2 (Z.eqb_eq _ _) (eq_sym Hz)), (proj2 (Z.eqb_eq _ _) Hzo) in H. cbn [negb] in H.
  apply bind_ok in H. destruct H as (r & HL & H).
  apply (loop1' true c e input 12 255 proj3 _ _ _ (fun _ => False)) in HL; [|intros; eapply fine_step12_body; try eassumption; lia|apply ux_refl|intros j _; reflexivity|lia].
  destruct r as [[[c1 o1] w1]|code [[c1 o1] w1]]; cbn [fst] in HL; destruct HL as (X & F).
  2:{ injection H as <- <- <-. split; [exact X|right; destruct F as [F|[]]; exact F]. }
  destruct (Z.ltb_spec 0 (zlen (t_cheaters c1))) as [Hc|].
  - injection H as <- <- <-. split; [exact X|]. left. split; [exact F|]. intros _. apply some_left. exact Hc.
  - apply bind_ok in H. destruct H as (o2 & _ & H). injection H as <- <- <-. split; [apply (ux_same _ _ _ _ X); reflexivity|]. left. split; [|congruence].
    apply (fine1_same _ _ _ _ _ _ c1); [exact F|reflexivity].
Qed.

(** ** Step 22 *)
Lemma fine_step22_body e c input i c1 r : 0 <= i < t_n c -> t_n c <= 128 -> zlen input = 113 * t_n c ->
  ux true c c1 -> later c i c1 -> fine1 e c input 22 0 i c1 -> tp_step22_body C e input i c1 = Ok r ->
  match r with Next s' => ux true c s' /\ later c (i + 1) s' /\ fine1 e c input 22 0 (i + 1) s' | Return code s' => ux true c s' /\ (full c s' \/ False) end.
Proof.
  intros Hi Hn Hz X L F H. unfold tp_step22_body in H. change msg21_SIZE with 113 in H.
  apply bind_ok in H. destruct H as (pk & Hpk & H). apply bind_ok in H. destruct H as ((ret & c2) & E2 & H).
  rewrite (tx_pks _ _ _ _ (ux_tx _ _ _ X) eq_refl) in Hpk.
  destruct (take_one _ _ _ _ _ _ _ _ _ _ _ _ _ X L E2 ltac:(lia) ltac:(lia) ltac:(lia)) as (X2 & L2 & _ & Ec & last & G1 & G3).
  pose proof (fine1_same _ _ _ _ _ _ _ _ F Ec) as F2.
  destruct (ret =? 0) eqn:E0; cbn [negb] in H.
  - apply bind_ok in H. destruct H as (d & _ & H). injection H as <-. apply Z.eqb_eq in E0. split; [exact X2|]. split; [exact L2|]. apply fine1_good; [exact F2|].
    apply (good_one e c input 22 i (113 * i) 113 22 0 pk last); [exact Hi| | |exact G1|].
    + cbn [slot]. replace (i + 1 - 1) with i by lia. reflexivity.
    + unfold key_of. cbn [Z.eqb Pos.eqb]. replace (i + 1 - 1) with i by lia. exact Hpk.
    + rewrite (Z.mul_comm _ i). apply G3. exact E0.
  - destruct (add_cheater _ _ _ _ _) eqn:Ea in H; injection H as <-; [|split; [exact X2|left; eapply ux_full; eassumption]].
    destruct (ux_add _ _ _ _ _ _ _ _ X2 Ea ltac:(lia) ltac:(lia)) as (X3 & L3 & _ & N3).
    split; [exact X3|]. split; [unfold later; rewrite L3; exact L2|]. eapply fine1_named; eassumption.
Qed.
Lemma fine_step22 e c input out ret c' out' : tp_wf c -> zlen input = 113 * t_n c -> zlen out = 0 -> tp_step22 C e c input out = Ok (ret, c', out') ->
  ux true c c' /\ (fine1 e c input 22 0 (t_n c) c' /\ (ret <> 0 -> t_cheaters c' <> []) \/ full c c').
Proof.
  intros W Hz Hzo H. pose proof (w_n c W) as Hn. unfold tp_step22 in H. change msg21_SIZE with 113 in H.
  rewrite (proj2 (Z.eqb_eq _ _) (eq_sym Hz)), (proj2 (Z.eqb_eq _ _) Hzo) in H. cbn [negb] in H.
  apply bind_ok in H. destruct H as (r & HL & H).
  apply (loop1' true c e input 22 0 (fun c => c) _ _ _ (fun _ => False)) in HL; [|intros; eapply fine_step22_body; try eassumption; lia|apply ux_refl|intros j _; reflexivity|lia].
  destruct r as [c1|code c1]; destruct HL as (X & F); injection H as <- <- <-; (split; [exact X|]).
  - left. split; [exact F|]. destruct (Z.ltb_spec 0 (zlen (t_cheaters c1))) as [Hc|]; [|congruence]. intros _. apply some_left. exact Hc.
  - right. destruct F as [F|[]]. exact F.
Qed.

(** ** Step 20 *)
Definition agreed (e : env) (c : tp) (input : bytes) (i : Z) (c' : tp) : Prop :=
  forall q, 0 <= q < i -> digest_differs C e c input (q + 1) -> named (news c c') 20 (q + 1) 0.
Lemma fine_step20_body e c input i s r : 0 <= i < t_n c -> t_n c <= 128 -> zlen input = 143 * t_n c ->
  ux true c (fst s) -> later c i (fst s) -> fine1 e c input 20 0 i (fst s) -> agreed e c input i (fst s) -> tp_step20_body C e input (blake2b (cH C) 32 (t_transcript c)) i s = Ok r ->
  match r with Next s' => ux true c (fst s') /\ later c (i + 1) (fst s') /\ fine1 e c input 20 0 (i + 1) (fst s') /\ agreed e c input (i + 1) (fst s') | Return _ s' => ux true c (fst s') /\ full c (fst s') end.
Proof.
  destruct s as [c1 out]. cbn [fst]. intros Hi Hn Hz X L F A H. unfold tp_step20_body in H. change msg19_SIZE with 143 in H.
  apply bind_ok in H. destruct H as (pk & Hpk & H). apply bind_ok in H. destruct H as ((ret & c2) & E2 & H).
  rewrite (tx_pks _ _ _ _ (ux_tx _ _ _ X) eq_refl) in Hpk.
  destruct (take_one _ _ _ _ _ _ _ _ _ _ _ _ _ X L E2 ltac:(lia) ltac:(lia) ltac:(lia)) as (X2 & L2 & _ & Ec & last & G1 & G3).
  pose proof (fine1_same _ _ _ _ _ _ _ _ F Ec) as F2.
  assert (A2 : agreed e c input i c2) by (intros q Hq D; unfold news; rewrite Ec; exact (A q Hq D)).
  assert (Up : forall c3 err, news c c3 = news c c2 ++ [mkCheater 20 err (i + 1) 0 0] -> agreed e c input (i + 1) c3).
  { intros c3 err N q Hq D. rewrite N. destruct (Z.eq_dec q i) as [->|]; [apply named_last|]. apply named_more. apply A2; [lia|exact D]. }
  destruct (ret =? 0) eqn:E0; cbn [negb] in H.
  - apply Z.eqb_eq in E0. specialize (G3 E0). apply bind_ok in H. destruct H as (d & Hd & H). rewrite hdr_val in Hd.
    assert (G : good_message C e c input 20 (i + 1) 0).
    { apply (good_one e c input 20 i (143 * i) 143 20 0 pk last); [exact Hi| | |exact G1|].
      - cbn [slot]. replace (i + 1 - 1) with i by lia. reflexivity.
      - unfold key_of. cbn [Z.eqb Pos.eqb]. replace (i + 1 - 1) with i by lia. exact Hpk.
      - rewrite (Z.mul_comm _ i). exact G3. }
    destruct (bytes_eqb _ d) eqn:Ed; cbn [negb] in H.
    + injection H as <-. cbn [fst]. split; [exact X2|]. split; [exact L2|]. split; [apply fine1_good; assumption|]. intros q Hq D. destruct (Z.eq_dec q i) as [->|]; [|apply A2; [lia|exact D]].
      exfalso. destruct D as (_ & _ & d' & Hd' & Hne). replace (i + 1 - 1) with i in Hd' by lia. rewrite (Z.mul_comm 143) in Hd'. rewrite Hd in Hd'. injection Hd' as <-. apply bytes_eqb_eq in Ed. congruence.
    + destruct (add_cheater _ _ _ _ _) eqn:Ea in H; [|injection H as <-; split; [exact X2|eapply ux_full; eassumption]].
      destruct (ux_add _ _ _ _ _ _ _ _ X2 Ea ltac:(lia) ltac:(lia)) as (X3 & L3 & _ & N3).
      apply bind_ok in H. destruct H as (o & _ & H). injection H as <-. cbn [fst]. split; [exact X3|]. split; [unfold later; rewrite L3; exact L2|].
      split; [eapply fine1_named; eassumption|eapply Up; exact N3].
  - destruct (add_cheater _ _ _ _ _) eqn:Ea in H; [|injection H as <-; split; [exact X2|eapply ux_full; eassumption]].
    destruct (ux_add _ _ _ _ _ _ _ _ X2 Ea ltac:(lia) ltac:(lia)) as (X3 & L3 & _ & N3).
    apply bind_ok in H. destruct H as (o & _ & H). injection H as <-. cbn [fst]. split; [exact X3|]. split; [unfold later; rewrite L3; exact L2|].
    split; [eapply fine1_named; eassumption|eapply Up; exact N3].
Qed.
Lemma fine_step20 e c input out ret c' out' : tp_wf c -> zlen input = 143 * t_n c -> zlen out = msg20_SIZE -> tp_step20 C e c input out = Ok (ret, c', out') ->
  exists c1, ux true c c1 /\ t_cheaters c' = t_cheaters c1 /\
    (fine1 e c input 20 0 (t_n c) c1 /\ agreed e c input (t_n c) c1 /\ (ret <> 0 -> t_cheaters c' <> []) \/ full c c1).
Proof.
  intros W Hz Hzo H. pose proof (w_n c W) as Hn. unfold tp_step20 in H. change msg19_SIZE with 143 in H.
  rewrite (proj2 (Z.eqb_eq _ _) (eq_sym Hz)), (proj2 (Z.eqb_eq _ _) Hzo) in H. cbn [negb] in H.
  apply bind_ok in H. destruct H as (o1 & _ & H). apply bind_ok in H. destruct H as (r & HL & H).
  pose proof (loopM_seq_inv (tp_step20_body C e input (blake2b (cH C) 32 (t_transcript c))) (fun i s => ux true c (fst s) /\ later c i (fst s) /\ fine1 e c input 20 0 i (fst s) /\ agreed e c input i (fst s))
    (fun _ s => ux true c (fst s) /\ full c (fst s)) 0 (Z.to_nat (t_n c)) (c, o1) r) as L. specialize (fun A B => L A B HL).
  assert (Q : match r with Next s => ux true c (fst s) /\ later c (0 + Z.of_nat (Z.to_nat (t_n c))) (fst s) /\ fine1 e c input 20 0 (0 + Z.of_nat (Z.to_nat (t_n c))) (fst s) /\ agreed e c input (0 + Z.of_nat (Z.to_nat (t_n c))) (fst s) | Return _ s => ux true c (fst s) /\ full c (fst s) end).
  { apply L; [cbn [fst]; split; [apply ux_refl|]; split; [intros j _; reflexivity|]; split; intros q Hq; lia|].
    intros i s1 r1 Hi (A1 & A2 & A3 & A4) E. eapply fine_step20_body; try eassumption; lia. }
  clear L. replace (0 + Z.of_nat (Z.to_nat (t_n c))) with (t_n c) in Q by lia. destruct r as [[c1 o2]|code [c1 o2]]; cbn [fst] in Q.
  2:{ injection H as <- <- <-. exists c1. destruct Q as (Q1 & Q2). auto. }
  destruct Q as (Q1 & _ & Q3 & Q4). apply bind_ok in H. destruct H as (o3 & _ & H). exists c1. split; [exact Q1|].
  destruct (Z.eqb_spec (zlen (t_cheaters c1)) 0) as [Hc|Hc]; injection H as <- <- <-; (split; [reflexivity|]; left; split; [exact Q3|]; split; [exact Q4|]).
  - congruence.
  - intros _ E. cbn [t_cheaters tp_step_set] in E. rewrite E in Hc. apply Hc. reflexivity.
Qed.

(** ** Steps 8, 10 and 14: a message of every peer for every peer *)
Definition fine2 (e : env) (c : tp) (input : bytes) (step k : Z) (c' : tp) : Prop :=
  forall i j, 0 <= i -> 0 <= j < t_n c -> i * t_n c + j < k -> named (news c c') step (j + 1) (i + 1) \/ good_message C e c input step (j + 1) (i + 1).

Lemma take_two e c input step len msgno k c1 pk ret c2 : let n := t_n c in let i := k / n in let j := k mod n in
  (step = 8 \/ step = 10 \/ step = 14) ->
  (forall p o, slot n (t_t c) step p o = Some (len * ((p - 1) * n + (o - 1)), len, msgno, (o - 1) * n + (p - 1))) ->
  2 <= n <= 128 -> 0 <= k < n * n -> 111 <= len -> zlen input = len * n * n ->
  ux true c c1 -> marks c input step k c1 -> fine2 e c input step k c1 -> getz (t_pks c1) j = Ok pk ->
  tp_recv C c1 input ((j * n + i) * len) len msgno (j + 1) (i + 1) pk j (e_r e k) = Ok (ret, c2) ->
  ux true c c2 /\ marks c input step (k + 1) c2 /\ 0 <= i < n /\ 0 <= j < n /\ t_cheaters c2 = t_cheaters c1 /\
  (ret = 0 -> fine2 e c input step (k + 1) c2) /\
  (forall c3 err, t_n c3 = t_n c2 -> news c c3 = news c c2 ++ [mkCheater step err (j + 1) (i + 1) 0] -> fine2 e c input step (k + 1) c3).
Proof.
  intros n i j Hst Hsl Hn Hk Hlen Hz [X XM] M F Hpk H. apply tp_recv_inv in H. destruct H as (last & last' & l & R1 & R2 & R3 & ->).
  assert (Hj : 0 <= j < n) by (apply Z.mod_pos_bound; lia). assert (Hi : 0 <= i < n) by (split; [apply Z.div_pos; lia|apply Z.div_lt_upper_bound; lia]).
  assert (Ek : k = i * n + j) by (unfold i, j; rewrite (Z.mul_comm (k / n)); apply Z.div_mod; lia).
  assert (Ho : 0 <= (j * n + i) * len) by nia. assert (Hb : (j * n + i) * len + len <= zlen input) by (rewrite Hz; nia).
  rewrite (tx_sid _ _ _ _ X), (tx_eps _ _ _ _ X) in R2. rewrite (tx_pks _ _ _ _ X eq_refl) in Hpk.
  pose proof (M j last Hj R1) as Hs.
  assert (Hslot : slot n (t_t c) step (j + 1) (i + 1) = Some ((j * n + i) * len, len, msgno, k)).
  { rewrite Hsl. replace (j + 1 - 1) with j by lia. replace (i + 1 - 1) with i by lia. rewrite <- Ek. rewrite (Z.mul_comm len). reflexivity. }
  split; [constructor; [apply (tx_same _ _ _ _ _ X); reflexivity|exact XM]|]. split.
  { intros j' la Hj' Hg. cbn [t_last tp_last_set] in Hg. apply updz_inv in R3. destruct R3 as (_ & _ & U). rewrite U in Hg.
    destruct (Z.eqb_spec j' j) as [->|].
    - injection Hg as <-. destruct (recv_stamp C _ _ _ _ _ _ _ _ _ _ _ _ _ R2 Ho Hlen Hb) as [->|(f & F1 & F2 & ->)]; [apply marked_S; exact Hs|].
      right. exists (i + 1), ((j * n + i) * len), len, msgno, k, f. split; [lia|]. split; [replace (i + 1 - 1) with i by lia; fold n; lia|]. split; [exact Hslot|]. auto.
    - apply marked_S. apply M; assumption. }
  split; [exact Hi|]. split; [exact Hj|]. split; [reflexivity|].
  assert (Same : forall i' j', 0 <= i' -> 0 <= j' < n -> i' * n + j' < k + 1 -> i' = i /\ j' = j \/ i' * n + j' < k).
  { intros i' j' H1 H2 H3. destruct (Z.lt_ge_cases (i' * n + j') k); [right; assumption|left]. assert (E : n * i' + j' = n * i + j) by lia. apply (Z.div_mod_unique n i' i j' j) in E; [exact E|lia|lia]. }
  split.
  - intros ->. intros i' j' H1 H2 H3. destruct (Same i' j' H1 H2 H3) as [(-> & ->)|H4].
    + right. exists ((j * n + i) * len), len, msgno, k, pk, last. split; [exact Hslot|]. split.
      { unfold key_of. destruct (Z.eqb_spec step 4); [lia|]. replace (j + 1 - 1) with j by lia. exact Hpk. }
      split; [|exact (accepted_of_recv C _ _ _ _ _ _ _ _ _ _ _ _ Ho Hlen R2)]. unfold seen. replace (j + 1 - 1) with j by lia.
      destruct Hs as [Hs|(o & off & len' & msgno' & clk & f & G1 & G2 & G3)]; [left; exact Hs|right]. split; [exact Hst|].
      exists o, off, len', msgno', clk, f. split; [fold n in G2; nia|exact G3].
    + exact (F i' j' H1 H2 H4).
  - intros c3 err _ N i' j' H1 H2 H3. rewrite N. destruct (Same i' j' H1 H2 H3) as [(-> & ->)|H4]; [left; apply named_last|].
    destruct (F i' j' H1 H2 H4) as [G|G]; [left; apply named_more; exact G|right; exact G].
Qed.

Lemma loop2' e c input step f s r : (forall k s r, 0 <= k < t_n c * t_n c -> ux true c (proj3 s) -> marks c input step k (proj3 s) -> fine2 e c input step k (proj3 s) -> f k s = Ok r ->
    match r with Next s' => ux true c (proj3 s') /\ marks c input step (k + 1) (proj3 s') /\ fine2 e c input step (k + 1) (proj3 s') | Return _ s' => ux true c (proj3 s') /\ full c (proj3 s') end) ->
  proj3 s = c -> 0 <= t_n c -> loopM f (zrange 0 (Z.to_nat (t_n c * t_n c))) s = Ok r ->
  match r with Next s' => ux true c (proj3 s') /\ fine2 e c input step (t_n c * t_n c) (proj3 s') | Return _ s' => ux true c (proj3 s') /\ full c (proj3 s') end.
Proof.
  intros Hf E0 Hn H.
  pose proof (loopM_seq_inv f (fun k s => ux true c (proj3 s) /\ marks c input step k (proj3 s) /\ fine2 e c input step k (proj3 s)) (fun _ s => ux true c (proj3 s) /\ full c (proj3 s)) 0 (Z.to_nat (t_n c * t_n c)) s r) as L.
  specialize (fun A B => L A B H).
  assert (Q : match r with Next s2 => ux true c (proj3 s2) /\ marks c input step (0 + Z.of_nat (Z.to_nat (t_n c * t_n c))) (proj3 s2) /\ fine2 e c input step (0 + Z.of_nat (Z.to_nat (t_n c * t_n c))) (proj3 s2) | Return _ s2 => ux true c (proj3 s2) /\ full c (proj3 s2) end).
  { apply L; [rewrite E0; split; [apply ux_refl|]; split; [intros j last _ Hl; left; exact Hl|intros i j Hi Hj Hk; nia]|]. intros i s1 r1 Hi (A & B & D) E. eapply Hf; try eassumption. nia. }
  destruct r; [|exact Q]. destruct Q as (Q1 & _ & Q3). split; [exact Q1|]. replace (0 + Z.of_nat (Z.to_nat (t_n c * t_n c))) with (t_n c * t_n c) in Q3 by nia. exact Q3.
Qed.

Lemma fine_step68_body e c input step k s r : (t_step c = 2 /\ step = 8 \/ t_step c = 3 /\ step = 10) ->
  2 <= t_n c <= 128 -> zlen input = 159 * t_n c * t_n c -> 0 <= k < t_n c * t_n c ->
  ux true c (proj3 s) -> marks c input step k (proj3 s) -> fine2 e c input step k (proj3 s) -> tp_step68_body C e input k s = Ok r ->
  match r with Next s' => ux true c (proj3 s') /\ marks c input step (k + 1) (proj3 s') /\ fine2 e c input step (k + 1) (proj3 s') | Return _ s' => ux true c (proj3 s') /\ full c (proj3 s') end.
Proof.
  destruct s as [[c1 out] w]. cbn [fst]. intros Hst Hn Hz Hk X M F H. unfold tp_step68_body in H. change msg4_SIZE with 159 in H.
  rewrite (tx_n _ _ _ _ (ux_tx _ _ _ X)) in H. apply bind_ok in H. destruct H as (pk & Hpk & H). apply bind_ok in H. destruct H as ((ret & c2) & E2 & H).
  rewrite (tx_step _ _ _ _ (ux_tx _ _ _ X)) in E2.
  destruct (take_two e c input step 159 (Mem.u8 (2 + t_step c)) k c1 pk ret c2) as (X2 & M2 & Hi & Hj & Ec & G1 & G2); try assumption; try lia.
  { intros p o. destruct Hst as [(-> & ->)|(-> & ->)]; reflexivity. }
  destruct (ret =? 0) eqn:E0; cbn [negb] in H.
  - apply bind_ok in H. destruct H as (m & _ & H). apply bind_ok in H. destruct H as (o & _ & H). injection H as <-. apply Z.eqb_eq in E0. auto.
  - rewrite (tx_step _ _ _ _ (ux_tx _ _ _ X2)) in H.
    assert (Es : 6 + (t_step c - 1) * 2 = step) by lia. rewrite Es in H.
    destruct (add_cheater _ _ _ _ _) eqn:Ea in H; [|injection H as <-; split; [exact X2|eapply ux_full; eassumption]].
    destruct (ux_add _ _ _ _ _ _ _ _ X2 Ea ltac:(lia) ltac:(lia)) as (X3 & L3 & _ & N3).
    destruct (e_log e); [|discriminate]. injection H as <-. cbn [fst]. split; [exact X3|]. split; [unfold marks; rewrite L3; exact M2|].
    eapply G2; [|exact N3]. rewrite (tx_n _ _ _ _ (ux_tx _ _ _ X3)), (tx_n _ _ _ _ (ux_tx _ _ _ X2)). reflexivity.
Qed.
Lemma fine_step68 e c input out ret c' out' step : tp_wf c -> (t_step c = 2 /\ step = 8 \/ t_step c = 3 /\ step = 10) -> zlen input = 159 * t_n c * t_n c -> zlen input = zlen out -> tp_step68 C e c input out = Ok (ret, c', out') ->
  ux true c c' /\ (fine2 e c input step (t_n c * t_n c) c' /\ (ret <> 0 -> t_cheaters c' <> []) \/ full c c').
Proof.
  intros W Hst Hz Hzo H. pose proof (w_n c W) as Hn. unfold tp_step68 in H. change msg4_SIZE with 159 in H.
  rewrite (proj2 (Z.eqb_eq _ _) Hz), (proj2 (Z.eqb_eq _ _) Hzo) in H. cbn [negb] in H.
  apply bind_ok in H. destruct H as (r & HL & H).
  apply (loop2' e c input step) in HL; [|intros; eapply fine_step68_body; eassumption|reflexivity|lia].
  destruct r as [[[c1 o1] w1]|code [[c1 o1] w1]]; cbn [fst] in HL; destruct HL as (X & F); injection H as <- <- <-; (split; [exact X|]).
  - left. split; [exact F|]. destruct (Z.ltb_spec 0 (zlen (t_cheaters c1))) as [Hc|]; [|congruence]. intros _. apply some_left. exact Hc.
  - right. exact F.
Qed.

Lemma fine_step14_body e c input k s r :
  2 <= t_n c <= 128 -> zlen input = 256 * t_n c * t_n c -> 0 <= k < t_n c * t_n c ->
  ux true c (proj3 s) -> marks c input 14 k (proj3 s) -> fine2 e c input 14 k (proj3 s) -> tp_step14_body C e input k s = Ok r ->
  match r with Next s' => ux true c (proj3 s') /\ marks c input 14 (k + 1) (proj3 s') /\ fine2 e c input 14 (k + 1) (proj3 s') | Return _ s' => ux true c (proj3 s') /\ full c (proj3 s') end.
Proof.
  destruct s as [[c1 out] w]. cbn [fst]. intros Hn Hz Hk X M F H. unfold tp_step14_body in H. change msg8_SIZE with 256 in H.
  rewrite (tx_n _ _ _ _ (ux_tx _ _ _ X)) in H. apply bind_ok in H. destruct H as (pk & Hpk & H). apply bind_ok in H. destruct H as ((ret & c2) & E2 & H).
  destruct (take_two e c input 14 256 8 k c1 pk ret c2) as (X2 & M2 & Hi & Hj & Ec & G1 & G2); try assumption; try lia; [reflexivity|].
  destruct (ret =? 0) eqn:E0; cbn [negb] in H.
  - apply bind_ok in H. destruct H as (m & _ & H). apply bind_ok in H. destruct H as (o & _ & H). injection H as <-. apply Z.eqb_eq in E0. auto.
  - destruct (add_cheater _ _ _ _ _) eqn:Ea in H; [|injection H as <-; split; [exact X2|eapply ux_full; eassumption]].
    destruct (ux_add _ _ _ _ _ _ _ _ X2 Ea ltac:(lia) ltac:(lia)) as (X3 & L3 & _ & N3).
    injection H as <-. cbn [fst]. split; [exact X3|]. split; [unfold marks; rewrite L3; exact M2|].
    eapply G2; [|exact N3]. rewrite (tx_n _ _ _ _ (ux_tx _ _ _ X3)), (tx_n _ _ _ _ (ux_tx _ _ _ X2)). reflexivity.
Qed.
Lemma fine_step14 e c input out ret c' out' : tp_wf c -> zlen input = 256 * t_n c * t_n c -> zlen input = zlen out -> tp_step14 C e c input out = Ok (ret, c', out') ->
  ux true c c' /\ (fine2 e c input 14 (t_n c * t_n c) c' /\ (ret <> 0 -> t_cheaters c' <> []) \/ full c c').
Proof.
  intros W Hz Hzo H. pose proof (w_n c W) as Hn. unfold tp_step14 in H. change msg8_SIZE with 256 in H.
  rewrite (proj2 (Z.eqb_eq _ _) Hz), (proj2 (Z.eqb_eq _ _) Hzo) in H. cbn [negb] in H.
  apply bind_ok in H. destruct H as (r & HL & H).
  apply (loop2' e c input 14) in HL; [|intros; eapply fine_step14_body; eassumption|reflexivity|lia].
  destruct r as [[[c1 o1] w1]|code [[c1 o1] w1]]; cbn [fst] in HL; destruct HL as (X & F); [|injection H as <- <- <-; split; [exact X|right; exact F]].
  destruct (Z.ltb_spec 0 (zlen (t_cheaters c1))) as [Hc|].
  - injection H as <- <- <-. split; [exact X|]. left. split; [exact F|]. intros _. apply some_left. exact Hc.
  - apply bind_ok in H. destruct H as (enc & _ & H). injection H as <- <- <-. split; [apply (ux_same _ _ _ _ X); reflexivity|]. left. split; [|congruence]. exact F.
Qed.

(** ** Step 16 *)
Definition told (e : env) (c : tp) (input : bytes) (i k : Z) (c' : tp) : Prop :=
  forall p k' o, complains_at C e c input p k' o -> p <= i \/ p = i + 1 /\ k' < k ->
    (1 <= o <= t_n c -> In (p * 256 + o) (t_complaints c')) /\ (~ 1 <= o <= t_n c -> named (news c c') 16 p o) /\
    (forall k0, k0 < k' -> complains_at C e c input p k0 o -> named (news c c') 16 p o).

Lemma told_more e c input i k c1 c2 more l : told e c input i k c1 -> t_complaints c2 = t_complaints c1 ++ more -> news c c2 = news c c1 ++ l -> told e c input i k c2.
Proof.
  intros H E1 E2 p k' o Hat Hp. destruct (H p k' o Hat Hp) as (A & B & D). rewrite E1, E2. split; [intros Ho; apply in_or_app; left; auto|].
  split; [intros Ho; apply named_more; auto|]. intros k0 H0 Hat0. apply named_more. exact (D k0 H0 Hat0).
Qed.
Lemma fine1_more e c input step to i c1 c2 l : fine1 e c input step to i c1 -> news c c2 = news c c1 ++ l -> fine1 e c input step to i c2.
Proof. intros H E q Hq. rewrite E. destruct (H q Hq) as [G|G]; [left; apply named_more; exact G|right; exact G]. Qed.

(** the length of a small message, read without conversion from network byte order, is huge *)
Lemma raw_len buf off len m pk sid msgno from to ts body flen : rd buf off len = Ok m -> zlen sid = 32 -> 111 <= len < 256 ->
  signed S pk sid msgno from to ts body m -> rd buf (off + off_len) 4 = Ok flen -> 255 < u64 (of_le flen - 111).
Proof.
  intros Hm Hs Hl Hg Hf. pose proof (signed_zlen _ _ _ _ _ _ _ _ _ Hs Hg) as L. pose proof (rd_inv _ _ _ _ Hm) as (R1 & R2 & R3 & R4 & _).
  pose proof (zlen_nonneg body) as Hb. destruct Hg as (sig & G1 & G2 & G3 & _). unfold message, header in G3.
  assert (Ef : flen = be_bytes 4 len).
  { assert (Hr : rd buf (off + off_len) 4 = Ok (be_bytes 4 len)).
    { unfold off_len. rewrite <- (rd_rd _ _ _ _ 65 4 Hm) by lia. rewrite G3, <- !app_assoc. rewrite (app_assoc sig).
      replace (111 + zlen body) with len by lia. apply rd_mid; [|apply zlen_be]. rewrite !zlen_app, G1. reflexivity. }
    congruence. }
  rewrite Ef. Transparent be_bytes of_le le_bytes.
  assert (Eb : of_le (be_bytes 4 len) = 2 ^ 24 * len).
  { unfold be_bytes. cbn [le_bytes rev app of_le]. rewrite !bz_zb. rewrite (Z.div_small len 256), !Zdiv_0_l, !Zmod_0_l by lia. rewrite Z.mod_small by lia. lia. }
  Opaque be_bytes of_le le_bytes. rewrite Eb. unfold u64. rewrite Z.mod_small by lia. lia.
Qed.

Lemma fine_complaint e c input i lim k c1 r count : 0 <= i < t_n c -> t_n c <= 128 -> 255 < lim ->
  getz input ((112 + t_n c) * i + 111) = Ok count -> 0 <= k < bz count ->
  ux true c c1 -> later c (i + 1) c1 -> fine1 e c input 16 255 (i + 1) c1 -> told e c input i k c1 ->
  tp_step16_complaint input (i * (112 + t_n c)) i lim k c1 = Ok r ->
  match r with Next c2 => ux true c c2 /\ later c (i + 1) c2 /\ fine1 e c input 16 255 (i + 1) c2 /\ told e c input i (k + 1) c2 | Return _ c2 => ux true c c2 /\ full c c2 end.
Proof.
  intros Hi Hn Hlim Hc Hk X L F T H. unfold tp_step16_complaint in H. pose proof (Bytes.bz_range count) as Rc.
  destruct (Z.ltb_spec (k + 1) lim); [|lia]. cbn [negb] in H.
  apply bind_ok in H. destruct H as (d & Hd & H). rewrite hdr_val in Hd. pose proof (Bytes.bz_range d) as Rd. rewrite (tx_n _ _ _ _ (ux_tx _ _ _ X)) in H.
  assert (Now : forall o, complains_at C e c input (i + 1) k o -> o = bz d).
  { intros o (_ & _ & _ & Ho & Rb). replace (i + 1 - 1) with i in Ho by lia. assert (E : Ok (zb o) = Ok d) by (rewrite <- Ho, <- Hd; f_equal; lia).
    injection E as <-. symmetry. apply TpBlame.bz_zb_small. exact Rb. }
  (* the new complaint is registered or named *)
  assert (Up : forall c2 more l, t_complaints c2 = t_complaints c1 ++ more -> news c c2 = news c c1 ++ l ->
    (1 <= bz d <= t_n c -> In ((i + 1) * 256 + bz d) (t_complaints c2)) -> (~ 1 <= bz d <= t_n c -> named (news c c2) 16 (i + 1) (bz d)) ->
    (1 <= bz d <= t_n c -> In ((i + 1) * 256 + bz d) (t_complaints c1) -> named (news c c2) 16 (i + 1) (bz d)) -> told e c input i (k + 1) c2).
  { intros c2 more l E1 E2 P1 P2 P3 p k' o Hat Hp. assert (D : (p <= i \/ p = i + 1 /\ k' < k) \/ p = i + 1 /\ k' = k) by lia.
    destruct D as [D|(-> & ->)]; [exact (told_more _ _ _ _ _ _ _ _ _ T E1 E2 p k' o Hat D)|].
    rewrite (Now o Hat) in *. split; [exact P1|]. split; [exact P2|]. intros k0 Hk0 Hat0.
    destruct (T (i + 1) k0 (bz d) Hat0 ltac:(lia)) as (T1 & _). assert (D : 1 <= bz d <= t_n c \/ ~ 1 <= bz d <= t_n c) by lia. destruct D as [D|D]; [apply P3; auto|apply P2; exact D]. }
  destruct ((t_n c <? bz d) || (bz d <? 1)) eqn:Er.
  { apply orb_true_iff in Er. rewrite !Z.ltb_lt in Er.
    destruct (add_cheater _ _ _ _ _) eqn:Ea in H; injection H as <-; [|split; [exact X|eapply ux_full; eassumption]].
    destruct (ux_add _ _ _ _ _ _ _ _ X Ea ltac:(lia) Rd) as (X3 & L3 & K3 & N3).
    split; [exact X3|]. split; [unfold later; rewrite L3; exact L|]. split; [eapply fine1_more; eassumption|].
    eapply (Up _ [] _ (eq_trans K3 (eq_sym (app_nil_r _))) N3); [lia|intros _; rewrite N3; apply named_last|lia]. }
  apply orb_false_iff in Er. destruct Er as (Er1 & Er2). apply Z.ltb_ge in Er1, Er2. rewrite pair16_val in H by lia.
  destruct (existsb _ _) eqn:Ex.
  - apply existsb_eqb_In in Ex.
    destruct (add_cheater _ _ _ _ _) eqn:Ea in H; injection H as <-; [|split; [exact X|eapply ux_full; eassumption]].
    destruct (ux_add _ _ _ _ _ _ _ _ X Ea ltac:(lia) Rd) as (X3 & L3 & K3 & N3).
    split; [exact X3|]. split; [unfold later; rewrite L3; exact L|]. split; [eapply fine1_more; eassumption|].
    eapply (Up _ [] _ (eq_trans K3 (eq_sym (app_nil_r _))) N3); [intros _; rewrite K3; exact Ex|lia|intros _ _; rewrite N3; apply named_last].
  - destruct (_ <? t_cmax c1); [|discriminate]. injection H as <-.
    split; [apply (ux_same _ _ _ _ X); reflexivity|]. split; [exact L|]. split; [exact F|].
    eapply (Up _ [_] []); [reflexivity|symmetry; apply app_nil_r|intros _; cbn [t_complaints tp_complaints_set]; apply in_or_app; right; left; reflexivity|lia|].
    intros _ Hin. apply existsb_eqb_In in Hin. congruence.
Qed.

Lemma fine_step16_body e c input i s r : 0 <= i < t_n c -> 2 <= t_n c <= 128 -> zlen (t_sid c) = 32 -> zlen input = (112 + t_n c) * t_n c ->
  ux true c (proj3 s) -> later c i (proj3 s) -> fine1 e c input 16 255 i (proj3 s) -> told e c input i 0 (proj3 s) -> tp_step16_body C e input i s = Ok r ->
  match r with Next s' => ux true c (proj3 s') /\ later c (i + 1) (proj3 s') /\ fine1 e c input 16 255 (i + 1) (proj3 s') /\ told e c input (i + 1) 0 (proj3 s')
  | Return _ s' => ux true c (proj3 s') /\ full c (proj3 s') end.
Proof.
  destruct s as [[c1 out] w]. cbn [fst]. intros Hi Hn Hsid Hz X L F T H. unfold tp_step16_body in H.
  rewrite (tx_n _ _ _ _ (ux_tx _ _ _ X)), msg9_val in H.
  apply bind_ok in H. destruct H as (pk & Hpk & H). apply bind_ok in H. destruct H as ((ret & c2) & E2 & H).
  rewrite (tx_pks _ _ _ _ (ux_tx _ _ _ X) eq_refl) in Hpk.
  pose proof E2 as E2'. apply tp_recv_inv in E2'. destruct E2' as (la & la' & l & R1 & R2 & _ & _).
  destruct (take_one _ _ _ _ _ _ _ _ _ _ _ _ _ X L E2 ltac:(nia) ltac:(lia) ltac:(nia)) as (X2 & L2 & K2 & Ec & last & G1 & G3).
  pose proof (fine1_same _ _ _ _ _ _ _ _ F Ec) as F2.
  assert (N2 : news c c2 = news c c1 ++ []) by (unfold news; rewrite Ec, app_nil_r; reflexivity).
  assert (T2 : told e c input i 0 c2) by (eapply told_more; [exact T|rewrite K2; symmetry; apply app_nil_r|exact N2]).
  destruct (ret =? 0) eqn:E0; cbn [negb] in H.
  - apply Z.eqb_eq in E0. specialize (G3 E0). apply bind_ok in H. destruct H as (flen & Hfl & H). apply bind_ok in H. destruct H as (d0 & Hd & H). rewrite hdr_val in Hd, H.
    assert (Big : 255 < u64 (of_le flen - 111)).
    { destruct G3 as (m & ts & body & M1 & M2 & _). eapply raw_len; [exact M1|exact Hsid|lia|exact M2|exact Hfl]. }
    pose proof (Bytes.bz_range d0) as Rd0. destruct (Z.ltb_spec (u64 (of_le flen - 111)) (bz d0)); [lia|]. apply bind_ok in H. destruct H as (r1 & HL & H). set (lim := u64 _) in *.
    rewrite (Z.mul_comm i) in Hd.
    assert (F3 : fine1 e c input 16 255 (i + 1) c2).
    { apply fine1_good; [exact F2|]. apply (good_one e c input 16 i ((112 + t_n c) * i) (112 + t_n c) 9 255 pk last); [exact Hi| | |exact G1|].
      - cbn [slot]. replace (i + 1 - 1) with i by lia. reflexivity.
      - unfold key_of. cbn [Z.eqb Pos.eqb]. replace (i + 1 - 1) with i by lia. exact Hpk.
      - rewrite (Z.mul_comm _ i). exact G3. }
    pose proof (loopM_seq_inv (tp_step16_complaint input (i * (112 + t_n c)) i lim) (fun k c3 => ux true c c3 /\ later c (i + 1) c3 /\ fine1 e c input 16 255 (i + 1) c3 /\ told e c input i k c3) (fun _ c3 => ux true c c3 /\ full c c3) 0 (Z.to_nat (bz d0)) c2 r1) as LI.
    specialize (fun A B => LI A B HL).
    assert (Q : match r1 with Next c3 => ux true c c3 /\ later c (i + 1) c3 /\ fine1 e c input 16 255 (i + 1) c3 /\ told e c input i (0 + Z.of_nat (Z.to_nat (bz d0))) c3 | Return _ c3 => ux true c c3 /\ full c c3 end).
    { apply LI; [auto|intros k c3 r3 Hk (A1 & A2 & A3 & A4) E]. eapply fine_complaint; try eassumption; try lia. }
    destruct r1 as [c3|code c3]; [|injection H as <-; exact Q]. destruct Q as (Q1 & Q2 & Q3 & Q4).
    apply bind_ok in H. destruct H as (m & _ & H). apply bind_ok in H. destruct H as (o & _ & H). injection H as <-. cbn [fst]. split; [exact Q1|]. split; [exact Q2|]. split; [exact Q3|].
    intros p k' o' Hat Hp. apply (Q4 p k' o' Hat). destruct (Z.eq_dec p (i + 1)) as [->|]; [right|left; destruct Hp as [?|(? & ?)]; [lia|]].
    + split; [reflexivity|]. destruct Hat as (_ & _ & (count & Hc & Hk) & _). replace (i + 1 - 1) with i in Hc by lia. rewrite Hd in Hc. injection Hc as <-. lia.
    + destruct Hat as (_ & _ & (count & _ & Hk) & _). lia.
  - apply Z.eqb_neq in E0.
    destruct (add_cheater _ _ _ _ _) eqn:Ea in H; injection H as <-; cbn [fst]; [|split; [exact X2|eapply ux_full; eassumption]].
    destruct (ux_add _ _ _ _ _ _ _ _ X2 Ea ltac:(lia) ltac:(lia)) as (X3 & L3 & K3 & N3).
    split; [exact X3|]. split; [unfold later; rewrite L3; exact L2|]. split; [eapply fine1_named; eassumption|].
    pose proof (told_more _ _ _ _ _ _ _ [] _ T2 (eq_trans K3 (eq_sym (app_nil_r _))) N3) as T3.
    intros p k' o' Hat Hp. apply (T3 p k' o' Hat). destruct (Z.eq_dec p (i + 1)) as [->|]; [exfalso|left; destruct Hp as [?|(? & ?)]; [lia|]].
    + destruct Hat as (_ & (pk' & last1 & A1 & A2 & A3) & _). replace (i + 1 - 1) with i in A1, A2, A3 by lia. rewrite Hpk in A1. injection A1 as <-. rewrite G1 in A2. injection A2 as <-.
      apply recv_of_accepted in A3; try exact Hsid; try (unfold is_byte; lia); try lia. destruct A3 as (ts & A3).
      rewrite (L i) in R1 by lia. rewrite G1 in R1. injection R1 as <-.
      rewrite (tx_sid _ _ _ _ (ux_tx _ _ _ X)), (tx_eps _ _ _ _ (ux_tx _ _ _ X)), (Z.mul_comm i) in R2. rewrite A3 in R2. injection R2 as <- _. contradiction.
    + destruct Hat as (_ & _ & (count & _ & Hk) & _). lia.
Qed.

Lemma fine_step16 e c input out ret c' out' : tp_wf c -> zlen input = (112 + t_n c) * t_n c -> zlen out = msg10_SIZE (t_n c) -> tp_step16 C e c input out = Ok (ret, c', out') ->
  ux true c c' /\ (fine1 e c input 16 255 (t_n c) c' /\ told e c input (t_n c) 0 c' /\
    (t_t c * t_t c <= zlen (t_complaints c') -> In (mkCheater 16 6 254 254 0) (news c c')) /\ (ret <> 0 -> t_cheaters c' <> []) \/ full c c').
Proof.
  intros W Hz Hzo H. pose proof (w_n c W) as Hn. unfold tp_step16 in H. rewrite msg9_val in H.
  rewrite (proj2 (Z.eqb_eq _ _) (eq_sym Hz)), (proj2 (Z.eqb_eq _ _) Hzo) in H. cbn [negb] in H.
  apply bind_ok in H. destruct H as (r & HL & H).
  pose proof (loopM_seq_inv (tp_step16_body C e input) (fun i s => ux true c (proj3 s) /\ later c i (proj3 s) /\ fine1 e c input 16 255 i (proj3 s) /\ told e c input i 0 (proj3 s)) (fun _ s => ux true c (proj3 s) /\ full c (proj3 s)) 0 (Z.to_nat (t_n c)) (tp_complaints_set c [], out, hdr_SIZE) r) as LI.
  specialize (fun A B => LI A B HL).
  assert (Q : match r with Next s2 => ux true c (proj3 s2) /\ later c (0 + Z.of_nat (Z.to_nat (t_n c))) (proj3 s2) /\ fine1 e c input 16 255 (0 + Z.of_nat (Z.to_nat (t_n c))) (proj3 s2) /\ told e c input (0 + Z.of_nat (Z.to_nat (t_n c))) 0 (proj3 s2) | Return _ s2 => ux true c (proj3 s2) /\ full c (proj3 s2) end).
  { apply LI.
    - cbn [fst]. split; [apply (ux_same _ _ _ _ (ux_refl _ c)); reflexivity|]. split; [intros j _; reflexivity|]. split; [intros q Hq; lia|].
      intros p k' o ((A & _) & _ & (count & _ & B) & _) Hp. lia.
    - intros i s1 r1 Hi (A1 & A2 & A3 & A4) E. eapply fine_step16_body; try eassumption; try lia. apply (w_sid c W). }
  clear LI. replace (0 + Z.of_nat (Z.to_nat (t_n c))) with (t_n c) in Q by lia. destruct r as [[[c1 o1] w1]|code [[c1 o1] w1]]; cbn [fst] in Q.
  2:{ injection H as <- <- <-. destruct Q as (Q1 & Q2). auto. }
  destruct Q as (X & _ & F & T). rewrite (tx_t _ _ _ _ (ux_tx _ _ _ X)) in H.
  destruct (Z.leb_spec (t_t c * t_t c) (zlen (t_complaints c1))) as [Hm|Hm].
  - destruct (add_cheater _ _ _ _ _) eqn:Ea in H; injection H as <- <- <-; [|split; [exact X|right; eapply ux_full; eassumption]].
    destruct (ux_add _ _ _ _ _ _ _ _ X Ea ltac:(lia) ltac:(lia)) as (X3 & _ & K3 & N3). split; [exact X3|]. left.
    split; [eapply fine1_more; eassumption|]. split; [eapply (told_more _ _ _ _ _ _ _ []); [exact T|rewrite K3; symmetry; apply app_nil_r|exact N3]|].
    split; [intros _; rewrite N3; apply in_or_app; right; left; reflexivity|]. intros _ E. apply add_cheater_inv in Ea. destruct Ea as (_ & ->). cbn [t_cheaters tp_cheaters_set] in E. destruct (t_cheaters c1); discriminate.
  - destruct (Z.ltb_spec 0 (zlen (t_cheaters c1))) as [Hc|].
    + injection H as <- <- <-. split; [exact X|]. left. split; [exact F|]. split; [exact T|]. split; [lia|]. intros _. apply some_left. exact Hc.
    + apply bind_ok in H. destruct H as (o & _ & H). injection H as <- <- <-. split; [apply (ux_same _ _ _ _ X); reflexivity|]. left. split; [exact F|]. split; [exact T|]. split; [cbn [t_complaints tp_transcript_set]; lia|congruence].
Qed.

(** ** Step 18: every complaint ends with an entry *)
Definition settled (l : list cheater) (b a : Z) : Prop := named l 18 a b \/ named l 18 b a.
Lemma key_names e input p i f m : getz input (p + off_from) = Ok f -> forall k0 c cs c' cs' y,
  loopM (tp_step18_key C e input p i) (zrange k0 m) (c, cs) = Ok (Next (c', cs')) -> y <> 65535 ->
  exists l, t_cheaters c' = t_cheaters c ++ l /\ (occ cs' y = occ cs y \/ exists b, y = b * 256 + bz f /\ named l 18 (bz f) b).
Proof.
  intros Hf. induction m as [|m IH]; intros k0 c cs c' cs' y H Hy.
  - cbn in H. injection H as <- <-. exists []. rewrite app_nil_r. auto.
  - rewrite zrange_S in H. cbn [loopM] in H. apply bind_ok in H. destruct H as (r & HK & H). destruct r as [[c1 cs1]|]; [|discriminate].
    destruct (key_reads _ _ _ _ _ _ _ _ HK) as (b & Hb). pose proof (key_step _ _ _ _ _ _ _ _ _ _ _ HK Hb Hf) as (_ & _ & A3 & (err & inv & A4) & _). cbn [ctl_state fst snd] in *.
    destruct (IH _ _ _ _ _ y H Hy) as (l & B1 & B2). exists ([mkCheater 18 err (bz f) (bz b) inv] ++ l). rewrite B1, A4, <- app_assoc. split; [reflexivity|].
    destruct (Z.eq_dec y (bz b * 256 + bz f)) as [Ey|Ey].
    + right. exists (bz b). split; [exact Ey|]. exists (mkCheater 18 err (bz f) (bz b) inv). split; [left; reflexivity|auto].
    + destruct (A3 y Hy) as (_ & A5). destruct B2 as [B2|(b' & B2 & ch & B3 & B4)]; [left; rewrite B2; apply A5; exact Ey|right]. exists b'. split; [exact B2|]. exists ch. split; [right; exact B3|exact B4].
Qed.


Lemma complaint_settled e c input out c' out' a b : tp_wf c -> good_complaints (t_n c) (t_complaints c) ->
  t_step c = 7 -> tp_next C e c input out = Ok (3, c', out') -> 1 <= a <= t_n c -> complaint c b a -> exists new, recorded c c' new /\ settled new b a.
Proof.
  intros W (Hok & Hnd) Hs H Ha Hin. pose proof (w_n c W) as Hn. unfold complaint in Hin.
  assert (Hc : complaint_ok (t_n c) (b * 256 + a)) by (rewrite Forall_forall in Hok; auto).
  pose proof (not_marker (t_n c) _ ltac:(lia) Hc) as Hm. destruct (pair_parts b a ltac:(lia)) as (P1 & P2). pose proof Hc as (K1 & K2). rewrite P1 in K1. clear K2.
  destruct (step18_split C e c input out c' out' W Hok Hnd Hs H a Ha) as (ctr & ca & csa & cb & csb & pb & new2 & cs2 & c2 & Gc & Ka & La & Oa & HB & Hro & K2 & O2 & Ec & En).
  destruct (k_new _ _ Ka) as (na & Ea & _). destruct (k_new _ _ K2) as (n2 & E2 & _).
  specialize (Oa (b * 256 + a) Hm P2). destruct (O2 (b * 256 + a) Hm) as (_ & _ & O3). specialize (O3 P2). rewrite (occ_one _ _ Hnd Hin) in Oa.
  assert (Hacc : 0 <= accusations a (t_complaints c)) by apply zlen_nonneg.
  pose proof (w_sid c W) as Hsid.
  apply (body_step C _ _ _ _ _ _ _ _ _ _ (accusations a (t_complaints c))) in HB; [|apply Gc; lia|exact Hacc|rewrite (k_sid _ _ Ka); exact Hsid|exact Hro|lia].
  assert (Q : exists l, t_cheaters cb = t_cheaters ca ++ l /\ (occ csb (b * 256 + a) = occ csa (b * 256 + a) \/ named l 18 a b)).
  { destruct HB as [(_ & -> & -> & _)|(_ & _ & pk & last & last' & l & _ & _ & _ & B4)]; [exists []; rewrite app_nil_r; auto|].
    cbn zeta in B4. destruct B4 as [(r & _ & _ & -> & ->)|(_ & R2 & R3)]; [eexists; split; [reflexivity|auto]|].
    destruct (key_names _ _ _ _ _ _ R2 _ _ _ _ _ _ R3 Hm) as (l' & A1 & A2). exists l'. split; [exact A1|]. destruct A2 as [A2|(b' & A2 & A3)]; [left; exact A2|right].
    replace (a - 1 + 1) with a in A2, A3 by lia. rewrite TpBlame.bz_zb_small in A2, A3 by lia. replace b with b' by lia. exact A3. }
  destruct Q as (l & El & Q). exists (na ++ l ++ n2 ++ new2). split; [unfold recorded; rewrite Ec, E2, El, Ea, <- !app_assoc; reflexivity|].
  destruct Q as [Q|(ch & Q1 & Q2)].
  - right. exists (mkCheater 18 7 b a 0). split; [|auto]. apply in_or_app; right. apply in_or_app; right. apply in_or_app; right. rewrite En. apply in_map_iff. exists (b * 256 + a). split.
    + change (Mem.u8 (b * 256 + a)) with (accused_of (b * 256 + a)). change ((b * 256 + a) / 256) with (complainer_of (b * 256 + a)). rewrite P1, P2. unfold Mem.u8. rewrite !Z.mod_small by lia. reflexivity.
    + apply filter_In. split; [|destruct (Z.eqb_spec (b * 256 + a) 65535); [lia|reflexivity]]. apply (count_occ_In Z.eq_dec). change (count_occ Z.eq_dec) with occ. lia.
  - left. exists ch. split; [|exact Q2]. apply in_or_app; right. apply in_or_app; left. exact Q1.
Qed.

(** the resolution stops early only if the list is full *)
Definition mx (c c' : tp) : Prop := t_chmax c' = t_chmax c.
Lemma mx_add c c1 step error peer other c2 : mx c c1 -> add_cheater c1 step error peer other = Some c2 -> mx c c2.
Proof. intros M H. apply add_cheater_inv in H. destruct H as (_ & ->). exact M. Qed.
Lemma mx_full c c1 step error peer other : mx c c1 -> add_cheater c1 step error peer other = None -> full c c1.
Proof. intros M H. unfold add_cheater in H. unfold full. rewrite <- M. destruct (Z.leb_spec (t_chmax c1) (zlen (t_cheaters c1))); [assumption|discriminate]. Qed.

Lemma stop_key e c input p i k s r : mx c (fst s) -> tp_step18_key C e input p i k s = Ok r ->
  match r with Next s' => mx c (fst s') | Return _ s' => full c (fst s') end.
Proof.
  destruct s as [c1 cs]. cbn [fst]. intros M H. unfold tp_step18_key in H. inv H; cbn [fst];
  first [assumption|eapply mx_full; eassumption|eapply mx_add; eassumption|idtac].
  all: match goal with H : add_cheater _ _ _ _ _ = Some _ |- _ => apply (mx_add _ _ _ _ _ _ _ M) in H; exact H end.
Qed.

Lemma stop_body e c input ctr i s r : mx c (fst (fst s)) -> tp_step18_body C e input ctr i s = Ok r ->
  match r with Next s' => mx c (fst (fst s')) | Return _ s' => full c (fst (fst s')) end.
Proof.
  destruct s as [[c1 cs] p]. cbn [fst]. intros M H. unfold tp_step18_body in H.
  apply bind_ok in H. destruct H as (k & _ & H). destruct (k =? 0); [injection H as <-; exact M|].
  apply bind_ok in H. destruct H as (pk & _ & H). apply bind_ok in H. destruct H as ((ret & c2) & E2 & H).
  assert (M2 : mx c c2) by (apply tp_recv_inv in E2; destruct E2 as (? & ? & ? & _ & _ & _ & ->); exact M).
  destruct (ret =? 0); cbn [negb] in H.
  - apply bind_ok in H. destruct H as (r1 & HL & H).
    pose proof (loopM_inv (tp_step18_key C e input p i) (fun s => mx c (fst s)) (fun _ s => full c (fst s)) (zrange 0 (Z.to_nat k)) (c2, cs) r1 M2) as LI.
    specialize (fun A => LI A HL).
    assert (Q : match r1 with Next s' => mx c (fst s') | Return _ s' => full c (fst s') end).
    { apply LI. intros x s3 r3 _ A E. exact (stop_key _ _ _ _ _ _ _ _ A E). }
    destruct r1 as [[c3 cs3]|code [c3 cs3]]; injection H as <-; exact Q.
  - destruct (add_cheater _ _ _ _ _) eqn:Ea in H; injection H as <-; cbn [fst]; [eapply mx_add; eassumption|eapply mx_full; eassumption].
Qed.
Lemma stop_step18 e c input out ret c' out' : tp_input_size c = Ok (zlen input) -> zlen out = 0 -> tp_step18 C e c input out = Ok (ret, c', out') -> ret = 3 \/ full c c'.
Proof.
  intros Hi Ho H. unfold tp_step18 in H. rewrite Hi in H. cbn [bind] in H. rewrite Z.eqb_refl, Ho in H. cbn [negb Z.eqb] in H.
  apply bind_ok in H. destruct H as (ctr & _ & H). apply bind_ok in H. destruct H as (r & HL & H).
  pose proof (loopM_inv (tp_step18_body C e input ctr) (fun s => mx c (fst (fst s))) (fun _ s => full c (fst (fst s))) (zrange 0 (Z.to_nat (t_n c))) (c, t_complaints c, 0) r eq_refl) as LI.
  specialize (fun A => LI A HL).
  assert (Q : match r with Next s' => mx c (fst (fst s')) | Return _ s' => full c (fst (fst s')) end).
  { apply LI. intros x s3 r3 _ A E. exact (stop_body _ _ _ _ _ _ _ A E). }
  destruct r as [[[c1 cs] p]|code [[c1 cs] p]]; [|injection H as <- <- <-; right; exact Q]. cbn [fst] in Q.
  apply bind_ok in H. destruct H as (r & HU & H).
  pose proof (loopM_inv tp_step18_unanswered (fun s => mx c s) (fun _ s => full c s) cs c1 r Q) as LU. specialize (fun A => LU A HU).
  assert (Q2 : match r with Next s' => mx c s' | Return _ s' => full c s' end).
  { apply LU. intros x c2 r2 _ A E. unfold tp_step18_unanswered in E. destruct (x =? 65535); [injection E as <-; exact A|].
    destruct (add_cheater _ _ _ _ _) eqn:Ea in E; injection E as <-; [eapply mx_add; eassumption|eapply mx_full; eassumption]. }
  destruct r as [c2|code c2]; injection H as <- <- <-; [left; reflexivity|right; exact Q2].
Qed.

(** ** One call *)
Lemma input_size_ok c : tp_wf c -> t_step c <> 7 -> 1 <= t_step c <= 9 -> forall z, tp_input_size c = Ok z -> z = match t_step c with
  1 => 239 * t_n c | 2 | 3 => 159 * t_n c * t_n c | 4 => msg6_SIZE (t_t c) * t_n c | 5 => 256 * t_n c * t_n c | 6 => (112 + t_n c) * t_n c | 8 => 143 * t_n c | _ => 113 * t_n c end.
Proof.
  intros W H7 Hs z H. pose proof (w_n c W) as Hn. unfold tp_input_size, tp_input_sizes in H.
  assert (Eq : forall x : Z, getz (repeat x (Z.to_nat (t_n c))) 0 = Ok x).
  { intros x. destruct (Z.to_nat (t_n c)) eqn:E; [lia|]. reflexivity. }
  assert (D : t_step c = 1 \/ t_step c = 2 \/ t_step c = 3 \/ t_step c = 4 \/ t_step c = 5 \/ t_step c = 6 \/ t_step c = 8 \/ t_step c = 9) by lia.
  destruct D as [D|[D|[D|[D|[D|[D|[D|D]]]]]]]; rewrite D in H |- *; cbn [bind] in H; rewrite Z.eqb_refl, Eq in H; cbn [bind] in H; assert (Z1 : forall a b : Z, Ok a = Ok b -> b = a) by congruence;
  apply Z1 in H; rewrite H; unfold msg2_SIZE, msg4_SIZE, msg6_SIZE, msg8_SIZE, msg9_SIZE, msg19_SIZE, msg21_SIZE, hdr_SIZE, sign_BYTES, hs1_SIZE, hs3_SIZE, share_SIZE, mac_SIZE, hmac_SIZE; ring.
Qed.

(** what a call leaves behind *)
Definition complete (e : env) (c : tp) (input : bytes) (new : list cheater) : Prop :=
  forall step p o, judged c step p o -> named new step p o \/ good_message C e c input step p o.

Lemma fine1_complete e c input step to c1 : fine1 e c input step to (t_n c) c1 -> In (t_step c, step) [(1, 4); (4, 12); (6, 16); (8, 20); (9, 22)] ->
  to = (if existsb (Z.eqb step) [4; 12; 16] then 255 else 0) -> complete e c input (news c c1).
Proof.
  intros F Hs Ht st p o (J1 & J2 & J3). specialize (F (p - 1) ltac:(lia)). replace (p - 1 + 1) with p in F by lia. cbn [In] in *.
  assert (st = step /\ o = to) as (-> & ->); [|exact F].
  repeat (destruct Hs as [Hs|Hs]; [injection Hs as Hs <-; rewrite <- Hs in *; cbn in Ht; subst to; repeat (destruct J1 as [J1|J1]; [first [discriminate J1|injection J1 as <-; lia]|]); contradiction|]). contradiction.
Qed.
Lemma fine2_complete e c input step c1 : fine2 e c input step (t_n c * t_n c) c1 -> 2 <= t_n c -> In (t_step c, step) [(2, 8); (3, 10); (5, 14)] -> complete e c input (news c c1).
Proof.
  intros F Hn Hs st p o (J1 & J2 & J3). cbn [In] in *.
  assert (E : st = step /\ 1 <= o <= t_n c).
  { repeat (destruct Hs as [Hs|Hs]; [injection Hs as Hs <-; rewrite <- Hs in *; repeat (destruct J1 as [J1|J1]; [first [discriminate J1|injection J1 as <-; lia]|]); contradiction|]). contradiction. }
  destruct E as (-> & Ho). specialize (F (o - 1) (p - 1) ltac:(lia) ltac:(lia) ltac:(nia)). replace (p - 1 + 1) with p in F by lia. replace (o - 1 + 1) with o in F by lia. exact F.
Qed.

Theorem call_complete e c input out ret c' out' : tp_wf c -> good_complaints (t_n c) (t_complaints c) -> (t_step c = 7 -> t_complaints c <> []) ->
  tp_next C e c input out = Ok (ret, c', out') -> sized c input out -> 0 <= t_step c <= 9 ->
  exists new, recorded c c' new /\
    (complete e c input new /\
     (t_step c = 6 -> told e c input (t_n c) 0 c' /\ (t_t c * t_t c <= zlen (t_complaints c') -> In (mkCheater 16 6 254 254 0) new)) /\
     (t_step c = 8 -> forall p, digest_differs C e c input p -> named new 20 p 0) /\
     (t_step c = 7 -> ret = 3 /\ forall a b, 1 <= a <= t_n c -> complaint c b a -> settled new b a) /\
     (ret <> 0 -> t_cheaters c' <> [])
     \/ full c c' \/ t_step c = 1 /\ unsigned c input).
Proof.
  intros W G H7 H (Si & So) Hs. pose proof (w_n c W) as Hn. pose proof (w_t c W) as Ht.
  assert (D : t_step c = 0 \/ t_step c = 1 \/ (t_step c = 2 \/ t_step c = 3) \/ t_step c = 4 \/ t_step c = 5 \/ t_step c = 6 \/ t_step c = 7 \/ t_step c = 8 \/ t_step c = 9) by lia.
  assert (Sz := fun A B => input_size_ok c W A B _ Si).
  destruct D as [D|[D|[D|[D|[D|[D|[D|[D|D]]]]]]]].
  - rewrite tp_next_0 in H by exact D. apply finish_inv in H. destruct H as (c1 & H & ->). exists []. unfold tp_output_size in So. rewrite D in So.
    assert (Ei : zlen input = 0).
    { unfold tp_input_size, tp_input_sizes in Si. rewrite D in Si. cbn [bind Z.eqb Pos.eqb] in Si. destruct (Z.to_nat (t_n c)) eqn:E; [lia|]. cbn in Si. injection Si as Si. lia. }
    unfold tp_step1 in H. rewrite Ei, So, !Z.eqb_refl in H. cbn [negb] in H. destruct (255 <=? t_n c); [discriminate|]. apply bind_ok in H. destruct H as (r & HL & H).
    assert (Q : ret = 0 /\ t_cheaters c1 = t_cheaters c).
    { destruct r as [o1|code o1]; [injection H as <- <- <-; auto|]. exfalso. refine (loopM_code (fun _ => False) _ _ _ _ _ _ HL).
      intros x s1 r1 s2 E'. apply bind_ok in E'. destruct E' as (o2 & _ & E'). discriminate. }
    destruct Q as (-> & Q).
    split; [unfold recorded; cbn [t_cheaters tp_step_set]; rewrite Q, app_nil_r; reflexivity|]. left. split; [|split; [lia|split; [lia|split; [lia|congruence]]]].
    intros step p o (J & _). cbn [In] in J. rewrite D in J. exfalso. repeat (destruct J as [J|J]; [discriminate J|]). contradiction.
  - rewrite tp_next_1 in H by exact D. apply finish_inv in H. destruct H as (c1 & H & ->). specialize (Sz ltac:(lia) ltac:(lia)). rewrite D in Sz.
    unfold tp_output_size in So. rewrite D in So. destruct (fine_step4 _ _ _ _ _ _ _ W Sz So H) as (X & Q). exists (news c c1). split; [exact (ux_news _ _ _ X)|].
    destruct Q as [(F & N)|[F|F]]; [left|right; left; exact F|right; right; auto]. split; [|split; [lia|split; [lia|split; [lia|exact N]]]].
    apply (fine1_complete _ _ _ 4 255); [exact F|rewrite D; cbn; auto|reflexivity].
  - assert (HH : tp_next C e c input out = tp_finish_step (tp_step68 C e c input out)) by (destruct D; [apply tp_next_2|apply tp_next_3]; assumption).
    rewrite HH in H. apply finish_inv in H. destruct H as (c1 & H & ->). specialize (Sz ltac:(lia) ltac:(lia)).
    assert (Sz' : zlen input = 159 * t_n c * t_n c) by (destruct D as [D|D]; rewrite D in Sz; exact Sz).
    assert (So' : zlen input = zlen out) by (rewrite Sz', So; unfold tp_output_size; destruct D as [D|D]; rewrite D; unfold msg4_SIZE, msg5_SIZE, hdr_SIZE, hs1_SIZE, hs2_SIZE; ring).
    destruct (fine_step68 _ _ _ _ _ _ _ (if t_step c =? 2 then 8 else 10) W ltac:(destruct D as [D|D]; rewrite D; auto) Sz' So' H) as (X & Q).
    exists (news c c1). split; [exact (ux_news _ _ _ X)|]. destruct Q as [(F & N)|F]; [left|right; left; exact F]. split; [|split; [lia|split; [lia|split; [lia|exact N]]]].
    apply (fine2_complete _ _ _ (if t_step c =? 2 then 8 else 10)); [exact F|lia|destruct D as [D|D]; rewrite D; cbn; auto].
  - rewrite tp_next_4 in H by exact D. apply finish_inv in H. destruct H as (c1 & H & ->). specialize (Sz ltac:(lia) ltac:(lia)). rewrite D in Sz.
    unfold tp_output_size in So. rewrite D in So. assert (So' : zlen out = hdr_SIZE + zlen input) by (rewrite So, Sz; reflexivity). destruct (fine_step12 _ _ _ _ _ _ _ W Sz So' H) as (X & Q). exists (news c c1). split; [exact (ux_news _ _ _ X)|].
    destruct Q as [(F & N)|F]; [left|right; left; exact F]. split; [|split; [lia|split; [lia|split; [lia|exact N]]]].
    apply (fine1_complete _ _ _ 12 255); [exact F|rewrite D; cbn; auto|reflexivity].
  - rewrite tp_next_5 in H by exact D. apply finish_inv in H. destruct H as (c1 & H & ->). specialize (Sz ltac:(lia) ltac:(lia)). rewrite D in Sz.
    assert (So' : zlen input = zlen out) by (rewrite Sz, So; unfold tp_output_size; rewrite D; unfold msg8_SIZE, hdr_SIZE, hs3_SIZE, share_SIZE, mac_SIZE, hmac_SIZE; ring).
    destruct (fine_step14 _ _ _ _ _ _ _ W Sz So' H) as (X & Q). exists (news c c1). split; [exact (ux_news _ _ _ X)|].
    destruct Q as [(F & N)|F]; [left|right; left; exact F]. split; [|split; [lia|split; [lia|split; [lia|exact N]]]].
    apply (fine2_complete _ _ _ 14); [exact F|lia|rewrite D; cbn; auto].
  - rewrite tp_next_6 in H by exact D. apply bind_ok in H. destruct H as (((r & c1) & o1) & H & E). injection E as <- <- <-. specialize (Sz ltac:(lia) ltac:(lia)). rewrite D in Sz.
    unfold tp_output_size in So. rewrite D in So. destruct (fine_step16 _ _ _ _ _ _ _ W Sz So H) as (X & Q). exists (news c c1). split; [exact (ux_news _ _ _ X)|].
    destruct Q as [(F & T & M & N)|F]; [left|right; left; exact F]. split; [apply (fine1_complete _ _ _ 16 255); [exact F|rewrite D; cbn; auto|reflexivity]|].
    split; [intros _; split; [exact T|exact M]|]. split; [lia|split; [lia|exact N]].
  - pose proof H as HN. rewrite tp_next_7 in H by exact D. apply finish_inv in H. destruct H as (c1 & H & E).
    unfold tp_output_size in So. rewrite D in So.
    assert (Ex : exists new, recorded c c' new) by (destruct (call_records C _ _ _ _ _ _ _ W G HN) as (_ & _ & new & E1 & _); eauto). destruct Ex as (new & Enew). exists new. split; [exact Enew|].
    destruct (stop_step18 _ _ _ _ _ _ _ Si So H) as [Hr|F]; [left|right; left; unfold full; rewrite E; exact F]. subst ret.
    assert (St : forall a b, 1 <= a <= t_n c -> complaint c b a -> settled new b a).
    { intros a b Ha Hc. destruct (complaint_settled e c input out c' out' a b W G D HN Ha Hc) as (new' & En' & Q).
      assert (new' = new) by (unfold recorded in *; rewrite En' in Enew; apply app_inv_head in Enew; exact Enew). subst new'. exact Q. }
    split; [intros step p o (J & _); exfalso; cbn [In] in J; rewrite D in J; repeat (destruct J as [J|J]; [discriminate J|]); contradiction|].
    split; [lia|]. split; [lia|]. split; [auto|]. intros _ E0. specialize (H7 D). destruct (t_complaints c) as [|x l] eqn:El; [congruence|].
    destruct G as (Hok & _). apply Forall_inv in Hok. destruct Hok as (K1 & K2).
    assert (Hx : complaint c (complainer_of x) (accused_of x)).
    { unfold complaint. rewrite El. left. unfold complainer_of, accused_of. pose proof (Z.div_mod x 256 ltac:(lia)). lia. }
    specialize (St _ _ K2 Hx). assert (new = []) by (unfold recorded in Enew; rewrite E0 in Enew; destruct (t_cheaters c), new; try discriminate; reflexivity). subst new.
    destruct St as [(ch & [] & _)|(ch & [] & _)].
  - rewrite tp_next_8 in H by exact D. apply finish_inv in H. destruct H as (c1 & H & ->). specialize (Sz ltac:(lia) ltac:(lia)). rewrite D in Sz.
    unfold tp_output_size in So. rewrite D in So. destruct (fine_step20 _ _ _ _ _ _ _ W Sz So H) as (c2 & X & Ec & Q). exists (news c c2).
    split; [unfold recorded; cbn [t_cheaters tp_step_set]; rewrite Ec; exact (ux_news _ _ _ X)|].
    destruct Q as [(F & A & N)|F]; [left|right; left; unfold full; cbn [t_cheaters tp_step_set]; rewrite Ec; exact F].
    split; [apply (fine1_complete _ _ _ 20 0); [exact F|rewrite D; cbn; auto|reflexivity]|]. split; [lia|]. split; [|split; [lia|exact N]].
    intros _ p Hd. specialize (A (p - 1)). replace (p - 1 + 1) with p in A by lia. apply A; [destruct Hd; lia|exact Hd].
  - rewrite tp_next_9 in H by exact D. apply finish_inv in H. destruct H as (c1 & H & ->). specialize (Sz ltac:(lia) ltac:(lia)). rewrite D in Sz.
    unfold tp_output_size in So. rewrite D in So. destruct (fine_step22 _ _ _ _ _ _ _ W Sz So H) as (X & Q). exists (news c c1). split; [exact (ux_news _ _ _ X)|].
    destruct Q as [(F & N)|F]; [left|right; left; exact F]. split; [|split; [lia|split; [lia|split; [lia|exact N]]]].
    apply (fine1_complete _ _ _ 22 0); [exact F|rewrite D; cbn; auto 6|reflexivity].
Qed.

(** ** After any history *)
Lemma call_seven e c input out ret c' out' : tp_next C e c input out = Ok (ret, c', out') -> (t_step c = 7 -> t_complaints c <> []) -> t_step c' = 7 -> t_complaints c' <> [].
Proof.
  intros H H7 H'. apply tp_next_moves in H. destruct H as [(_ & _ & -> & _)|(Hs & c1 & X & D)]; [auto|].
  destruct D as [(D & ->)|[(D1 & _ & ->)|(D1 & _ & [ -> |(_ & _ & ->)])]]; cbn [t_step tp_step_set t_complaints] in *; try lia.
  destruct (Z.eqb_spec (zlen (t_complaints c1)) 0) as [|Hz]; [lia|]. intros E. apply Hz. rewrite E. reflexivity.
Qed.
Lemma history_ok calls : forall c outs, tp_wf c -> good_complaints (t_n c) (t_complaints c) -> (t_step c = 7 -> t_complaints c <> []) -> tp_run C c calls = Ok outs ->
  let c' := final c outs in tp_wf c' /\ good_complaints (t_n c') (t_complaints c') /\ (t_step c' = 7 -> t_complaints c' <> []).
Proof.
  induction calls as [|[[e input] out] calls IH]; intros c outs W G H7 H; cbn [tp_run] in H.
  - injection H as <-. cbn. auto.
  - apply bind_ok in H. destruct H as (((ret & c1) & out1) & E & H). apply bind_ok in H. destruct H as (outs' & E2 & H). injection H as <-. rewrite final_cons. cbn [fst snd].
    destruct (call_records C _ _ _ _ _ _ _ W G E) as (A1 & A2 & _). rewrite <- A1 in A2.
    apply (IH c1 outs'); [exact (tp_wf_step C _ _ _ _ _ _ _ W E)|exact A2|exact (call_seven _ _ _ _ _ _ _ E H7)|exact E2].
Qed.

Section CALL.
Variables (c0 : tp) (calls : list (env * bytes * bytes)) (outs : list (Z * tp * bytes)) (e : env) (input out : bytes) (ret : Z) (c' : tp) (out' : bytes).
Notation c := (final c0 outs).
Hypotheses (W0 : tp_wf c0) (K0 : t_complaints c0 = []) (S0 : t_step c0 = 0) (R : tp_run C c0 calls = Ok outs) (H : tp_next C e c input out = Ok (ret, c', out')) (Z : sized c input out).

Let HH : tp_wf c /\ good_complaints (t_n c) (t_complaints c) /\ (t_step c = 7 -> t_complaints c <> []).
Proof. apply (history_ok calls c0 outs); [exact W0|rewrite K0; split; constructor|lia|exact R]. Qed.

Theorem unreported_is_good : zlen (t_cheaters c') < t_chmax c -> (t_step c = 1 -> forall p, 1 <= p <= t_n c -> vouched C c input p) ->
  exists new, recorded c c' new /\ forall step p o, judged c step p o -> named new step p o \/ good_message C e c input step p o.
Proof.
  intros Hr Hv. destruct HH as (W & G & H7). assert (D : 0 <= t_step c <= 9 \/ ~ 0 <= t_step c <= 9) by lia. destruct D as [D|D].
  - destruct (call_complete e c input out ret c' out' W G H7 H Z D) as (new & E & [Q|[Q|(Q1 & p & Q2 & Q3)]]).
    + exists new. split; [exact E|]. apply Q.
    + exfalso. unfold full in Q. lia.
    + exfalso. apply Q3. auto.
  - rewrite tp_next_other in H by lia. injection H as <- <- <-. exists []. split; [unfold recorded; rewrite app_nil_r; reflexivity|].
    intros step p o (J & _). exfalso. cbn [In] in J. repeat (destruct J as [J|J]; [injection J as J _; lia|]). contradiction.
Qed.

Theorem complaints_registered : t_step c = 6 -> zlen (t_cheaters c') < t_chmax c -> exists new, recorded c c' new /\
  (forall p k o, complains_at C e c input p k o ->
    (1 <= o <= t_n c -> complaint c' p o) /\ (~ 1 <= o <= t_n c -> named new 16 p o) /\ (forall k0, k0 < k -> complains_at C e c input p k0 o -> named new 16 p o)) /\
  (t_t c * t_t c <= zlen (t_complaints c') -> In (mkCheater 16 6 254 254 0) new).
Proof.
  intros D Hr. destruct HH as (W & G & H7). destruct (call_complete e c input out ret c' out' W G H7 H Z ltac:(lia)) as (new & E & [Q|[Q|(Q & _)]]).
  - exists new. split; [exact E|]. destruct Q as (_ & Q & _). destruct (Q D) as (Q1 & Q2). split; [|exact Q2]. intros p k o Hat.
    destruct (Q1 p k o Hat) as (A1 & A2 & A3); [left; destruct Hat as (? & _); lia|]. split; [exact A1|]. 
    assert (En : forall st a b, named (news c c') st a b -> named new st a b).
    { unfold news. unfold recorded in E. rewrite E, skipn_app, skipn_all, Nat.sub_diag. auto. }
    split; [intros Ho; apply En; auto|]. intros k0 Hk Hat0. apply En. exact (A3 k0 Hk Hat0).
  - exfalso. unfold full in Q. lia.
  - lia.
Qed.

Theorem digests_reported : t_step c = 8 -> zlen (t_cheaters c') < t_chmax c -> exists new, recorded c c' new /\ forall p, digest_differs C e c input p -> named new 20 p 0.
Proof.
  intros D Hr. destruct HH as (W & G & H7). destruct (call_complete e c input out ret c' out' W G H7 H Z ltac:(lia)) as (new & E & [Q|[Q|(Q & _)]]).
  - exists new. split; [exact E|]. destruct Q as (_ & _ & Q & _). exact (Q D).
  - exfalso. unfold full in Q. lia.
  - lia.
Qed.

Theorem complaints_settled : t_step c = 7 -> zlen (t_cheaters c') < t_chmax c -> exists new, recorded c c' new /\
  forall a b, 1 <= a <= t_n c -> complaint c b a -> named new 18 a b \/ named new 18 b a.
Proof.
  intros D Hr. destruct HH as (W & G & H7). destruct (call_complete e c input out ret c' out' W G H7 H Z ltac:(lia)) as (new & E & [Q|[Q|(Q & _)]]).
  - exists new. split; [exact E|]. destruct Q as (_ & _ & _ & Q & _). apply (Q D).
  - exfalso. unfold full in Q. lia.
  - lia.
Qed.

Theorem failure_names_somebody : 0 <= t_step c <= 9 -> ret <> 0 -> 0 < t_chmax c -> t_cheaters c' <> [] \/ t_step c = 1 /\ exists p, 1 <= p <= t_n c /\ ~ vouched C c input p.
Proof.
  intros D Hret Hm. destruct HH as (W & G & H7). destruct (call_complete e c input out ret c' out' W G H7 H Z D) as (new & E & [Q|[Q|Q]]).
  - left. destruct Q as (_ & _ & _ & _ & Q). auto.
  - left. unfold full in Q. intros E0. rewrite E0 in Q. change (zlen (@nil cheater)) with 0 in Q. lia.
  - right. exact Q.
Qed.
End CALL.
End MISSED.
