(** Every entry of the list of cheaters stands for something that happened (C79). *)
From Coq Require Import ZArith Lia List Bool.
From Coq.Strings Require Import Byte.
From Verif Require Import Bytes Res Mem Sodium ToprfModel ToprfSpec DkgModel DkgSpec DkgProofs WireModel WireSpec WireProofs TpCrypto TpModel PeerModel CheaterModel.
From Verif Require Import TpFrame PeerFrame TpSpec TpMsg TpContent TpComplaints TpControl TpSizes PeerContent TpAgree BlameSpec TpBlame TpReports TpSafe TpRun ReportSpec.
Import ListNotations.
Open Scope list_scope.
Open Scope Z_scope.

(** ** Messages *)
Section MSG.
Variable C : crypto.
Notation S := (cS C).

Lemma recv_fault buf off len msgno from to pk sid eps last now r last' :
  recv_msg S buf off len msgno from to pk sid eps last now = Ok (r, last') -> 0 <= off -> 111 <= len -> off + len <= zlen buf -> r <> 0 ->
  refused r /\ faulty S buf off len msgno from to pk sid eps last now (recv_err r).
Proof.
  intros H Ho Hl Hb Hr. assert (Hm : exists m, rd buf off len = Ok m) by (eexists; apply rd_ok; lia). destruct Hm as (m & Hm).
  destruct (recv_checks S buf off len m msgno from to pk sid eps last now Hm Hl) as (f & r' & l' & F1 & F2 & F3 & _ & F5 & _).
  rewrite H in F3. injection F3 as <- <-. specialize (F5 Hr). destruct F5 as (before & q & after & E & _ & Hq).
  pose proof (recv_codes _ _ _ _ _ _ _ _ _ _ _ _ _ _ H) as Hc. split; [unfold refused; lia|]. exists f. split; [exact F1|]. rewrite F2. split; [exact Hm|].
  assert (I : In (r, q) (checks S f len msgno from to pk sid eps last now)) by (rewrite E; apply in_or_app; right; left; reflexivity).
  unfold checks in I. cbn [In] in I.
  repeat (destruct I as [I|I]; [injection I as <- <-; exact Hq|]). contradiction.
Qed.

Lemma recv_stamp buf off len msgno from to pk sid eps last now r last' :
  recv_msg S buf off len msgno from to pk sid eps last now = Ok (r, last') -> 0 <= off -> 111 <= len -> off + len <= zlen buf ->
  last' = last \/ exists f, fields_ok f /\ rd buf off len = Ok (encode f) /\ last' = f_ts f.
Proof.
  intros H Ho Hl Hb. assert (Hm : exists m, rd buf off len = Ok m) by (eexists; apply rd_ok; lia). destruct Hm as (m & Hm).
  rewrite (recorded_after _ _ _ _ _ _ _ _ _ _ _ _ _ _ _ Hm Hl H). destruct (_ || _); [right|left; reflexivity].
  pose proof (rd_inv _ _ _ _ Hm) as (_ & _ & _ & Hz & _). destruct (parse_encode m ltac:(lia)) as (Ep & Hp). exists (parse m).
  split; [exact Hp|]. rewrite Ep. split; [exact Hm|reflexivity].
Qed.
End MSG.

Section TRUTH.
Variable C : crypto.
Notation S := (cS C).

(** ** What every step keeps, and the entries it adds *)
Record tx (b : bool) (P : cheater -> Prop) (c c' : tp) : Prop := mkTx {
  tx_n : t_n c' = t_n c; tx_t : t_t c' = t_t c; tx_sid : t_sid c' = t_sid c; tx_eps : t_eps c' = t_eps c; tx_step : t_step c' = t_step c;
  tx_pks : b = true -> t_pks c' = t_pks c;
  tx_new : exists new, t_cheaters c' = t_cheaters c ++ new /\ Forall P new }.
Lemma tx_refl b P c : tx b P c c.
Proof. constructor; auto. exists []. rewrite app_nil_r. auto. Qed.
Lemma tx_same b P c c1 c2 : tx b P c c1 -> t_n c2 = t_n c1 -> t_t c2 = t_t c1 -> t_sid c2 = t_sid c1 -> t_eps c2 = t_eps c1 -> t_step c2 = t_step c1 ->
  (b = true -> t_pks c2 = t_pks c1) -> t_cheaters c2 = t_cheaters c1 -> tx b P c c2.
Proof.
  intros [n1 t1 d1 e1 s1 k1 (l1 & E1 & F1)] H1 H2 H3 H4 H5 H6 H7. constructor; try congruence.
  - intros Hb. rewrite H6, k1 by exact Hb. reflexivity.
  - exists l1. rewrite H7. auto.
Qed.
Lemma tx_add b P c c1 step error peer other c2 : tx b P c c1 -> add_cheater c1 step error peer other = Some c2 -> 0 <= peer < 256 -> 0 <= other < 256 ->
  P (mkCheater step error peer other 0) -> tx b P c c2 /\ t_last c2 = t_last c1 /\ t_complaints c2 = t_complaints c1.
Proof.
  intros [n1 t1 d1 e1 s1 k1 (l1 & E1 & F1)] H Hp Ho HP. apply add_cheater_inv in H. destruct H as (_ & ->). split; [|split; reflexivity].
  constructor; try assumption. exists (l1 ++ [mkCheater step error peer other 0]). cbn [t_cheaters tp_cheaters_set]. unfold Mem.u8. rewrite !Z.mod_small by lia.
  rewrite E1, app_assoc. split; [reflexivity|]. apply Forall_app. auto.
Qed.

(** receiving one message of each peer: the recorded time stamps from [i] on are those before the call *)
Definition later (c : tp) (i : Z) (c' : tp) : Prop := forall j, i <= j -> getz (t_last c') j = getz (t_last c) j.
Lemma later_S c i c' : later c i c' -> later c (i + 1) c'.
Proof. intros H j Hj. apply H. lia. Qed.

Lemma recv_one b P c c1 input off len msgno to pk i now ret c2 : tx b P c c1 -> later c i c1 ->
  tp_recv C c1 input off len msgno (i + 1) to pk i now = Ok (ret, c2) -> 0 <= off -> 111 <= len -> off + len <= zlen input ->
  tx b P c c2 /\ later c (i + 1) c2 /\ t_complaints c2 = t_complaints c1 /\ t_pks c2 = t_pks c1 /\
  exists last, getz (t_last c) i = Ok last /\
    (ret <> 0 -> refused ret /\ faulty S input off len msgno (i + 1) to pk (t_sid c) (t_eps c) last now (recv_err ret)) /\
    (ret = 0 -> accepted C input off len pk (t_sid c) msgno (i + 1) to (t_eps c) last now).
Proof.
  intros X L H Ho Hl Hb. apply tp_recv_inv in H. destruct H as (last & last' & l & R1 & R2 & R3 & ->).
  split; [apply (tx_same _ _ _ _ _ X); reflexivity|]. split.
  { intros j Hj. cbn [t_last tp_last_set]. apply updz_inv in R3. destruct R3 as (_ & _ & ->). destruct (Z.eqb_spec j i); [lia|]. apply L. lia. }
  split; [reflexivity|]. split; [reflexivity|]. exists last. rewrite <- (L i) by lia. split; [exact R1|].
  rewrite (tx_sid _ _ _ _ X), (tx_eps _ _ _ _ X) in R2. split.
  - intros Hr. exact (recv_fault C _ _ _ _ _ _ _ _ _ _ _ _ _ R2 Ho Hl Hb Hr).
  - intros ->. exact (accepted_of_recv C _ _ _ _ _ _ _ _ _ _ _ _ Ho Hl R2).
Qed.

(** a refused message *)
Lemma one_message e c input step r i off len msgno to pk last : In step [4; 12; 16; 22] -> 0 <= i < t_n c ->
  slot (t_n c) (t_t c) step (i + 1) to = Some (off, len, msgno, i) -> key_of c input step (i + 1) pk -> getz (t_last c) i = Ok last -> refused r ->
  faulty S input off len msgno (i + 1) to pk (t_sid c) (t_eps c) last (e_r e i) (recv_err r) ->
  happened C e c input (mkCheater step (64 + r) (i + 1) to 0).
Proof.
  intros Hs Hi Hsl Hk Hl Hr Hf. apply hap_message; [|exact Hr|].
  - cbn [In] in Hs |- *. intuition.
  - split; [lia|]. exists off, len, msgno, i, pk, last. split; [exact Hsl|]. split; [exact Hk|]. split; [|exact Hf]. left. replace (i + 1 - 1) with i by lia. exact Hl.
Qed.

Notation proj3 := (fun s : tp * bytes * Z => fst (fst s)).

(** ** Step 4 *)
Lemma true_step4_body e c input i s r : let P := happened C e c input in 0 <= i < t_n c -> t_n c <= 128 -> zlen input = 239 * t_n c ->
  tx false P c (proj3 s) -> later c i (proj3 s) -> tp_step4_body C e input i s = Ok r ->
  match r with Next s' => tx false P c (proj3 s') /\ later c (i + 1) (proj3 s') | Return _ s' => tx false P c (proj3 s') end.
Proof.
  intros P. destruct s as [[c1 out] w]. cbn [fst]. intros Hi Hn Hz X L H. unfold tp_step4_body in H. change (msg2_SIZE + sign_BYTES) with 239 in H. change msg2_SIZE with 175 in H.
  apply bind_ok in H. destruct H as (ltsig & _ & H). apply bind_ok in H. destruct H as (m & _ & H). apply bind_ok in H. destruct H as (lt & _ & H).
  destruct (sig_verify _ _ _ _); cbn [negb] in H; [|injection H as <-; exact X].
  apply bind_ok in H. destruct H as (pk & Hpk & H). apply bind_ok in H. destruct H as ((ret & c2) & E2 & H). rewrite hdr_val in Hpk.
  destruct (recv_one _ _ _ _ _ _ _ _ _ _ _ _ _ _ X L E2 ltac:(lia) ltac:(lia) ltac:(lia)) as (X2 & L2 & _ & _ & last & G1 & G2 & G3).
  destruct (ret =? 0) eqn:E0; cbn [negb] in H.
  - apply bind_ok in H. destruct H as (pks & _ & H). apply bind_ok in H. destruct H as (out' & _ & H). injection H as <-. cbn [fst]. split; [|exact L2].
    apply (tx_same _ _ _ _ _ X2); try reflexivity. discriminate.
  - apply Z.eqb_neq in E0. destruct (G2 E0) as (Hr & Hf).
    destruct (add_cheater _ _ _ _ _) eqn:Ea in H; injection H as <-; cbn [fst]; [|exact X2].
    destruct (tx_add _ _ _ _ _ _ _ _ _ X2 Ea ltac:(lia) ltac:(lia)) as (X3 & L3 & _).
    { apply (one_message e c input 4 ret i (239 * i) 175 2 255 pk last); cbn [In]; auto 10.
      - cbn [slot]. replace (i + 1 - 1) with i by lia. reflexivity.
      - unfold key_of. cbn [Z.eqb Pos.eqb]. replace (i + 1 - 1) with i by lia. rewrite <- Hpk. f_equal; lia.
      - rewrite Z.mul_comm. exact Hf. }
    split; [exact X3|]. unfold later. rewrite L3. exact L2.
Qed.

Lemma loop1 {X} b P c (proj : X -> tp) f s r : (forall i s r, 0 <= i < t_n c -> tx b P c (proj s) -> later c i (proj s) -> f i s = Ok r ->
    match r with Next s' => tx b P c (proj s') /\ later c (i + 1) (proj s') | Return _ s' => tx b P c (proj s') end) ->
  tx b P c (proj s) -> later c 0 (proj s) -> loopM f (zrange 0 (Z.to_nat (t_n c))) s = Ok r -> tx b P c (proj (ctl_state r)).
Proof.
  intros Hf H1 H2 H. pose proof (loopM_seq_inv f (fun i s => tx b P c (proj s) /\ later c i (proj s)) (fun _ s => tx b P c (proj s)) 0 (Z.to_nat (t_n c)) s r) as L.
  assert (Q : match r with Next s2 => tx b P c (proj s2) /\ later c (0 + Z.of_nat (Z.to_nat (t_n c))) (proj s2) | Return _ s2 => tx b P c (proj s2) end).
  { apply L; [auto| |exact H]. intros i s1 r1 Hi (A & B) E. eapply Hf; try eassumption. lia. }
  destruct r; [apply Q|exact Q].
Qed.

Lemma true_step4 e c input out ret c' out' : tp_wf c -> tp_step4 C e c input out = Ok (ret, c', out') -> tx false (happened C e c input) c c'.
Proof.
  intros W H. pose proof (w_n c W) as Hn. unfold tp_step4 in H. change (msg2_SIZE + sign_BYTES) with 239 in H.
  destruct (Z.eqb_spec (239 * t_n c) (zlen input)) as [Hz|]; cbn [negb] in H; [|injection H as <- <- <-; apply tx_refl].
  destruct (zlen out =? _); cbn [negb] in H; [|injection H as <- <- <-; apply tx_refl].
  apply bind_ok in H. destruct H as (r & HL & H).
  apply (loop1 false (happened C e c input) c proj3) in HL; [|intros; eapply true_step4_body; try eassumption; lia|apply tx_refl|intros j _; reflexivity].
  destruct r as [[[c1 o1] w1]|code [[c1 o1] w1]]; cbn [ctl_state fst] in HL; [|injection H as <- <- <-; exact HL].
  destruct (0 <? zlen (t_cheaters c1)); [injection H as <- <- <-; exact HL|].
  apply bind_ok in H. destruct H as (o2 & _ & H). injection H as <- <- <-. apply (tx_same _ _ _ _ _ HL); reflexivity.
Qed.

(** ** Step 12 *)
Lemma true_step12_body e c input i s r : let P := happened C e c input in 0 <= i < t_n c -> t_n c <= 128 -> 0 <= t_t c -> zlen input = msg6_SIZE (t_t c) * t_n c ->
  tx true P c (proj3 s) -> later c i (proj3 s) -> tp_step12_body C e input i s = Ok r ->
  match r with Next s' => tx true P c (proj3 s') /\ later c (i + 1) (proj3 s') | Return _ s' => tx true P c (proj3 s') end.
Proof.
  intros P. destruct s as [[c1 out] w]. cbn [fst]. intros Hi Hn Ht Hz X L H. unfold tp_step12_body in H. rewrite (tx_t _ _ _ _ X) in H.
  assert (E6 : msg6_SIZE (t_t c) = 111 + 32 * t_t c) by reflexivity. rewrite E6 in *.
  apply bind_ok in H. destruct H as (pk & Hpk & H). apply bind_ok in H. destruct H as ((ret & c2) & E2 & H).
  rewrite (tx_pks _ _ _ _ X eq_refl) in Hpk.
  destruct (recv_one _ _ _ _ _ _ _ _ _ _ _ _ _ _ X L E2 ltac:(nia) ltac:(lia) ltac:(nia)) as (X2 & L2 & _ & _ & last & G1 & G2 & G3).
  destruct (ret =? 0) eqn:E0; cbn [negb] in H.
  - apply bind_ok in H. destruct H as (data & _ & H). apply bind_ok in H. destruct H as (com & _ & H). apply bind_ok in H. destruct H as (m & _ & H).
    apply bind_ok in H. destruct H as (out' & _ & H). rewrite (tx_t _ _ _ _ X2) in H. injection H as <-. cbn [fst]. split; [|exact L2].
    apply (tx_same _ _ _ _ _ X2); reflexivity.
  - apply Z.eqb_neq in E0. destruct (G2 E0) as (Hr & Hf).
    destruct (add_cheater _ _ _ _ _) eqn:Ea in H; injection H as <-; cbn [fst]; [|exact X2].
    destruct (tx_add _ _ _ _ _ _ _ _ _ X2 Ea ltac:(lia) ltac:(lia)) as (X3 & L3 & _).
    { apply (one_message e c input 12 ret i ((111 + 32 * t_t c) * i) (111 + 32 * t_t c) 6 255 pk last); cbn [In]; auto 10.
      - cbn [slot]. replace (i + 1 - 1) with i by lia. reflexivity.
      - unfold key_of. cbn [Z.eqb Pos.eqb]. replace (i + 1 - 1) with i by lia. exact Hpk.
      - rewrite (Z.mul_comm _ i). exact Hf. }
    split; [exact X3|]. unfold later. rewrite L3. exact L2.
Qed.
Lemma true_step12 e c input out ret c' out' : tp_wf c -> tp_step12 C e c input out = Ok (ret, c', out') -> tx true (happened C e c input) c c'.
Proof.
  intros W H. pose proof (w_n c W) as Hn. pose proof (w_t c W) as Ht. unfold tp_step12 in H.
  destruct (Z.eqb_spec (msg6_SIZE (t_t c) * t_n c) (zlen input)) as [Hz|]; cbn [negb] in H; [|injection H as <- <- <-; apply tx_refl].
  destruct (zlen out =? _); cbn [negb] in H; [|injection H as <- <- <-; apply tx_refl].
  apply bind_ok in H. destruct H as (r & HL & H).
  apply (loop1 true (happened C e c input) c proj3) in HL; [|intros; eapply true_step12_body; try eassumption; lia|apply tx_refl|intros j _; reflexivity].
  destruct r as [[[c1 o1] w1]|code [[c1 o1] w1]]; cbn [ctl_state fst] in HL; [|injection H as <- <- <-; exact HL].
  destruct (0 <? zlen (t_cheaters c1)); [injection H as <- <- <-; exact HL|].
  apply bind_ok in H. destruct H as (o2 & _ & H). injection H as <- <- <-. apply (tx_same _ _ _ _ _ HL); reflexivity.
Qed.

(** ** Step 22 *)
Lemma true_step22_body e c input i c1 r : let P := happened C e c input in 0 <= i < t_n c -> t_n c <= 128 -> zlen input = 113 * t_n c ->
  tx true P c c1 -> later c i c1 -> tp_step22_body C e input i c1 = Ok r ->
  match r with Next s' => tx true P c s' /\ later c (i + 1) s' | Return _ s' => tx true P c s' end.
Proof.
  intros P Hi Hn Hz X L H. unfold tp_step22_body in H. change msg21_SIZE with 113 in H.
  apply bind_ok in H. destruct H as (pk & Hpk & H). apply bind_ok in H. destruct H as ((ret & c2) & E2 & H).
  rewrite (tx_pks _ _ _ _ X eq_refl) in Hpk.
  destruct (recv_one _ _ _ _ _ _ _ _ _ _ _ _ _ _ X L E2 ltac:(lia) ltac:(lia) ltac:(lia)) as (X2 & L2 & _ & _ & last & G1 & G2 & G3).
  destruct (ret =? 0) eqn:E0; cbn [negb] in H.
  - apply bind_ok in H. destruct H as (d & _ & H). injection H as <-. auto.
  - apply Z.eqb_neq in E0. destruct (G2 E0) as (Hr & Hf).
    destruct (add_cheater _ _ _ _ _) eqn:Ea in H; injection H as <-; cbn [fst]; [|exact X2].
    destruct (tx_add _ _ _ _ _ _ _ _ _ X2 Ea ltac:(lia) ltac:(lia)) as (X3 & L3 & _).
    { apply (one_message e c input 22 ret i (113 * i) 113 22 0 pk last); cbn [In]; auto 10.
      - cbn [slot]. replace (i + 1 - 1) with i by lia. reflexivity.
      - unfold key_of. cbn [Z.eqb Pos.eqb]. replace (i + 1 - 1) with i by lia. exact Hpk.
      - rewrite (Z.mul_comm _ i). exact Hf. }
    split; [exact X3|]. unfold later. rewrite L3. exact L2.
Qed.
Lemma true_step22 e c input out ret c' out' : tp_wf c -> tp_step22 C e c input out = Ok (ret, c', out') -> tx true (happened C e c input) c c'.
Proof.
  intros W H. pose proof (w_n c W) as Hn. unfold tp_step22 in H. change msg21_SIZE with 113 in H.
  destruct (Z.eqb_spec (113 * t_n c) (zlen input)) as [Hz|]; cbn [negb] in H; [|injection H as <- <- <-; apply tx_refl].
  destruct (zlen out =? _); cbn [negb] in H; [|injection H as <- <- <-; apply tx_refl].
  apply bind_ok in H. destruct H as (r & HL & H).
  apply (loop1 true (happened C e c input) c (fun c => c)) in HL; [|intros; eapply true_step22_body; try eassumption; lia|apply tx_refl|intros j _; reflexivity].
  destruct r as [c1|code c1]; cbn [ctl_state] in HL; injection H as <- <- <-; exact HL.
Qed.

(** ** Step 20 *)
Lemma true_step20_body e c input i s r : let P := happened C e c input in 0 <= i < t_n c -> t_n c <= 128 -> zlen input = 143 * t_n c ->
  tx true P c (fst s) -> later c i (fst s) -> tp_step20_body C e input (blake2b (cH C) 32 (t_transcript c)) i s = Ok r ->
  match r with Next s' => tx true P c (fst s') /\ later c (i + 1) (fst s') | Return _ s' => tx true P c (fst s') end.
Proof.
  intros P. destruct s as [c1 out]. cbn [fst]. intros Hi Hn Hz X L H. unfold tp_step20_body in H. change msg19_SIZE with 143 in H.
  apply bind_ok in H. destruct H as (pk & Hpk & H). apply bind_ok in H. destruct H as ((ret & c2) & E2 & H).
  rewrite (tx_pks _ _ _ _ X eq_refl) in Hpk.
  destruct (recv_one _ _ _ _ _ _ _ _ _ _ _ _ _ _ X L E2 ltac:(lia) ltac:(lia) ltac:(lia)) as (X2 & L2 & _ & _ & last & G1 & G2 & G3).
  destruct (ret =? 0) eqn:E0; cbn [negb] in H.
  - apply Z.eqb_eq in E0. specialize (G3 E0). apply bind_ok in H. destruct H as (d & Hd & H). rewrite hdr_val in Hd.
    destruct (bytes_eqb _ d) eqn:Ed; cbn [negb] in H; [injection H as <-; auto|].
    assert (HP : P (mkCheater 20 1 (i + 1) 0 0)).
    { apply hap_digest. split; [lia|]. replace (i + 1 - 1) with i by lia. rewrite (Z.mul_comm 143). split; [exists pk, last; auto|].
      exists d. split; [exact Hd|]. intros ->. rewrite bytes_eqb_refl in Ed. discriminate. }
    destruct (add_cheater _ _ _ _ _) eqn:Ea in H; [|injection H as <-; exact X2].
    destruct (tx_add _ _ _ _ _ _ _ _ _ X2 Ea ltac:(lia) ltac:(lia) HP) as (X3 & L3 & _).
    apply bind_ok in H. destruct H as (o & _ & H). injection H as <-. cbn [fst]. split; [exact X3|]. unfold later. rewrite L3. exact L2.
  - apply Z.eqb_neq in E0. destruct (G2 E0) as (Hr & Hf).
    assert (HP : P (mkCheater 20 (1 + ret) (i + 1) 0 0)).
    { apply hap_digest_message; [exact Hr|]. split; [lia|]. exists (143 * i), 143, 20, i, pk, last.
      cbn [slot]. unfold key_of. cbn [Z.eqb Pos.eqb]. replace (i + 1 - 1) with i by lia. split; [reflexivity|]. split; [exact Hpk|]. split; [left; replace (i + 1 - 1) with i by lia; exact G1|].
      rewrite (Z.mul_comm 143). exact Hf. }
    destruct (add_cheater _ _ _ _ _) eqn:Ea in H; [|injection H as <-; exact X2].
    destruct (tx_add _ _ _ _ _ _ _ _ _ X2 Ea ltac:(lia) ltac:(lia) HP) as (X3 & L3 & _).
    apply bind_ok in H. destruct H as (o & _ & H). injection H as <-. cbn [fst]. split; [exact X3|]. unfold later. rewrite L3. exact L2.
Qed.
Lemma true_step20 e c input out ret c' out' : tp_wf c -> tp_step20 C e c input out = Ok (ret, c', out') ->
  exists c1, tx true (happened C e c input) c c1 /\ t_cheaters c' = t_cheaters c1.
Proof.
  intros W H. pose proof (w_n c W) as Hn. unfold tp_step20 in H. change msg19_SIZE with 143 in H.
  destruct (Z.eqb_spec (143 * t_n c) (zlen input)) as [Hz|]; cbn [negb] in H; [|injection H as <- <- <-; exists c; split; [apply tx_refl|reflexivity]].
  destruct (zlen out =? _); cbn [negb] in H; [|injection H as <- <- <-; exists c; split; [apply tx_refl|reflexivity]].
  apply bind_ok in H. destruct H as (o1 & _ & H). apply bind_ok in H. destruct H as (r & HL & H).
  apply (loop1 true (happened C e c input) c fst) in HL; [|intros; eapply true_step20_body; try eassumption; lia|apply tx_refl|intros j _; reflexivity].
  destruct r as [[c1 o2]|code [c1 o2]]; cbn [ctl_state fst] in HL; [|injection H as <- <- <-; exists c1; auto].
  apply bind_ok in H. destruct H as (o3 & _ & H). exists c1. split; [exact HL|].
  destruct (zlen (t_cheaters c1) =? 0); injection H as <- <- <-; reflexivity.
Qed.

(** ** Steps 8, 10 and 14: a message of every peer for every peer *)
Definition marked (c : tp) (input : bytes) (step k j last : Z) : Prop :=
  getz (t_last c) j = Ok last \/
  exists o' off len msgno clk f, 1 <= o' /\ (o' - 1) * t_n c + j < k /\ slot (t_n c) (t_t c) step (j + 1) o' = Some (off, len, msgno, clk) /\
    fields_ok f /\ rd input off len = Ok (encode f) /\ last = f_ts f.
Definition marks (c : tp) (input : bytes) (step k : Z) (c' : tp) : Prop :=
  forall j last, 0 <= j < t_n c -> getz (t_last c') j = Ok last -> marked c input step k j last.
Lemma marked_S c input step k j last : marked c input step k j last -> marked c input step (k + 1) j last.
Proof. intros [H|(o & off & len & msgno & clk & f & H1 & H2 & H3)]; [left; exact H|right]. exists o, off, len, msgno, clk, f. split; [exact H1|]. split; [lia|exact H3]. Qed.

Lemma recv_two e c input step len msgno k c1 pk ret c2 : let n := t_n c in let i := k / n in let j := k mod n in
  (step = 8 \/ step = 10 \/ step = 14) ->
  (forall p o, slot n (t_t c) step p o = Some (len * ((p - 1) * n + (o - 1)), len, msgno, (o - 1) * n + (p - 1))) ->
  2 <= n <= 128 -> 0 <= k < n * n -> 111 <= len -> zlen input = len * n * n ->
  tx true (happened C e c input) c c1 -> marks c input step k c1 -> getz (t_pks c1) j = Ok pk ->
  tp_recv C c1 input ((j * n + i) * len) len msgno (j + 1) (i + 1) pk j (e_r e k) = Ok (ret, c2) ->
  tx true (happened C e c input) c c2 /\ marks c input step (k + 1) c2 /\ 0 <= i < n /\ 0 <= j < n /\
  (ret <> 0 -> refused ret /\ happened C e c input (mkCheater step (64 + ret) (j + 1) (i + 1) 0)).
Proof.
  intros n i j Hst Hsl Hn Hk Hlen Hz X M Hpk H. apply tp_recv_inv in H. destruct H as (last & last' & l & R1 & R2 & R3 & ->).
  assert (Hj : 0 <= j < n) by (apply Z.mod_pos_bound; lia). assert (Hi : 0 <= i < n) by (split; [apply Z.div_pos; lia|apply Z.div_lt_upper_bound; lia]).
  assert (Ek : k = i * n + j) by (unfold i, j; rewrite (Z.mul_comm (k / n)); apply Z.div_mod; lia).
  assert (Ho : 0 <= (j * n + i) * len) by nia. assert (Hb : (j * n + i) * len + len <= zlen input) by (rewrite Hz; nia).
  rewrite (tx_sid _ _ _ _ X), (tx_eps _ _ _ _ X) in R2. rewrite (tx_pks _ _ _ _ X eq_refl) in Hpk.
  pose proof (M j last Hj R1) as Hs.
  assert (Hslot : slot n (t_t c) step (j + 1) (i + 1) = Some ((j * n + i) * len, len, msgno, k)).
  { rewrite Hsl. replace (j + 1 - 1) with j by lia. replace (i + 1 - 1) with i by lia. rewrite <- Ek. rewrite (Z.mul_comm len). reflexivity. }
  split; [apply (tx_same _ _ _ _ _ X); reflexivity|]. split.
  { intros j' la Hj' Hg. cbn [t_last tp_last_set] in Hg. apply updz_inv in R3. destruct R3 as (_ & _ & U). rewrite U in Hg.
    destruct (Z.eqb_spec j' j) as [->|].
    - injection Hg as <-. destruct (recv_stamp C _ _ _ _ _ _ _ _ _ _ _ _ _ R2 Ho Hlen Hb) as [->|(f & F1 & F2 & ->)]; [apply marked_S; exact Hs|].
      right. exists (i + 1), ((j * n + i) * len), len, msgno, k, f. split; [lia|]. split; [replace (i + 1 - 1) with i by lia; fold n; lia|]. split; [exact Hslot|]. auto.
    - apply marked_S. apply M; assumption. }
  split; [exact Hi|]. split; [exact Hj|]. intros Hr. destruct (recv_fault C _ _ _ _ _ _ _ _ _ _ _ _ _ R2 Ho Hlen Hb Hr) as (Hr1 & Hf). split; [exact Hr1|].
  apply hap_message; [|exact Hr1|].
  { cbn [In]. intuition. }
  split; [fold n; lia|]. exists ((j * n + i) * len), len, msgno, k, pk, last. split; [exact Hslot|]. split.
  { unfold key_of. destruct (Z.eqb_spec step 4); [lia|]. replace (j + 1 - 1) with j by lia. exact Hpk. }
  split; [|exact Hf]. unfold seen. replace (j + 1 - 1) with j by lia.
  destruct Hs as [Hs|(o & off & len' & msgno' & clk & f & H1 & H2 & H3)]; [left; exact Hs|right]. split; [exact Hst|].
  exists o, off, len', msgno', clk, f. split; [fold n in H2; nia|exact H3].
Qed.

Lemma loop2 e c input step f s r : (forall k s r, 0 <= k < t_n c * t_n c -> tx true (happened C e c input) c (proj3 s) -> marks c input step k (proj3 s) -> f k s = Ok r ->
    match r with Next s' => tx true (happened C e c input) c (proj3 s') /\ marks c input step (k + 1) (proj3 s') | Return _ s' => tx true (happened C e c input) c (proj3 s') end) ->
  proj3 s = c -> loopM f (zrange 0 (Z.to_nat (t_n c * t_n c))) s = Ok r -> tx true (happened C e c input) c (proj3 (ctl_state r)).
Proof.
  intros Hf E0 H. set (P := happened C e c input) in *.
  pose proof (loopM_seq_inv f (fun k s => tx true P c (proj3 s) /\ marks c input step k (proj3 s)) (fun _ s => tx true P c (proj3 s)) 0 (Z.to_nat (t_n c * t_n c)) s r) as L.
  assert (Q : match r with Next s2 => tx true P c (proj3 s2) /\ marks c input step (0 + Z.of_nat (Z.to_nat (t_n c * t_n c))) (proj3 s2) | Return _ s2 => tx true P c (proj3 s2) end).
  { apply L; [rewrite E0; split; [apply tx_refl|intros j last _ Hl; left; exact Hl]| |exact H]. intros i s1 r1 Hi (A & B) E. eapply Hf; try eassumption. lia. }
  destruct r; [apply Q|exact Q].
Qed.

Lemma true_step68_body e c input step k s r : let P := happened C e c input in (t_step c = 2 /\ step = 8 \/ t_step c = 3 /\ step = 10) ->
  2 <= t_n c <= 128 -> zlen input = 159 * t_n c * t_n c -> 0 <= k < t_n c * t_n c ->
  tx true P c (proj3 s) -> marks c input step k (proj3 s) -> tp_step68_body C e input k s = Ok r ->
  match r with Next s' => tx true P c (proj3 s') /\ marks c input step (k + 1) (proj3 s') | Return _ s' => tx true P c (proj3 s') end.
Proof.
  intros P. destruct s as [[c1 out] w]. cbn [fst]. intros Hst Hn Hz Hk X M H. unfold tp_step68_body in H. change msg4_SIZE with 159 in H.
  rewrite (tx_n _ _ _ _ X) in H. apply bind_ok in H. destruct H as (pk & Hpk & H). apply bind_ok in H. destruct H as ((ret & c2) & E2 & H).
  rewrite (tx_step _ _ _ _ X) in E2.
  destruct (recv_two e c input step 159 (Mem.u8 (2 + t_step c)) k c1 pk ret c2) as (X2 & M2 & Hi & Hj & G); try assumption; try lia.
  { intros p o. destruct Hst as [(-> & ->)|(-> & ->)]; reflexivity. }
  destruct (ret =? 0) eqn:E0; cbn [negb] in H.
  - apply bind_ok in H. destruct H as (m & _ & H). apply bind_ok in H. destruct H as (o & _ & H). injection H as <-. auto.
  - apply Z.eqb_neq in E0. destruct (G E0) as (Hr & HP). rewrite (tx_step _ _ _ _ X2) in H.
    assert (Es : 6 + (t_step c - 1) * 2 = step) by lia. rewrite Es in H.
    destruct (add_cheater _ _ _ _ _) eqn:Ea in H; [|injection H as <-; exact X2].
    destruct (tx_add _ _ _ _ _ _ _ _ _ X2 Ea ltac:(lia) ltac:(lia) HP) as (X3 & L3 & _).
    destruct (e_log e); [|discriminate]. injection H as <-. cbn [fst]. split; [exact X3|]. unfold marks. rewrite L3. exact M2.
Qed.
Lemma true_step68 e c input out ret c' out' : tp_wf c -> t_step c = 2 \/ t_step c = 3 -> tp_step68 C e c input out = Ok (ret, c', out') -> tx true (happened C e c input) c c'.
Proof.
  intros W Hs H. pose proof (w_n c W) as Hn. unfold tp_step68 in H. change msg4_SIZE with 159 in H.
  destruct (Z.eqb_spec (zlen input) (159 * t_n c * t_n c)) as [Hz|]; cbn [negb] in H; [|injection H as <- <- <-; apply tx_refl].
  destruct (zlen input =? _); cbn [negb] in H; [|injection H as <- <- <-; apply tx_refl].
  apply bind_ok in H. destruct H as (r & HL & H).
  assert (Hst : exists step, t_step c = 2 /\ step = 8 \/ t_step c = 3 /\ step = 10) by (destruct Hs; [exists 8|exists 10]; auto). destruct Hst as (step & Hst).
  apply (loop2 e c input step) in HL; [|intros; eapply true_step68_body; eassumption|reflexivity].
  destruct r as [[[c1 o1] w1]|code [[c1 o1] w1]]; cbn [ctl_state fst] in HL; injection H as <- <- <-; exact HL.
Qed.

Lemma true_step14_body e c input k s r : let P := happened C e c input in
  2 <= t_n c <= 128 -> zlen input = 256 * t_n c * t_n c -> 0 <= k < t_n c * t_n c ->
  tx true P c (proj3 s) -> marks c input 14 k (proj3 s) -> tp_step14_body C e input k s = Ok r ->
  match r with Next s' => tx true P c (proj3 s') /\ marks c input 14 (k + 1) (proj3 s') | Return _ s' => tx true P c (proj3 s') end.
Proof.
  intros P. destruct s as [[c1 out] w]. cbn [fst]. intros Hn Hz Hk X M H. unfold tp_step14_body in H. change msg8_SIZE with 256 in H.
  rewrite (tx_n _ _ _ _ X) in H. apply bind_ok in H. destruct H as (pk & Hpk & H). apply bind_ok in H. destruct H as ((ret & c2) & E2 & H).
  destruct (recv_two e c input 14 256 8 k c1 pk ret c2) as (X2 & M2 & Hi & Hj & G); try assumption; try lia; [reflexivity|].
  destruct (ret =? 0) eqn:E0; cbn [negb] in H.
  - apply bind_ok in H. destruct H as (m & _ & H). apply bind_ok in H. destruct H as (o & _ & H). injection H as <-. auto.
  - apply Z.eqb_neq in E0. destruct (G E0) as (Hr & HP).
    destruct (add_cheater _ _ _ _ _) eqn:Ea in H; [|injection H as <-; exact X2].
    destruct (tx_add _ _ _ _ _ _ _ _ _ X2 Ea ltac:(lia) ltac:(lia) HP) as (X3 & L3 & _).
    injection H as <-. cbn [fst]. split; [exact X3|]. unfold marks. rewrite L3. exact M2.
Qed.
Lemma true_step14 e c input out ret c' out' : tp_wf c -> tp_step14 C e c input out = Ok (ret, c', out') -> tx true (happened C e c input) c c'.
Proof.
  intros W H. pose proof (w_n c W) as Hn. unfold tp_step14 in H. change msg8_SIZE with 256 in H.
  destruct (Z.eqb_spec (zlen input) (256 * t_n c * t_n c)) as [Hz|]; cbn [negb] in H; [|injection H as <- <- <-; apply tx_refl].
  destruct (zlen input =? _); cbn [negb] in H; [|injection H as <- <- <-; apply tx_refl].
  apply bind_ok in H. destruct H as (r & HL & H).
  apply (loop2 e c input 14) in HL; [|intros; eapply true_step14_body; eassumption|reflexivity].
  destruct r as [[[c1 o1] w1]|code [[c1 o1] w1]]; cbn [ctl_state fst] in HL; [|injection H as <- <- <-; exact HL].
  destruct (0 <? _); [injection H as <- <- <-; exact HL|]. apply bind_ok in H. destruct H as (enc & _ & H). injection H as <- <- <-.
  apply (tx_same _ _ _ _ _ HL); reflexivity.
Qed.

(** ** Step 16 *)
Definition heard (e : env) (c : tp) (input : bytes) (i k : Z) (c' : tp) : Prop :=
  NoDup (t_complaints c') /\ forall x, In x (t_complaints c') ->
    complainer_of x <= i /\ complains C e c input (complainer_of x) (accused_of x) \/
    complainer_of x = i + 1 /\ exists k', 0 <= k' < k /\ complains_at C e c input (i + 1) k' (accused_of x).

Lemma true_complaint e c input i lim k c1 r count : let P := happened C e c input in 0 <= i < t_n c -> t_n c <= 128 ->
  (exists pk last, getz (t_pks c) i = Ok pk /\ getz (t_last c) i = Ok last /\
    accepted C input ((112 + t_n c) * i) (112 + t_n c) pk (t_sid c) 9 (i + 1) 255 (t_eps c) last (e_r e i)) ->
  getz input ((112 + t_n c) * i + 111) = Ok count -> 0 <= k < bz count ->
  tx true P c c1 -> later c (i + 1) c1 -> heard e c input i k c1 ->
  tp_step16_complaint input (i * (112 + t_n c)) i lim k c1 = Ok r ->
  match r with Next c2 => tx true P c c2 /\ later c (i + 1) c2 /\ heard e c input i (k + 1) c2 | Return _ c2 => tx true P c c2 end.
Proof.
  intros P Hi Hn Ha Hc Hk X L (N & Hh) H. unfold tp_step16_complaint in H.
  assert (Up : heard e c input i (k + 1) c1).
  { split; [exact N|]. intros x Hx. destruct (Hh x Hx) as [A|(A & k' & B & D)]; [left; exact A|right]. split; [exact A|]. exists k'. split; [lia|exact D]. }
  destruct (k + 1 <? lim); cbn [negb] in H; [|injection H as <-; auto].
  apply bind_ok in H. destruct H as (d & Hd & H). rewrite hdr_val in Hd. pose proof (Bytes.bz_range d) as Rd. rewrite (tx_n _ _ _ _ X) in H.
  assert (Hat : complains_at C e c input (i + 1) k (bz d)).
  { split; [lia|]. replace (i + 1 - 1) with i by lia. split; [exact Ha|]. split; [exists count; auto|].
    split; [|exact Rd]. rewrite zb_bz, <- Hd. f_equal. lia. }
  destruct ((t_n c <? bz d) || (bz d <? 1)) eqn:Er.
  { destruct (add_cheater _ _ _ _ _) eqn:Ea in H; injection H as <-; [|exact X].
    destruct (tx_add _ _ _ _ _ _ _ _ _ X Ea ltac:(lia) Rd) as (X3 & L3 & K3).
    { apply hap_invalid_accused; [exists k; exact Hat|]. apply orb_true_iff in Er. rewrite !Z.ltb_lt in Er. lia. }
    split; [exact X3|]. split; [unfold later; rewrite L3; exact L|]. unfold heard. rewrite K3. exact Up. }
  apply orb_false_iff in Er. destruct Er as (Er1 & Er2). apply Z.ltb_ge in Er1, Er2. rewrite pair16_val in H by lia.
  destruct (pair_parts (i + 1) (bz d) ltac:(lia)) as (Q1 & Q2).
  destruct (existsb _ _) eqn:Ex.
  - apply existsb_eqb_In in Ex. destruct (Hh _ Ex) as [(A & _)|(_ & k' & A & B)]; [rewrite Q1 in A; lia|]. rewrite Q2 in B.
    destruct (add_cheater _ _ _ _ _) eqn:Ea in H; injection H as <-; [|exact X].
    destruct (tx_add _ _ _ _ _ _ _ _ _ X Ea ltac:(lia) Rd) as (X3 & L3 & K3).
    { apply (hap_duplicate _ _ _ _ (i + 1) (bz d) k' k); [lia|exact B|exact Hat]. }
    split; [exact X3|]. split; [unfold later; rewrite L3; exact L|]. unfold heard. rewrite K3. exact Up.
  - destruct (_ <? t_cmax c1); [|discriminate]. injection H as <-.
    split; [apply (tx_same _ _ _ _ _ X); reflexivity|]. split; [exact L|]. unfold heard. cbn [t_complaints tp_complaints_set]. split.
    + apply NoDup_snoc; [exact N|]. rewrite <- existsb_eqb_In, Ex. discriminate.
    + intros x Hx. apply in_app_or in Hx. destruct Hx as [Hx|[<-|[]]]; [apply Up; exact Hx|]. right. rewrite Q1, Q2. split; [reflexivity|]. exists k. split; [lia|exact Hat].
Qed.

Lemma true_step16_body e c input i s r : let P := happened C e c input in 0 <= i < t_n c -> 2 <= t_n c <= 128 -> zlen input = (112 + t_n c) * t_n c ->
  tx true P c (proj3 s) -> later c i (proj3 s) -> heard e c input i 0 (proj3 s) -> tp_step16_body C e input i s = Ok r ->
  match r with Next s' => tx true P c (proj3 s') /\ later c (i + 1) (proj3 s') /\ heard e c input (i + 1) 0 (proj3 s') | Return _ s' => tx true P c (proj3 s') end.
Proof.
  intros P. destruct s as [[c1 out] w]. cbn [fst]. intros Hi Hn Hz X L Hh H. unfold tp_step16_body in H.
  rewrite (tx_n _ _ _ _ X), msg9_val in H.
  apply bind_ok in H. destruct H as (pk & Hpk & H). apply bind_ok in H. destruct H as ((ret & c2) & E2 & H).
  rewrite (tx_pks _ _ _ _ X eq_refl) in Hpk.
  destruct (recv_one _ _ _ _ _ _ _ _ _ _ _ _ _ _ X L E2 ltac:(nia) ltac:(lia) ltac:(nia)) as (X2 & L2 & K2 & _ & last & G1 & G2 & G3).
  assert (Next1 : forall k c3, heard e c input i k c3 -> heard e c input (i + 1) 0 c3).
  { intros k c3 (N & Q). split; [exact N|]. intros x Hx. left. destruct (Q x Hx) as [(A & B)|(A & k' & _ & B)]; [split; [lia|exact B]|]. split; [lia|]. rewrite A. exists k'. exact B. }
  destruct (ret =? 0) eqn:E0; cbn [negb] in H.
  - apply Z.eqb_eq in E0. specialize (G3 E0). apply bind_ok in H. destruct H as (flen & _ & H). apply bind_ok in H. destruct H as (d0 & Hd & H). rewrite hdr_val in Hd.
    destruct (_ <? bz d0); [injection H as <-; exact X2|]. apply bind_ok in H. destruct H as (r1 & HL & H). set (lim := u64 _) in HL.
    pose proof (loopM_seq_inv (tp_step16_complaint input (i * (112 + t_n c)) i lim) (fun k c3 => tx true P c c3 /\ later c (i + 1) c3 /\ heard e c input i k c3) (fun _ c3 => tx true P c c3) 0 (Z.to_nat (bz d0)) c2 r1) as LI.
    rewrite (Z.mul_comm i) in G3, Hd.
    assert (Q : match r1 with Next c3 => tx true P c c3 /\ later c (i + 1) c3 /\ heard e c input i (0 + Z.of_nat (Z.to_nat (bz d0))) c3 | Return _ c3 => tx true P c c3 end).
    { apply LI; [|intros k c3 r3 Hk (A1 & A2 & A3) E|exact HL].
      - split; [exact X2|]. split; [exact L2|]. unfold heard. rewrite K2. exact Hh.
      - eapply true_complaint; try eassumption; try lia. exists pk, last. auto. }
    destruct r1 as [c3|code c3]; [|injection H as <-; exact Q]. destruct Q as (Q1 & Q2 & Q3).
    apply bind_ok in H. destruct H as (m & _ & H). apply bind_ok in H. destruct H as (o & _ & H). injection H as <-. cbn [fst]. split; [exact Q1|]. split; [exact Q2|]. eapply Next1; exact Q3.
  - apply Z.eqb_neq in E0. destruct (G2 E0) as (Hr & Hf).
    destruct (add_cheater _ _ _ _ _) eqn:Ea in H; injection H as <-; cbn [fst]; [|exact X2].
    destruct (tx_add _ _ _ _ _ _ _ _ _ X2 Ea ltac:(lia) ltac:(lia)) as (X3 & L3 & K3).
    { apply (one_message e c input 16 ret i ((112 + t_n c) * i) (112 + t_n c) 9 255 pk last); cbn [In]; auto 10.
      - cbn [slot]. replace (i + 1 - 1) with i by lia. reflexivity.
      - unfold key_of. cbn [Z.eqb Pos.eqb]. replace (i + 1 - 1) with i by lia. exact Hpk.
      - rewrite (Z.mul_comm _ i). exact Hf. }
    split; [exact X3|]. split; [unfold later; rewrite L3; exact L2|]. apply (Next1 0). unfold heard. rewrite K3, K2. exact Hh.
Qed.
Lemma true_step16 e c input out ret c' out' : tp_wf c -> tp_step16 C e c input out = Ok (ret, c', out') -> tx true (happened C e c input) c c'.
Proof.
  intros W H. pose proof (w_n c W) as Hn. unfold tp_step16 in H. rewrite msg9_val in H.
  destruct (Z.eqb_spec ((112 + t_n c) * t_n c) (zlen input)) as [Hz|]; cbn [negb] in H; [|injection H as <- <- <-; apply tx_refl].
  destruct (zlen out =? _); cbn [negb] in H; [|injection H as <- <- <-; apply tx_refl].
  apply bind_ok in H. destruct H as (r & HL & H). set (P := happened C e c input).
  pose proof (loopM_seq_inv (tp_step16_body C e input) (fun i s => tx true P c (proj3 s) /\ later c i (proj3 s) /\ heard e c input i 0 (proj3 s)) (fun _ s => tx true P c (proj3 s)) 0 (Z.to_nat (t_n c)) (tp_complaints_set c [], out, hdr_SIZE) r) as LI.
  specialize (fun A B => LI A B HL).
  assert (Q : match r with Next s2 => tx true P c (proj3 s2) /\ later c (0 + Z.of_nat (Z.to_nat (t_n c))) (proj3 s2) /\ heard e c input (0 + Z.of_nat (Z.to_nat (t_n c))) 0 (proj3 s2) | Return _ s2 => tx true P c (proj3 s2) end).
  { apply LI.
    - cbn [fst]. split; [apply (tx_same _ _ _ _ _ (tx_refl _ _ c)); reflexivity|]. split; [intros j _; reflexivity|]. split; [constructor|intros x []].
    - intros i s1 r1 Hi (A1 & A2 & A3) E. eapply true_step16_body; try eassumption; lia. }
  clear LI. destruct r as [[[c1 o1] w1]|code [[c1 o1] w1]]; cbn [fst] in Q; [|injection H as <- <- <-; exact Q]. destruct Q as (X & _ & N & Hh).
  destruct (Z.leb_spec (t_t c1 * t_t c1) (zlen (t_complaints c1))) as [Hm|].
  - destruct (add_cheater _ _ _ _ _) eqn:Ea in H; injection H as <- <- <-; [|exact X].
    refine (proj1 (tx_add _ _ _ _ _ _ _ _ _ X Ea ltac:(lia) ltac:(lia) _)). rewrite (tx_t _ _ _ _ X) in Hm.
    apply (hap_too_many _ _ _ _ (t_complaints c1)); [exact N|exact Hm|]. intros x Hx. destruct (Hh x Hx) as [(_ & A)|(_ & k' & A & _)]; [exact A|lia].
  - destruct (0 <? _); [injection H as <- <- <-; exact X|]. apply bind_ok in H. destruct H as (o & _ & H). injection H as <- <- <-. apply (tx_same _ _ _ _ _ X); reflexivity.
Qed.

(** ** Step 18 *)
Record s18 (P : cheater -> Prop) (c c' : tp) : Prop := mkS18 {
  s_tx : tx true P c c'; s_enc : t_enc c' = t_enc c; s_com : t_com c' = t_com c; s_complaints : t_complaints c' = t_complaints c }.
Lemma s18_refl P c : s18 P c c.
Proof. constructor; try reflexivity. apply tx_refl. Qed.
Lemma s18_add P c c1 error peer other c2 : s18 P c c1 -> add_cheater c1 18 error peer other = Some c2 -> 0 <= peer < 256 -> 0 <= other < 256 ->
  P (mkCheater 18 error peer other 0) -> s18 P c c2 /\ t_last c2 = t_last c1.
Proof.
  intros [X E1 E2 E3] H Hp Ho HP. destruct (tx_add _ _ _ _ _ _ _ _ _ X H Hp Ho HP) as (X2 & L & K). apply add_cheater_inv in H. destruct H as (_ & ->).
  split; [constructor; assumption|exact L].
Qed.
Lemma s18_last P c c1 l : s18 P c c1 -> s18 P c (tp_last_set c1 l).
Proof. intros [X E1 E2 E3]. constructor; try assumption. apply (tx_same _ _ _ _ _ X); reflexivity. Qed.

(** the working copy of the complaints after the first [k] entries of the message of [a] *)
Definition open_for (c : tp) (input : bytes) (a k : Z) (cs : list Z) : Prop :=
  forall b, 0 <= b < 256 ->
    (In (b * 256 + a) cs -> complaint c b a /\ forall k', 0 <= k' < k -> ~ names_at c input a k' b) /\
    (complaint c b a -> ~ In (b * 256 + a) cs -> exists k', 0 <= k' < k /\ names_at c input a k' b) /\
    Nat.le (count_occ Z.eq_dec cs (b * 256 + a)) 1.

Lemma zb_inj a b : 0 <= a < 256 -> 0 <= b < 256 -> zb a = zb b -> a = b.
Proof. intros Ha Hb H. apply (f_equal bz) in H. rewrite !bz_zb_small in H by assumption. exact H. Qed.

Lemma true_key e c input a k c1 cs r : let P := happened C e c input in let p := reveal_off (t_complaints c) a in crypto_ok C -> tp_wf c ->
  good_complaints (t_n c) (t_complaints c) -> s18 P c c1 -> 1 <= a <= t_n c -> reveal_accepted C e c input a -> getz input (p + off_from) = Ok (zb a) ->
  0 <= k < accusations a (t_complaints c) -> open_for c input a k cs ->
  tp_step18_key C e input p (a - 1) k (c1, cs) = Ok r ->
  s18 P c (fst (ctl_state r)) /\ t_last (fst (ctl_state r)) = t_last c1 /\ open_for c input a (k + 1) (snd (ctl_state r)).
Proof.
  intros P p Cok W (Hok & Hnd) X Ha RA Hf Hk Op H. pose proof (w_n c W) as Hn. pose proof (w_t c W) as Ht.
  destruct (key_reads C _ _ _ _ _ _ _ H) as (bt & Hb). pose proof (Bytes.bz_range bt) as Rb. set (b := bz bt) in *.
  assert (Hb' : getz input (p + 111 + 33 * k) = Ok (zb b)) by (rewrite Hb; unfold b; rewrite zb_bz; reflexivity).
  assert (Nm : names_at c input a k b) by (split; [exact Hk|exact Hb']).
  pose proof (key_step C _ _ _ _ _ _ _ _ _ _ H Hb Hf) as KR. rewrite (bz_zb_small a) in KR by lia. fold b in KR.
  destruct KR as (_ & TL & KO & _ & KD).
  assert (Nx : forall b', b' * 256 + a <> 65535) by (intros b'; lia).
  assert (Op' : open_for c input a (k + 1) (snd (ctl_state r))).
  { intros b' Hb2. destruct (Op b' Hb2) as (O1 & O2 & O3). destruct (KO _ (Nx b')) as (KO1 & KO2). destruct (Z.eq_dec b' b) as [->|Hne].
    - assert (Hout : ~ In (b * 256 + a) (snd (ctl_state r))).
      { intros Hin. apply (count_occ_In Z.eq_dec) in Hin. assert (Hin2 : In (b * 256 + a) cs) by (apply (count_occ_In Z.eq_dec); lia). specialize (KD Hin2 (Nx b)). lia. }
      split; [contradiction|]. split; [|lia]. intros _ _. exists k. split; [lia|exact Nm].
    - assert (KO3 : b' * 256 + a <> b * 256 + a) by lia. specialize (KO2 KO3). split; [|split; [|lia]].
      + intros Hin. apply (count_occ_In Z.eq_dec) in Hin. rewrite KO2 in Hin. apply (count_occ_In Z.eq_dec) in Hin. destruct (O1 Hin) as (Q1 & Q2). split; [exact Q1|].
        intros k' Hk'. destruct (Z.eq_dec k' k) as [->|]; [|apply Q2; lia]. intros (_ & Hg). fold p in Hg. rewrite Hb' in Hg. injection Hg as Hg. apply zb_inj in Hg; [congruence|exact Rb|exact Hb2].
      + intros Hc Hnin. destruct (O2 Hc) as (k' & Hk' & Q); [|exists k'; split; [lia|exact Q]]. intros Hin. apply Hnin.
        apply (count_occ_In Z.eq_dec). apply (count_occ_In Z.eq_dec) in Hin. lia. }
  cut (s18 P c (fst (ctl_state r))); [intros Q; split; [exact Q|split; [exact TL|exact Op']]|].
  clear TL KO KD Op'. unfold tp_step18_key in H. unfold noise_key_SIZE in H. change (1 + 32) with 33 in H. rewrite hdr_val in H.
  rewrite Hb in H. cbn [bind] in H. rewrite Hf in H. cbn [bind] in H. cbn zeta in H. fold b in H. rewrite (bz_zb_small a) in H by lia.
  assert (Fin : forall cs1 error, P (mkCheater 18 error a b 0) ->
    match add_cheater c1 18 error a b with None => Ok (Return 4 (c1, cs1)) | Some c2 => Ok (Next (c2, cs1)) end = Ok r -> s18 P c (fst (ctl_state r))).
  { intros cs1 error HP Hr. destruct (add_cheater _ _ _ _ _) eqn:Ea in Hr; injection Hr as <-; cbn [ctl_state fst]; [|exact X].
    exact (proj1 (s18_add _ _ _ _ _ _ _ X Ea ltac:(lia) Rb HP)). }
  destruct (Op b Rb) as (O1 & O2 & O3).
  destruct (find_pair _ _ _) as [j|] eqn:F.
  2:{ apply (Fin cs 6); [|exact H]. apply (hap_happy _ _ _ _ a b k); [exact Ha|exact RA|exact Nm|]. pose proof (find_pair_none _ _ _ F) as Hno.
      destruct (in_dec Z.eq_dec (b * 256 + a) (t_complaints c)) as [Hc|Hc]; [right|left; exact Hc]. destruct (O2 Hc Hno) as (k' & Hk' & Q). exists k'. split; [lia|exact Q]. }
  assert (Hin : In (b * 256 + a) cs) by (apply find_pair_some in F; destruct F as (l1 & l2 & -> & _ & _); apply in_or_app; right; left; reflexivity).
  destruct (O1 Hin) as (Hc & First). assert (Hcok : 1 <= b <= t_n c).
  { rewrite Forall_forall in Hok. specialize (Hok _ Hc). destruct Hok as (Q & _). destruct (pair_parts b a ltac:(lia)) as (Q1 & _). rewrite Q1 in Q. exact Q. }
  assert (Hrd : exists key, rd input (p + 111 + 33 * k + 1) 32 = Ok key).
  { destruct RA as (pk & last & _ & _ & m & ts & body & Hm & _). fold p in Hm. apply rd_inv in Hm. unfold reveal_size in Hm.
    destruct (Z.eqb_spec (accusations a (t_complaints c)) 0); [lia|]. eexists. apply rd_ok; lia. }
  destruct Hrd as (key & Hkey).
  assert (Rv : revealed C e c input a b key).
  { split; [exact Ha|]. split; [exact Hc|]. split; [exact RA|]. exists k. split; [exact Nm|]. split; [exact First|exact Hkey]. }
  apply bind_ok in H. destruct H as (cs1 & _ & H).
  rewrite (tx_n _ _ _ _ (s_tx _ _ _ X)), (tx_pks _ _ _ _ (s_tx _ _ _ X) eq_refl), (tx_sid _ _ _ _ (s_tx _ _ _ X)), (tx_eps _ _ _ _ (s_tx _ _ _ X)), (s_enc _ _ _ X), (s_com _ _ _ X) in H.
  fold (share_off (t_n c) a b) in H.
  assert (E8 : msg8_SIZE = 256) by reflexivity. rewrite E8 in H.
  assert (Hso : 0 <= share_off (t_n c) a b /\ share_off (t_n c) a b + 256 <= zlen (t_enc c)).
  { pose proof (w_enc c W) as We. rewrite E8 in We. unfold share_off. rewrite E8, We. split; nia. }
  apply bind_ok in H. destruct H as (tsb & Hts & H). apply bind_ok in H. destruct H as (pk & Hpk & H).
  apply bind_ok in H. destruct H as ((ret & l) & Er & H).
  destruct (ret =? 0) eqn:E0; cbn [negb] in H.
  2:{ apply Z.eqb_neq in E0. apply (Fin cs1 (16 + ret)); [|exact H].
      destruct (recv_fault C _ _ _ _ _ _ _ _ _ _ _ _ _ Er (proj1 Hso) ltac:(lia) (proj2 Hso) E0) as (Hr & f & F1 & F2 & F3).
      apply (hap_share_message _ _ _ _ ret a b key); [exact Hr|exact Rv|]. exists pk, f, (t_n c + (a - 1) * 256 + k). split; [exact Hpk|]. split; [exact F1|]. split; [exact F2|].
      replace (f_ts f) with (ntohll (of_le tsb)); [exact F3|]. unfold off_ts in Hts. rewrite <- (rd_rd _ _ _ _ 71 8 F2) in Hts by lia.
      pose proof F1 as (G1 & _ & _ & _ & _ & G6 & _). assert (L1 : forall z, zlen [zb z] = 1) by reflexivity.
      assert (Ht8 : rd (encode f) 71 8 = Ok (be_bytes 8 (f_ts f))).
      { unfold encode, message, header. rewrite <- !app_assoc.
        rewrite (app_assoc (f_sig f)), (app_assoc (f_sig f ++ _)), (app_assoc ((f_sig f ++ _) ++ _)), (app_assoc (((f_sig f ++ _) ++ _) ++ _)).
        apply rd_mid; [|apply zlen_be]. rewrite !zlen_app, G1, zlen_be, !L1. reflexivity. }
      rewrite Ht8 in Hts. injection Hts as <-. rewrite ntohll_of_le by apply zlen_be. apply of_be_be. exact G6. }
  rewrite Hkey in H. cbn [bind] in H. change hs3_SIZE with 64 in H. change (share_SIZE + mac_SIZE) with 49 in H. change hmac_SIZE with 32 in H.
  apply bind_ok in H. destruct H as (mac & Hmac & H). apply bind_ok in H. destruct H as (ct & Hct & H).
  rewrite <- !(Z.add_assoc (_ + 64)) in Hmac. change (share_SIZE + mac_SIZE) with 49 in Hmac.
  destruct (bytes_eqb mac _) eqn:Em; cbn [negb] in H.
  2:{ apply (Fin cs1 3); [|exact H]. apply (hap_mac _ _ _ _ a b key); [exact Rv|]. exists ct, mac. split; [exact Hct|]. split; [exact Hmac|]. intros ->. rewrite bytes_eqb_refl in Em. discriminate. }
  apply bytes_eqb_eq in Em. subst mac.
  destruct (nz_aead_decrypt _ _ _) as [pt|] eqn:Ed.
  2:{ apply (Fin cs1 4); [|exact H]. apply (hap_decrypt _ _ _ _ a b key); [exact Rv|]. exists ct. auto. }
  assert (Opn : opens C c a b key (share_of pt)) by (exists ct, pt; auto).
  assert (Hrow : exists row, getz (t_com c) (a - 1) = Ok row) by (apply getz_some; rewrite (w_com c W); lia). destruct Hrow as (row & Hrow).
  assert (Opd : opened C e c input a b row (share_of pt)) by (exists key; auto).
  destruct (Z.eqb_spec (s_index (share_of pt)) b) as [Ei|Ei]; cbn [negb] in H.
  - rewrite Hrow in H. cbn [bind] in H. apply bind_ok in H. destruct H as (v & Ev & H). apply (Fin cs1 (128 + v)); [|exact H].
    rewrite Ei in Ev. assert (D : (v = 0 /\ fits C a b row (share_of pt)) \/ (v = 1 /\ ~ fits C a b row (share_of pt)) \/ (v = -1 /\ ~ usable (cR C) row)).
    { destruct (Z.eq_dec a b) as [Eab|Nab].
      - unfold dkg_verify_commitment in Ev. rewrite (proj2 (Z.eqb_eq a b) Eab) in Ev. injection Ev as <-. left. split; [reflexivity|left; exact Eab].
      - assert (Hr : row <> []).
        { intros ->. pose proof (w_rows c W) as WR. rewrite Forall_forall in WR. apply getz_In in Hrow. specialize (WR _ Hrow). change (zlen []) with 0 in WR. lia. }
        destruct (verify_classify (cR C) (ok_cR C Cok) b a row (share_of pt) ltac:(unfold index_ok; lia) Nab Hr) as (v' & V1 & V2 & V3 & V4).
        rewrite Ev in V1. injection V1 as <-. destruct V2 as [V|[V|V]].
        + left. split; [exact V|right; apply V3; exact V].
        + right. left. split; [exact V|]. intros [?|HM]; [contradiction|]. apply V3 in HM. lia.
        + right. right. split; [exact V|apply V4; exact V]. }
    destruct D as [(-> & D)|[(-> & D)|(-> & D)]]; [apply (hap_false _ _ _ _ a b row (share_of pt))|apply (hap_caught _ _ _ _ a b row (share_of pt))|apply (hap_parameters _ _ _ _ a b row (share_of pt))]; assumption.
  - assert (HP : P (mkCheater 18 5 a b (s_index (share_of pt)))) by (apply (hap_index _ _ _ _ a b row (share_of pt)); assumption).
    destruct (add_cheater _ _ _ _ _) as [c2|] eqn:Ea; [|injection H as <-; exact X]. apply add_cheater_inv in Ea. destruct Ea as (_ & ->).
    cbn [t_cheaters tp_cheaters_set] in H. rewrite zlen_app in H. change (zlen [mkCheater 18 5 (Mem.u8 a) (Mem.u8 b) 0]) with 1 in H.
    replace (zlen (t_cheaters c1) + 1 - 1) with (zlen (t_cheaters c1)) in H by lia. rewrite (getz_mid (t_cheaters c1) _ []) in H by reflexivity. cbn [bind] in H.
    rewrite (updz_mid (t_cheaters c1) _ []) in H by reflexivity. cbn [bind] in H. injection H as <-. cbn [ctl_state fst ch_step ch_error ch_peer ch_other].
    unfold Mem.u8. rewrite !Z.mod_small by lia. destruct X as [[n1 t1 d1 e1 s1 k1 (l1 & E1 & F1)] E2 E3 E4]. constructor; try assumption. constructor; try assumption.
    exists (l1 ++ [mkCheater 18 5 a b (s_index (share_of pt))]). cbn [t_cheaters tp_cheaters_set]. rewrite E1, app_assoc. split; [reflexivity|]. apply Forall_app. auto.
Qed.

(** the working copy when the messages of the first [i] peers have been processed *)
Definition unsettled (e : env) (c : tp) (input : bytes) (i : Z) (cs : list Z) : Prop :=
  forall y, y <> 65535 ->
    Nat.le (count_occ Z.eq_dec cs y) (count_occ Z.eq_dec (t_complaints c) y) /\
    (i < accused_of y -> count_occ Z.eq_dec cs y = count_occ Z.eq_dec (t_complaints c) y) /\
    (accused_of y <= i -> In y cs -> ~ reveal_accepted C e c input (accused_of y) \/ no_answer c input (accused_of y) (complainer_of y)).

Lemma true_step18_body e c input ctr i s r : let P := happened C e c input in crypto_ok C -> tp_wf c -> good_complaints (t_n c) (t_complaints c) ->
  0 <= i < t_n c -> getz ctr i = Ok (accusations (i + 1) (t_complaints c)) -> reveal_off (t_complaints c) (i + 1 + 1) <= zlen input ->
  (let '(c1, cs, p) := s in s18 P c c1 /\ later c i c1 /\ p = reveal_off (t_complaints c) (i + 1) /\ 0 <= p /\ unsettled e c input i cs) ->
  tp_step18_body C e input ctr i s = Ok r ->
  match r with
  | Next (c1, cs, p) => s18 P c c1 /\ later c (i + 1) c1 /\ p = reveal_off (t_complaints c) (i + 1 + 1) /\ 0 <= p /\ unsettled e c input (i + 1) cs
  | Return _ (c1, _, _) => s18 P c c1
  end.
Proof.
  intros P. destruct s as [[c1 cs] p]. intros Cok W G Hi Hctr Hz (X & L & Ep & Hp & Us) H. pose proof (w_n c W) as Hn. pose proof (w_sid c W) as Hsid.
  destruct G as (Hok & Hnd). pose proof (accusations_bound (t_n c) (i + 1) _ ltac:(lia) Hok Hnd) as Hacc. rewrite reveal_off_S in * by lia. rewrite <- Ep in *. unfold reveal_size in *.
  unfold tp_step18_body in H. rewrite Hctr in H. cbn [bind] in H. set (k := accusations (i + 1) (t_complaints c)) in *.
  destruct (Z.eqb_spec k 0) as [K0|K0].
  { injection H as <-. split; [exact X|]. split; [apply later_S; exact L|]. split; [lia|]. split; [exact Hp|]. intros y Hy. destruct (Us y Hy) as (U1 & U2 & U3).
    split; [exact U1|]. split; [intros; apply U2; lia|]. intros Ha Hin. destruct (Z.eq_dec (accused_of y) (i + 1)) as [Ea|]; [|apply U3; [lia|exact Hin]].
    exfalso. assert (Hc : In y (t_complaints c)) by (apply (count_occ_In Z.eq_dec); apply (count_occ_In Z.eq_dec) in Hin; lia).
    apply (accusations_In (t_n c)) in Hc. rewrite Ea in Hc. fold k in Hc. lia. }
  unfold noise_key_SIZE in H. change (1 + 32) with 33 in H. rewrite hdr_val in H.
  apply bind_ok in H. destruct H as (pk & Hpk & H). rewrite (tx_pks _ _ _ _ (s_tx _ _ _ X) eq_refl) in Hpk. apply bind_ok in H. destruct H as ((ret & c2) & E2 & H).
  pose proof E2 as E3. apply tp_recv_inv in E3. destruct E3 as (last0 & last' & l & R1 & R2 & R3 & Ec2).
  destruct (recv_one _ _ _ _ _ _ _ _ _ _ _ _ _ _ (s_tx _ _ _ X) L E2 Hp ltac:(lia) ltac:(lia)) as (_ & L2 & _ & _ & last & G1 & G2 & G3).
  assert (X2 : s18 P c c2) by (rewrite Ec2; apply s18_last; exact X).
  assert (Epre : i + 1 - 1 = i) by lia. assert (Esz : reveal_size (t_complaints c) (i + 1) = 111 + 33 * k) by (unfold reveal_size; fold k; destruct (Z.eqb_spec k 0); [contradiction|reflexivity]).
  destruct (ret =? 0) eqn:E0; cbn [negb] in H.
  - apply Z.eqb_eq in E0. specialize (G3 E0). subst ret.
    assert (RA : reveal_accepted C e c input (i + 1)).
    { exists pk, last. rewrite Epre, Esz, <- Ep. split; [exact Hpk|]. split; [exact G1|exact G3]. }
    assert (Hf : getz input (p + off_from) = Ok (zb (i + 1))).
    { destruct G3 as (m & ts & body & Hm & Hs & _). apply (signed_ts C _ _ _ _ _ _ _ _ _ _ _ Hm Hsid Hs). }
    apply bind_ok in H. destruct H as (r1 & HL & H).
    set (Inv := fun k' (s : tp * list Z) => s18 P c (fst s) /\ later c (i + 1) (fst s) /\ open_for c input (i + 1) k' (snd s) /\
      forall y, y <> 65535 -> accused_of y <> i + 1 -> count_occ Z.eq_dec (snd s) y = count_occ Z.eq_dec cs y).
    pose proof (loopM_seq_inv (tp_step18_key C e input p i) Inv (fun _ s => s18 P c (fst s)) 0 (Z.to_nat k) (c2, cs) r1) as LI.
    assert (Q : match r1 with Next s2 => Inv (0 + Z.of_nat (Z.to_nat k)) s2 | Return _ s2 => s18 P c (fst s2) end).
    { apply LI; [|intros k' [c3 cs3] r3 Hk' (A1 & A2 & A3 & A4) E|exact HL].
      - unfold Inv. cbn [fst snd]. split; [exact X2|]. split; [exact L2|]. split; [|reflexivity]. intros b Hb.
        destruct (pair_parts b (i + 1) ltac:(lia)) as (Q1 & Q2). destruct (Us (b * 256 + (i + 1)) ltac:(lia)) as (U1 & U2 & _). rewrite Q2 in U2. specialize (U2 ltac:(lia)).
        split; [|split].
        + intros Hin. split; [|intros; lia]. apply (count_occ_In Z.eq_dec) in Hin. rewrite U2 in Hin. apply (count_occ_In Z.eq_dec) in Hin. exact Hin.
        + intros Hc Hno. exfalso. apply Hno. apply (count_occ_In Z.eq_dec). rewrite U2. apply (count_occ_In Z.eq_dec). exact Hc.
        + rewrite U2. apply (NoDup_count_occ Z.eq_dec). exact Hnd.
      - cbn [fst snd] in *. pose proof E as E'. rewrite Ep in E. replace i with (i + 1 - 1) in E at 2 by lia.
        apply (true_key e c) in E; try assumption; try (split; assumption); try lia.
        2:{ rewrite <- Ep. exact Hf. }
        destruct E as (B1 & B2 & B3). destruct (key_reads C _ _ _ _ _ _ _ E') as (bt & Hb). pose proof (key_step C _ _ _ _ _ _ _ _ _ _ E' Hb Hf) as (_ & _ & KO & _ & _).
        rewrite (bz_zb_small (i + 1)) in KO by lia. pose proof (Bytes.bz_range bt) as Rb. destruct (pair_parts (bz bt) (i + 1) ltac:(lia)) as (_ & Q2).
        destruct r3 as [[c4 cs4]|code [c4 cs4]]; cbn [ctl_state fst snd] in *; [|exact B1].
        unfold Inv. cbn [fst snd]. split; [exact B1|]. split; [unfold later; rewrite B2; exact A2|]. split; [exact B3|].
        intros y Hy Hya. rewrite <- (A4 y Hy Hya). apply (KO y Hy). intros ->. apply Hya. exact Q2. }
    destruct r1 as [[c3 cs3]|code [c3 cs3]]; injection H as <-; [|exact Q]. destruct Q as (Q1 & Q2 & Q3 & Q4). cbn [fst snd] in *.
    split; [exact Q1|]. split; [exact Q2|]. split; [reflexivity|]. split; [lia|].
    intros y Hy. destruct (Us y Hy) as (U1 & U2 & U3). destruct (Z.eq_dec (accused_of y) (i + 1)) as [Ea|Na].
    + assert (Ey : y = complainer_of y * 256 + (i + 1)) by (rewrite <- Ea; unfold complainer_of, accused_of; pose proof (Z.div_mod y 256 ltac:(lia)); lia).
      assert (Hin' : In y cs3 -> (0 <= complainer_of y < 256) /\ complaint c (complainer_of y) (i + 1)).
      { intros Hin. assert (Hc : In y (t_complaints c)).
        { apply (count_occ_In Z.eq_dec). apply (count_occ_In Z.eq_dec) in Hin.
          assert (HM : Nat.le (count_occ Z.eq_dec cs3 y) (count_occ Z.eq_dec cs y)).
          { rewrite Ep in HL. clear -HL Hf Ep Hy. rewrite <- Ep in HL. destruct (keys_inv C e input p i _ _ Hf _ _ _ _ _ HL) as (_ & _ & K). apply (K y Hy). }
          lia. }
        split; [|unfold complaint; rewrite <- Ey; exact Hc]. rewrite Forall_forall in Hok. destruct (Hok _ Hc). lia. }
      split; [|split; [intros; lia|]].
      * assert (HM : Nat.le (count_occ Z.eq_dec cs3 y) (count_occ Z.eq_dec cs y)).
        { clear -HL Hf Hy. destruct (keys_inv C e input p i _ _ Hf _ _ _ _ _ HL) as (_ & _ & K). apply (K y Hy). }
        lia.
      * intros _ Hin. right. rewrite Ea. destruct (Hin' Hin) as (Hb & _). destruct (Q3 _ Hb) as (O1 & _). rewrite <- Ey in O1. destruct (O1 Hin) as (_ & O2).
        intros k' Hnm. apply (O2 k'); [|exact Hnm]. destruct Hnm as (? & _). fold k in H. lia.
    + rewrite (Q4 y Hy Na). split; [exact U1|]. split; [intros; apply U2; lia|]. intros Ha Hin. apply U3; [lia|]. apply (count_occ_In Z.eq_dec). rewrite <- (Q4 y Hy Na). apply (count_occ_In Z.eq_dec). exact Hin.
  - apply Z.eqb_neq in E0. destruct (G2 E0) as (Hr & Hf).
    assert (HP : P (mkCheater 18 (32 + ret) (i + 1) 254 0)).
    { apply hap_reveal_message; [exact Hr|lia|]. exists pk, last. rewrite Epre, Esz, <- Ep. auto. }
    destruct (add_cheater _ _ _ _ _) eqn:Ea in H; injection H as <-; [|exact X2].
    destruct (s18_add _ _ _ _ _ _ _ X2 Ea ltac:(lia) ltac:(lia) HP) as (X3 & L3).
    split; [exact X3|]. split; [unfold later; rewrite L3; exact L2|]. split; [reflexivity|]. split; [lia|].
    intros y Hy. destruct (Us y Hy) as (U1 & U2 & U3). split; [exact U1|]. split; [intros; apply U2; lia|]. intros Ha Hin.
    destruct (Z.eq_dec (accused_of y) (i + 1)) as [Ey|]; [|apply U3; [lia|exact Hin]]. left. rewrite Ey. intros (pk' & last1 & A1 & A2 & A3).
    rewrite Epre, Esz, <- Ep in *. rewrite Hpk in A1. injection A1 as <-. rewrite G1 in A2. injection A2 as <-.
    apply recv_of_accepted in A3; try exact Hsid; try (unfold is_byte; lia); try lia. destruct A3 as (ts & A3).
    assert (Rr : getz (t_last c1) i = Ok last) by (rewrite (L i) by lia; exact G1). rewrite Rr in R1. injection R1 as <-.
    rewrite (tx_sid _ _ _ _ (s_tx _ _ _ X)), (tx_eps _ _ _ _ (s_tx _ _ _ X)) in R2. rewrite A3 in R2. injection R2 as <- _. contradiction.
Qed.

Lemma true_step18 e c input out ret c' out' : crypto_ok C -> tp_wf c -> t_step c = 7 -> good_complaints (t_n c) (t_complaints c) ->
  tp_step18 C e c input out = Ok (ret, c', out') -> exists c1, tx true (happened C e c input) c c1 /\ t_cheaters c' = t_cheaters c1.
Proof.
  intros Cok W Hs G H. pose proof (w_n c W) as Hn. pose proof G as (Hok & Hnd). set (P := happened C e c input). unfold tp_step18 in H.
  rewrite (input_size7 c Hs Hn G) in H. cbn [bind] in H.
  destruct (Z.eqb_spec (zlen input) (reveal_off (t_complaints c) (t_n c + 1))) as [Ei|]; cbn [negb] in H; [|injection H as <- <- <-; exists c; split; [apply tx_refl|auto]].
  destruct (zlen out =? 0); cbn [negb] in H; [|injection H as <- <- <-; exists c; split; [apply tx_refl|auto]].
  destruct (count_val (2 ^ 32) (t_n c) (t_complaints c) ltac:(lia) ltac:(lia) Hok) as (ctr & F & _ & Gc). rewrite F in H. cbn [bind] in H.
  assert (G2 : forall i, 0 <= i < t_n c -> getz ctr i = Ok (accusations (i + 1) (t_complaints c))).
  { intros i Hi. replace i with (i + 1 - 1) at 1 by lia. rewrite Gc by lia. f_equal. apply Z.mod_small.
    pose proof (accusations_bound (t_n c) (i + 1) _ ltac:(lia) Hok Hnd). lia. }
  apply bind_ok in H. destruct H as (r & HL & H).
  pose proof (loopM_seq_inv (tp_step18_body C e input ctr)
    (fun i s => let '(c1, cs, p) := s in s18 P c c1 /\ later c i c1 /\ p = reveal_off (t_complaints c) (i + 1) /\ 0 <= p /\ unsettled e c input i cs)
    (fun _ s => let '(c1, _, _) := s in s18 P c c1) 0 (Z.to_nat (t_n c)) (c, t_complaints c, 0) r) as LI.
  assert (Q : match r with Next (c1, cs, p) => s18 P c c1 /\ later c (0 + Z.of_nat (Z.to_nat (t_n c))) c1 /\ p = reveal_off (t_complaints c) (0 + Z.of_nat (Z.to_nat (t_n c)) + 1) /\ 0 <= p /\ unsettled e c input (0 + Z.of_nat (Z.to_nat (t_n c))) cs
               | Return _ (c1, _, _) => s18 P c c1 end).
  { apply LI; [|intros i s1 r1 Hi A E|exact HL].
    - split; [apply s18_refl|]. split; [intros j _; reflexivity|]. split; [reflexivity|]. split; [lia|]. intros y Hy. split; [lia|]. split; [reflexivity|].
      intros Ha Hin. exfalso. rewrite Forall_forall in Hok. destruct (Hok _ Hin). lia.
    - assert (Hm : reveal_off (t_complaints c) (i + 1 + 1) <= zlen input) by (rewrite Ei; apply reveal_off_mono; lia).
      assert (Hi' : 0 <= i < t_n c) by lia. pose proof (true_step18_body e c input ctr i s1 r1 Cok W G Hi' (G2 i Hi') Hm A E) as B.
      destruct r1 as [[[c3 cs3] p3]|code [[c3 cs3] p3]]; exact B. }
  clear LI. destruct r as [[[c1 cs] p]|code [[c1 cs] p]]; [|injection H as <- <- <-; exists c1; split; [apply Q|reflexivity]].
  destruct Q as ([X _ _ _] & _ & _ & _ & Us). replace (0 + Z.of_nat (Z.to_nat (t_n c))) with (t_n c) in Us by lia.
  apply bind_ok in H. destruct H as (r & HU & H).
  pose proof (loopM_inv tp_step18_unanswered (fun c2 => tx true P c c2) (fun _ c2 => tx true P c c2) cs c1 r) as LI.
  assert (Q : match r with Next c2 => tx true P c c2 | Return _ c2 => tx true P c c2 end).
  { apply LI; [exact X|intros x c2 r2 Hx A E|exact HU]. unfold tp_step18_unanswered in E. destruct (Z.eqb_spec x 65535) as [Ex|Ex]; [injection E as <-; exact A|].
    destruct (Us x Ex) as (U1 & _ & U3). assert (Hc : In x (t_complaints c)) by (apply (count_occ_In Z.eq_dec); apply (count_occ_In Z.eq_dec) in Hx; lia).
    rewrite Forall_forall in Hok. destruct (Hok _ Hc) as (K1 & K2). specialize (U3 ltac:(lia) Hx).
    assert (Eu : Mem.u8 x = accused_of x) by reflexivity. rewrite Eu in E. assert (Ed : x / 256 = complainer_of x) by reflexivity. rewrite Ed in E.
    assert (HP : P (mkCheater 18 7 (complainer_of x) (accused_of x) 0)).
    { apply hap_unanswered; [|exact U3]. unfold complaint. replace (complainer_of x * 256 + accused_of x) with x; [exact Hc|]. unfold complainer_of, accused_of. pose proof (Z.div_mod x 256 ltac:(lia)). lia. }
    destruct (add_cheater _ _ _ _ _) eqn:Ea in E; injection E as <-; [|exact A].
    exact (proj1 (tx_add _ _ _ _ _ _ _ _ _ A Ea ltac:(lia) ltac:(lia) HP)). }
  destruct r as [c2|code c2]; injection H as <- <- <-; exists c2; auto.
Qed.

(** ** One call *)
Theorem entries_happened e c input out ret c' out' : crypto_ok C -> tp_wf c -> good_complaints (t_n c) (t_complaints c) ->
  tp_next C e c input out = Ok (ret, c', out') -> exists new, recorded c c' new /\ Forall (happened C e c input) new.
Proof.
  intros Cok W G H.
  assert (K : forall b, (exists c1, tx b (happened C e c input) c c1 /\ t_cheaters c' = t_cheaters c1) -> exists new, recorded c c' new /\ Forall (happened C e c input) new).
  { intros b (c1 & X & E). destruct (tx_new _ _ _ _ X) as (new & E1 & Fn). exists new. unfold recorded. rewrite E. auto. }
  assert (D : (t_step c < 0 \/ 9 < t_step c) \/ t_step c = 0 \/ t_step c = 1 \/ (t_step c = 2 \/ t_step c = 3) \/ t_step c = 4 \/ t_step c = 5 \/ t_step c = 6 \/ t_step c = 7 \/ t_step c = 8 \/ t_step c = 9) by lia.
  destruct D as [D|[D|[D|[D|[D|[D|[D|[D|[D|D]]]]]]]]].
  - rewrite tp_next_other in H by exact D. injection H as <- <- <-. apply (K true). exists c. split; [apply tx_refl|auto].
  - rewrite tp_next_0 in H by exact D. apply finish_inv in H. destruct H as (c1 & H & ->). apply (K true). exists c. split; [apply tx_refl|].
    unfold tp_step1 in H. inv H; reflexivity.
  - rewrite tp_next_1 in H by exact D. apply finish_inv in H. destruct H as (c1 & H & ->). apply (K false). exists c1. split; [eapply true_step4; eassumption|auto].
  - assert (HH : tp_next C e c input out = tp_finish_step (tp_step68 C e c input out)) by (destruct D; [apply tp_next_2|apply tp_next_3]; assumption).
    rewrite HH in H. apply finish_inv in H. destruct H as (c1 & H & ->). apply (K true). exists c1. split; [eapply true_step68; eassumption|auto].
  - rewrite tp_next_4 in H by exact D. apply finish_inv in H. destruct H as (c1 & H & ->). apply (K true). exists c1. split; [eapply true_step12; eassumption|auto].
  - rewrite tp_next_5 in H by exact D. apply finish_inv in H. destruct H as (c1 & H & ->). apply (K true). exists c1. split; [eapply true_step14; eassumption|auto].
  - rewrite tp_next_6 in H by exact D. apply bind_ok in H. destruct H as (((r & c1) & o1) & H & E). injection E as <- <- <-.
    apply (K true). exists c1. split; [eapply true_step16; eassumption|auto].
  - rewrite tp_next_7 in H by exact D. apply finish_inv in H. destruct H as (c1 & H & ->). apply (K true).
    destruct (true_step18 _ _ _ _ _ _ _ Cok W D G H) as (c2 & X & E). exists c2. split; [exact X|exact E].
  - rewrite tp_next_8 in H by exact D. apply finish_inv in H. destruct H as (c1 & H & ->). apply (K true).
    destruct (true_step20 _ _ _ _ _ _ _ W H) as (c2 & X & E). exists c2. split; [exact X|exact E].
  - rewrite tp_next_9 in H by exact D. apply finish_inv in H. destruct H as (c1 & H & ->). apply (K true). exists c1. split; [eapply true_step22; eassumption|auto].
Qed.

(** the report of an entry that is not misreported is true *)
Lemma report_true e c input ch : 2 <= t_n c <= 128 -> happened C e c input ch -> ~ misreported ch -> true_report C e c input (fst (cheater_msg ch)).
Proof.
  intros Hn H. unfold misreported. destruct H; cbn [ch_step ch_error In]; intros Hm; unfold refused in *.
  - assert (D : r = 1 \/ r = 7 \/ r = 2 \/ r = 3 \/ r = 4 \/ r = 5 \/ r = 6) by lia. cbn [In] in *.
    assert (Ds : step <> 18 /\ step <> 20) by lia.
    destruct D as [->|[->|D]]; [exfalso; apply Hm; lia|exfalso; apply Hm; lia|].
    assert (E : cheater_msg (mkCheater step (64 + r) p o 0) = (MessageInvalid step p o (recv_err r), p)).
    { repeat (destruct D as [D|D]; [rewrite D; reflexivity|]). rewrite D. reflexivity. }
    rewrite E. cbn [fst true_report]. assumption.
  - cbn. exists l. auto.
  - cbn. auto.
  - cbn. exists k, k'. auto.
  - assert (E : cheater_msg (mkCheater 18 (16 + r) a b 0) = (ShareMsgInvalid a b (recv_err r), a)).
    { assert (D : r = 1 \/ r = 7 \/ r = 2 \/ r = 3 \/ r = 4 \/ r = 5 \/ r = 6) by lia. repeat (destruct D as [D|D]; [rewrite D; reflexivity|]). rewrite D. reflexivity. }
    rewrite E. cbn [fst true_report]. eauto.
  - assert (E : cheater_msg (mkCheater 18 (32 + r) a 254 0) = (KeyMsgInvalid a 254 (recv_err r), a)).
    { assert (D : r = 1 \/ r = 7 \/ r = 2 \/ r = 3 \/ r = 4 \/ r = 5 \/ r = 6) by lia. repeat (destruct D as [D|D]; [rewrite D; reflexivity|]). rewrite D. reflexivity. }
    rewrite E. cbn [fst true_report]. auto.
  - exfalso; apply Hm; lia.
  - exfalso; apply Hm; lia.
  - exfalso; apply Hm; lia.
  - cbn. eauto 6.
  - exfalso; apply Hm; lia.
  - exfalso; apply Hm; lia.
  - cbn. eauto 6.
  - cbn. eauto 6.
  - cbn. assumption.
  - exfalso. apply Hm. right. right. split; [reflexivity|lia].
Qed.

Theorem reports_true e c input out ret c' out' : crypto_ok C -> tp_wf c -> good_complaints (t_n c) (t_complaints c) ->
  tp_next C e c input out = Ok (ret, c', out') ->
  exists new, recorded c c' new /\ forall ch, In ch new -> ~ misreported ch -> true_report C e c input (fst (cheater_msg ch)).
Proof.
  intros Cok W G H. destruct (entries_happened _ _ _ _ _ _ _ Cok W G H) as (new & E & Fn). exists new. split; [exact E|].
  intros ch Hin Hm. rewrite Forall_forall in Fn. exact (report_true _ _ _ _ (w_n c W) (Fn _ Hin) Hm).
Qed.

(** ** A whole history *)
Theorem history_happened calls : forall c outs, crypto_ok C -> tp_wf c -> good_complaints (t_n c) (t_complaints c) -> tp_run C c calls = Ok outs ->
  exists new, recorded c (final c outs) new /\ forall ch, In ch new ->
    exists before e input out after outs1, calls = before ++ (e, input, out) :: after /\ tp_run C c before = Ok outs1 /\
      t_n (final c outs1) = t_n c /\ tp_wf (final c outs1) /\ happened C e (final c outs1) input ch.
Proof.
  induction calls as [|[[e input] out] calls IH]; intros c outs Cok W G H; cbn [tp_run] in H.
  - injection H as <-. exists []. unfold recorded. rewrite app_nil_r. split; [reflexivity|intros ch []].
  - apply bind_ok in H. destruct H as (((ret & c') & out') & E & H). apply bind_ok in H. destruct H as (outs' & E2 & H). injection H as <-.
    destruct (call_records C _ _ _ _ _ _ _ W G E) as (A1 & A2 & _). pose proof (tp_wf_step C _ _ _ _ _ _ _ W E) as W'.
    rewrite <- A1 in A2. destruct (IH _ _ Cok W' A2 E2) as (new2 & B1 & B2). rewrite final_cons. cbn [fst snd].
    destruct (entries_happened _ _ _ _ _ _ _ Cok W G E) as (new & D1 & D2).
    exists (new ++ new2). unfold recorded in *. rewrite B1, D1, app_assoc. split; [reflexivity|]. intros ch Hin. apply in_app_or in Hin. destruct Hin as [Hin|Hin].
    + exists [], e, input, out, calls, []. split; [reflexivity|]. split; [reflexivity|]. split; [reflexivity|]. split; [exact W|]. rewrite Forall_forall in D2. exact (D2 _ Hin).
    + destruct (B2 _ Hin) as (before & e1 & i1 & o1 & after & outs1 & F1 & F2 & F3 & F4 & F5).
      exists ((e, input, out) :: before), e1, i1, o1, after, ((ret, c', out') :: outs1). split; [rewrite F1; reflexivity|]. split.
      { cbn [tp_run]. rewrite E. cbn [bind]. rewrite F2. reflexivity. }
      rewrite final_cons. cbn [fst snd]. split; [congruence|]. auto.
Qed.

(** ** Reports that are never true *)
Lemma answers_fun c input a b k1 k2 : answers c input a b k1 -> answers c input a b k2 -> k1 = k2.
Proof.
  intros (i & A1 & A2 & A3) (j & B1 & B2 & B3). assert (Hij : i = j).
  { destruct (Z.lt_trichotomy i j) as [H|[H|H]]; [exfalso; apply (B2 i); [destruct A1; lia|exact A1]|exact H|exfalso; apply (A2 j); [destruct B1; lia|exact B1]]. }
  subst j. rewrite A3 in B3. injection B3 as ->. reflexivity.
Qed.
Lemma report_false e c input ch : happened C e c input ch -> misreported ch -> ~ (ch_step ch = 18 /\ (ch_error ch = 5 \/ ch_error ch = 7)) ->
  ~ true_report C e c input (fst (cheater_msg ch)).
Proof.
  intros H. unfold misreported. destruct H; cbn [ch_step ch_error In]; intros Hm Hx; unfold refused in *; try (exfalso; lia).
  - cbn [In] in *. assert (Dr : r = 1 \/ r = 7) by lia.
    repeat match goal with Hd : _ \/ _ |- _ => destruct Hd end; try contradiction; subst; try lia; cbn; auto.
  - cbn. intros (_ & _ & Hc). apply Hc. match goal with Hr : revealed _ _ _ _ _ _ _ |- _ => apply Hr end.
  - cbn. intros (key' & R1 & ct & mac & M1 & M2 & M3). match goal with Hr : revealed _ _ _ _ _ _ key |- _ => destruct Hr as (_ & _ & _ & An) end.
    destruct R1 as (_ & _ & _ & An'). rewrite (answers_fun _ _ _ _ _ _ An' An) in *.
    match goal with Hu : undecryptable _ _ _ _ _ |- _ => destruct Hu as (ct' & U1 & U2 & _) end. rewrite U1 in M1. injection M1 as ->. rewrite U2 in M2. injection M2 as <-. contradiction.
  - cbn. intros (_ & pk & f & clk & _ & _ & _ & Hf). exact Hf.
  - assert (D : r = 1 \/ r = 7 \/ r = 2 \/ r = 3 \/ r = 4 \/ r = 5 \/ r = 6) by lia. repeat (destruct D as [D|D]; [subst r; cbn; auto|]). subst r. cbn. auto.
Qed.

(** ** C79 *)
Theorem C79_history calls c outs : crypto_ok C -> tp_wf c -> t_complaints c = [] -> t_cheaters c = [] -> tp_run C c calls = Ok outs ->
  forall ch, In ch (t_cheaters (final c outs)) ->
  exists before e input out after outs1, calls = before ++ (e, input, out) :: after /\ tp_run C c before = Ok outs1 /\
    let now := final c outs1 in
    happened C e now input ch /\
    (~ misreported ch -> true_report C e now input (fst (cheater_msg ch))) /\
    (misreported ch -> ~ (ch_step ch = 18 /\ (ch_error ch = 5 \/ ch_error ch = 7)) -> ~ true_report C e now input (fst (cheater_msg ch))).
Proof.
  intros Cok W Hc Hch H ch Hin. assert (G : good_complaints (t_n c) (t_complaints c)) by (rewrite Hc; split; constructor).
  destruct (history_happened calls c outs Cok W G H) as (new & R & F). unfold recorded in R. rewrite Hch in R. cbn [app] in R. rewrite R in Hin.
  destruct (F _ Hin) as (before & e & input & out & after & outs1 & F1 & F2 & F3 & F4 & F5).
  exists before, e, input, out, after, outs1. split; [exact F1|]. split; [exact F2|]. cbn zeta. split; [exact F5|].
  split; [apply report_true; [exact (w_n _ F4)|exact F5]|apply report_false; exact F5].
Qed.

End TRUTH.
