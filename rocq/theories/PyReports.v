(** C89: what pyoprf.tpdkg_get_cheaters returns. *)
From Coq Require Import String DecimalString.
From Coq Require Import ZArith Lia List Bool.
From Coq.Strings Require Import Byte.
From Verif Require Import Bytes Res Mem Sodium ToprfModel DkgModel WireModel WireSpec TpCrypto TpModel CheaterModel TpSpec BlameSpec ReportSpec.
From Verif Require Import TpComplaints TpReports TpTruth PyModel PySpec PySession PyReportModel.
Import ListNotations.
Open Scope list_scope.
Open Scope Z_scope.

(** ** the texts are short and contain neither 0 nor anything beyond ASCII *)
Definition plain (b : bytes) : bool := forallb (fun x => (0 <? bz x) && (bz x <? 128)) b.
Definition fine (k : nat) (s : string) : Prop := (length (list_byte_of_string s) <= k)%nat /\ plain (list_byte_of_string s) = true.

Lemma lbs_app s t : list_byte_of_string (s ++ t) = list_byte_of_string s ++ list_byte_of_string t.
Proof.
  unfold list_byte_of_string. rewrite <- map_app. f_equal. induction s as [|x s IH]; [reflexivity|]. cbn. f_equal. exact IH.
Qed.
Lemma fine_app a b s t : fine a s -> fine b t -> fine (a + b) (s ++ t).
Proof.
  intros (A1 & A2) (B1 & B2). unfold fine, plain. rewrite lbs_app, app_length, forallb_app. split; [lia|]. apply andb_true_iff. auto.
Qed.
Lemma fine_le a b s : fine a s -> (a <= b)%nat -> fine b s.
Proof. intros (A1 & A2) H. split; [lia|exact A2]. Qed.

Definition fine_b (k : nat) (s : string) : bool := Nat.leb (length (list_byte_of_string s)) k && plain (list_byte_of_string s).
Lemma fine_of_b k s : fine_b k s = true -> fine k s.
Proof. intros H. apply andb_true_iff in H. destruct H as (H1 & H2). apply Nat.leb_le in H1. split; assumption. Qed.

Lemma d_all : forallb (fun k => fine_b 3 (d (Z.of_nat k))) (seq 0 256) = true.
Proof. vm_compute. reflexivity. Qed.
Lemma d_fine x : 0 <= x < 256 -> fine 3 (d x).
Proof.
  intros H. apply fine_of_b. pose proof d_all as A. rewrite forallb_forall in A. specialize (A (Z.to_nat x)). rewrite Z2Nat.id in A by lia. apply A. apply in_seq. lia.
Qed.
Lemma d8_fine x : fine 3 (d8 x).
Proof. apply d_fine. apply Z.mod_pos_bound. lia. Qed.
Lemma recv_fine t : fine 27 (recv_string t).
Proof. apply fine_of_b. destruct t; vm_compute; reflexivity. Qed.

Lemma const_fine s : plain (list_byte_of_string s) = true -> fine (length (list_byte_of_string s)) s.
Proof. intros H. split; [lia|exact H]. Qed.
Ltac piece := first [apply d8_fine | apply recv_fine | apply d_fine; assumption | apply const_fine; vm_compute; reflexivity].

(** the report of an entry whose numbers are bytes *)
Definition small_entry (ch : cheater) : Prop := 0 <= ch_step ch < 256 /\ 0 <= ch_error ch < 256 /\ 0 <= ch_invalid ch < 256.
Definition small_report (r : report) : Prop :=
  match r with
  | MessageInvalid s _ _ _ | BadStep s => 0 <= s < 256
  | BadCode16 e | BadCode18 e | BadCode20 e => 0 <= e < 256
  | BadShareIndex _ _ i => 0 <= i < 256
  | _ => True
  end.
Lemma report_small ch : small_entry ch -> small_report (fst (cheater_msg ch)).
Proof.
  intros (S1 & S2 & S3). unfold cheater_msg.
  destruct ((65 <? ch_error ch) && (ch_error ch <=? 70)); [exact S1|].
  destruct (ch_step ch =? 16). { destruct (ch_error ch =? 6); [exact I|]. destruct (ch_error ch =? 7); [exact I|]. destruct (ch_error ch =? 8); [exact I|exact S2]. }
  destruct (ch_step ch =? 18).
  - destruct (negb (Z.land (ch_error ch) 16 =? 0)); [exact I|]. destruct (negb (Z.land (ch_error ch) 32 =? 0)); [exact I|].
    assert (G : forall e, e = ch_error ch -> small_report (fst match e with
      | 3 => (NotComplainedAbout (ch_peer ch) (ch_other ch), ch_peer ch) | 4 => (HmacFailed (ch_peer ch) (ch_other ch), ch_peer ch)
      | 5 => (BadShareIndex (ch_peer ch) (ch_other ch) (ch_invalid ch), ch_peer ch) | 6 => (KeyForHappyPeer (ch_peer ch) (ch_other ch), ch_peer ch)
      | 7 => (Unverified (ch_peer ch) (ch_other ch), ch_peer ch) | 127 => (InvalidParameters (ch_peer ch) (ch_other ch), ch_peer ch)
      | 128 => (FalselyAccused (ch_peer ch) (ch_other ch), ch_other ch) | 129 => (CaughtCheating (ch_peer ch) (ch_other ch), ch_peer ch)
      | _ => (BadCode18 e, 0) end)).
    { intros e He. rewrite <- He in S2. destruct e as [|p|p]; try (cbn; lia).
      repeat (first [exact I | exact S2 | exact S3 | destruct p as [p|p|]]). }
    apply G. reflexivity.
  - destruct (ch_step ch =? 20); [|exact S1]. destruct (ch_error ch =? 1); [exact I|exact S2].
Qed.

Lemma report_fine r : small_report r -> fine 120 (report_string r).
Proof.
  intros H. destruct r; cbn [small_report] in H; unfold report_string;
    (eapply fine_le; [repeat (first [apply fine_app; [piece|] | piece])|apply Nat.leb_le; vm_compute; reflexivity]).
Qed.

(** ** what Python makes of a text *)
Lemma before_nul_text text rest : plain text = true -> before_nul (text ++ x00 :: rest) = text.
Proof.
  intros H. unfold before_nul. generalize (removelast (text ++ x00 :: rest)). intros r. induction text as [|x text IH]; [reflexivity|].
  cbn [app]. unfold plain in H. cbn [forallb] in H. apply andb_true_iff in H. destruct H as (Hx & H).
  destruct (Byte.eqb x x00) eqn:E; [|f_equal; apply IH; exact H]. exfalso. apply andb_true_iff in Hx. destruct Hx as (Hx & _). destruct x; discriminate.
Qed.
Lemma snprintf_fits text k : (length text < k)%nat -> exists rest, snprintf text (zeros k) = text ++ x00 :: rest.
Proof.
  intros H. unfold snprintf. assert (E : length (zeros k) = k) by (unfold zeros; apply repeat_length). rewrite E. rewrite firstn_all2 by lia.
  exists (skipn (length (text ++ [x00])) (zeros k)). rewrite <- app_assoc. reflexivity.
Qed.
Lemma python_text ch : small_entry ch -> decode (before_nul (snprintf (report_text (fst (cheater_msg ch))) (zeros max_err_SIZE))) = Ret (report_text (fst (cheater_msg ch))).
Proof.
  intros H. destruct (report_fine _ (report_small _ H)) as (F1 & F2). unfold report_text. set (text := list_byte_of_string _) in *. clearbody text.
  destruct (snprintf_fits text max_err_SIZE ltac:(unfold max_err_SIZE; lia)) as (rest & ->). rewrite before_nul_text by exact F2. unfold decode.
  assert (E : forallb (fun x => bz x <? 128) text = true). { apply forallb_forall. intros x Hx. unfold plain in F2. rewrite forallb_forall in F2. apply F2 in Hx. apply andb_true_iff in Hx. apply Hx. }
  rewrite E. reflexivity.
Qed.

Lemma cheats_eq n l : 0 <= n -> Forall small_entry l -> exists named, py_cheats n l = Ret (named, map (fun ch => (blames ch, report_text (fst (cheater_msg ch)))) l) /\
  NoDup named /\ forall p, In p named <-> exists ch, In ch l /\ blames ch = p.
Proof.
  intros Hn. induction l as [|ch l IH]; intros F.
  - exists []. split; [reflexivity|]. split; [constructor|]. intros p. split; [intros []|intros (ch & [] & _)].
  - inversion F as [|? ? F1 F2]. subst. destruct (IH F2) as (named & E & N & I). cbn [py_cheats].
    assert (G : (snd (cheater_msg ch) <=? 0) && (n <? snd (cheater_msg ch)) = false). { apply andb_false_iff. rewrite Z.leb_gt, Z.ltb_ge. lia. }
    rewrite G, python_text by exact F1. cbn [pbind]. rewrite E. cbn [pbind map]. fold (blames ch).
    eexists. split; [reflexivity|]. destruct (existsb (Z.eqb (blames ch)) named) eqn:X.
    + split; [exact N|]. intros p. split.
      * intros Hp. apply I in Hp. destruct Hp as (c & A & B). exists c. split; [right; exact A|exact B].
      * intros (c & [ <- |A] & B); [|apply I; exists c; auto]. apply existsb_exists in X. destruct X as (q & Q1 & Q2). apply Z.eqb_eq in Q2. congruence.
    + split.
      * constructor; [|exact N]. intros Hin. assert (existsb (Z.eqb (blames ch)) named = true) by (apply existsb_exists; exists (blames ch); split; [exact Hin|apply Z.eqb_refl]). congruence.
      * intros p. split.
        -- intros [ <- |Hp]; [exists ch; split; [left; reflexivity|reflexivity]|]. apply I in Hp. destruct Hp as (c & A & B). exists c. split; [right; exact A|exact B].
        -- intros (c & [ <- |A] & B); [left; exact B|]. right. apply I. exists c. auto.
Qed.

(** ** the entries of a history *)
Section HISTORY.
Variable C : crypto.

Lemma happened_invalid e c input ch : happened C e c input ch -> 0 <= ch_invalid ch < 256.
Proof.
  intros H. destruct H; cbn [ch_invalid]; try lia. destruct H as (key & _ & (ct & pt & _ & _ & _ & ->) & _).
  destruct pt as [|x pt]; cbn; [lia|]. apply bz_range.
Qed.
Lemma recordable_small n ch : recordable n ch -> 0 <= ch_step ch < 256 /\ 0 <= ch_error ch < 256.
Proof.
  intros H. destruct H; cbn [ch_step ch_error]; unfold refused in *; cbn [In] in *;
    repeat match goal with H : _ \/ _ |- _ => destruct H | H : False |- _ => destruct H end; subst; lia.
Qed.

Lemma entries_of calls c outs : crypto_ok C -> tp_wf c -> t_complaints c = [] -> t_cheaters c = [] -> tp_run C c calls = Ok outs ->
  forall ch, In ch (t_cheaters (final c outs)) -> small_entry ch /\ (blames ch = 0 <-> unnamed ch) /\ (blames ch = 0 \/ 1 <= blames ch <= t_n c).
Proof.
  intros HC W Hc Hch R ch Hin. pose proof (w_n c W) as Wn.
  destruct (reports_history C calls c outs W Hc Hch R ch Hin) as (Rc & B1 & B2 & B3).
  destruct (C79_history C calls c outs HC W Hc Hch R ch Hin) as (before & e & input & out & after & outs1 & E1 & E2 & E3). cbn zeta in E3. destruct E3 as (Hp & _).
  assert (G : good_complaints (t_n c) (t_complaints c)) by (rewrite Hc; split; constructor).
  destruct (run_records C before c outs1 W G E2) as (Nn & (G1 & _) & _).
  split. { destruct (recordable_small _ _ Rc). split; [assumption|]. split; [assumption|]. exact (happened_invalid _ _ _ _ Hp). }
  assert (Ot : ch_step ch = 18 /\ ch_error ch = 128 -> 1 <= ch_other ch <= t_n c).
  { intros (S1 & S2). destruct Hp; cbn [ch_step ch_error ch_other] in *; unfold refused in *; try lia; try (exfalso; cbn [In] in *; lia).
    destruct H as (key & (Ra & Cp & _) & _). unfold complaint in Cp. rewrite Forall_forall in G1. apply G1 in Cp. destruct Cp as (Cp & _). unfold complainer_of in Cp.
    rewrite Nn in Ra. rewrite Z.div_add_l, Z.div_small in Cp by lia. lia. }
  assert (Pe : ~ unnamed ch -> 1 <= ch_peer ch <= t_n c). { intros U. destruct Rc; cbn [ch_peer]; try assumption. exfalso. apply U. right. left. split; reflexivity. }
  assert (D : unnamed ch \/ ~ unnamed ch).
  { unfold unnamed. destruct (Z.eq_dec (ch_step ch) 18), (Z.eq_dec (ch_step ch) 20), (Z.eq_dec (ch_step ch) 16), (Z.eq_dec (ch_error ch) 65), (Z.eq_dec (ch_error ch) 71), (Z.eq_dec (ch_error ch) 6), (Z.eq_dec (ch_error ch) 1); lia. }
  destruct D as [U|U].
  - split; [split; auto|]. left. auto.
  - destruct (Z.eq_dec (ch_step ch) 18) as [S1|S1]; [destruct (Z.eq_dec (ch_error ch) 128) as [S2|S2]|].
    + rewrite (B2 (conj S1 S2)). specialize (Ot (conj S1 S2)). split; [split; [lia|tauto]|]. right. lia.
    + rewrite (B3 U) by tauto. specialize (Pe U). split; [split; [lia|tauto]|]. right. lia.
    + rewrite (B3 U) by tauto. specialize (Pe U). split; [split; [lia|tauto]|]. right. lia.
Qed.

Theorem python_cheaters al addr n t eps name lts sid sk now now' c0 msg0 calls outs c : crypto_ok C ->
  py_start_tp C al addr n t eps name lts sid sk now now' = Ret (c0, msg0) ->
  0 <= n < 256 -> 1 <= t < 256 -> zlen sid = 32 -> 32 * n <= zlen (concat lts) ->
  py_tp_run C c0 calls = Ret (outs, c) ->
  exists named cheats, py_get_cheaters c = Ret (named, cheats) /\
    cheats = map (fun ch => (blames ch, report_text (fst (cheater_msg ch)))) (t_cheaters c) /\
    NoDup named /\ (forall p, In p named <-> exists ch, In ch (t_cheaters c) /\ blames ch = p) /\
    (forall p, In p named -> p <> 0 -> 1 <= p <= n) /\
    (In 0 named <-> exists ch, In ch (t_cheaters c) /\ unnamed ch).
Proof.
  intros HC Es Hn Ht Hs Hl R. pose proof (py_start_tp_wf C _ _ _ _ _ _ _ _ _ _ _ _ _ Es Hn Ht Hs Hl) as (Hw & En & _).
  pose proof (py_start_tp_params C _ _ _ _ _ _ _ _ _ _ _ _ _ Es) as (_ & _ & _ & _ & _ & Hc & Hch & _).
  apply py_tp_run_bridge in R. destruct R as (calls0 & outs0 & R & F). subst c.
  assert (G : good_complaints (t_n c0) (t_complaints c0)) by (rewrite Hc; split; constructor).
  destruct (run_records C calls0 c0 outs0 Hw G R) as (Nn & _).
  pose proof (entries_of calls0 c0 outs0 HC Hw Hc Hch R) as Al.
  destruct (cheats_eq (t_n (final c0 outs0)) (t_cheaters (final c0 outs0))) as (named & E & N & I).
  { rewrite Nn, En. lia. } { apply Forall_forall. intros ch H. apply (Al ch H). }
  exists named. eexists. split; [exact E|]. split; [reflexivity|]. split; [exact N|]. split; [exact I|]. split.
  - intros p Hp P0. apply I in Hp. destruct Hp as (ch & H1 & H2). destruct (Al ch H1) as (_ & _ & [B|B]); rewrite <- En; lia.
  - rewrite I. split; intros (ch & H1 & H2); exists ch; (split; [exact H1|]); apply (Al ch H1); exact H2.
Qed.
End HISTORY.
