(** C85, the side of the trusted party: a call that is given good messages of peer [k] records nothing
    against it, whatever the messages of the others. *)
From Coq Require Import ZArith Lia List Bool.
From Coq.Strings Require Import Byte.
From Verif Require Import Bytes Res Mem Sodium WireModel WireSpec WireProofs TpCrypto TpModel PeerModel CheaterModel.
From Verif Require Import TpFrame TpSpec TpMsg TpContent TpComplaints TpControl TpAgree BlameSpec PeerContent.
Import ListNotations.
Open Scope list_scope.
Open Scope Z_scope.

(** a loop over all peers, split at peer [k] *)
Lemma loop_split {X} (R : X -> X -> Prop) (f : Z -> X -> res (ctl X)) k : (forall s, R s s) -> (forall a b c, R a b -> R b c -> R a c) ->
  (forall i s code s', f i s = Ok (Return code s') -> code <> 0) ->
  forall l s r, NoDup l -> In k l -> (forall i s1 r1, In i l -> i <> k -> f i s1 = Ok r1 -> R s1 (ctl_state r1)) -> loopM f l s = Ok r ->
  (exists code s', code <> 0 /\ r = Return code s' /\ R s s') \/
  exists s1 r1, R s s1 /\ f k s1 = Ok r1 /\ match r1 with Next s2 => R s2 (ctl_state r) /\ (forall code s', r = Return code s' -> code <> 0) | Return code s2 => code <> 0 /\ r = r1 end.
Proof.
  intros Rr Rt Hc. assert (Rest : forall l s r, ~ In k l -> (forall i s1 r1, In i l -> i <> k -> f i s1 = Ok r1 -> R s1 (ctl_state r1)) -> loopM f l s = Ok r ->
     R s (ctl_state r) /\ (forall code s', r = Return code s' -> code <> 0)).
  { induction l as [|i l IH]; intros s r Nk Hf H; cbn [loopM] in H; [injection H as <-; split; [apply Rr|discriminate]|].
    apply bind_ok in H. destruct H as (r1 & E & H). pose proof (Hf i s r1 (or_introl eq_refl) ltac:(intros ->; apply Nk; left; reflexivity) E) as R1.
    destruct r1 as [s1|code s1].
    - destruct (IH s1 r ltac:(intros I; apply Nk; right; exact I) ltac:(intros j a b I; apply Hf; right; exact I) H) as (Q1 & Q2). split; [eapply Rt; eassumption|exact Q2].
    - injection H as <-. split; [exact R1|]. intros ? ? Q. injection Q as <- <-. eapply Hc; exact E. }
  induction l as [|i l IH]; intros s r Nd Ik Hf H; [contradiction|]. inversion Nd as [|? ? Ni Nl]; subst. cbn [loopM] in H.
  apply bind_ok in H. destruct H as (r1 & E & H). destruct (Z.eq_dec i k) as [->|Ne].
  - right. exists s, r1. split; [apply Rr|]. split; [exact E|]. destruct r1 as [s1|code s1]; [|injection H as <-; split; [eapply Hc; exact E|reflexivity]].
    apply (Rest l); [exact Ni| |exact H]. intros j a b I. apply Hf. right. exact I.
  - destruct Ik as [Q|Ik]; [contradiction|]. pose proof (Hf i s r1 (or_introl eq_refl) Ne E) as R1. destruct r1 as [s1|code s1].
    + destruct (IH s1 r Nl Ik ltac:(intros j x y I; apply Hf; right; exact I) H) as [(code & s' & A & B & D)|(a & r2 & A & B & D)].
      * left. exists code, s'. split; [exact A|]. split; [exact B|]. eapply Rt; eassumption.
      * right. exists a, r2. split; [eapply Rt; eassumption|auto].
    + left. injection H as <-. exists code, s1. split; [eapply Hc; exact E|]. auto.
Qed.

(** nothing was recorded against peer [k] *)
Definition innocent (k : Z) (c c' : tp) : Prop := exists new, t_cheaters c' = t_cheaters c ++ new /\ Forall (fun ch => ch_step ch <> 18 /\ ch_peer ch <> k + 1) new.
Lemma innocent_refl k c c' : t_cheaters c' = t_cheaters c -> innocent k c c'.
Proof. intros E. exists []. rewrite app_nil_r. auto. Qed.
Lemma innocent_trans k a b c : innocent k a b -> innocent k b c -> innocent k a c.
Proof. intros (l1 & E1 & F1) (l2 & E2 & F2). exists (l1 ++ l2). rewrite E2, E1, app_assoc. split; [reflexivity|]. apply Forall_app. auto. Qed.

(** what the messages of the others do to the record of peer [k]: nothing *)
Record calm (k : Z) (c c' : tp) : Prop := mkCalm {
  cm_ext : tp_ext c c'; cm_new : innocent k c c'; cm_last : getz (t_last c') k = getz (t_last c) k; cm_pks : getz (t_pks c') k = getz (t_pks c) k;
  cm_own : forall a, 0 <= a < 256 -> In ((k + 1) * 256 + a) (t_complaints c') <-> In ((k + 1) * 256 + a) (t_complaints c) }.
Lemma calm_refl k c : calm k c c.
Proof. constructor; try reflexivity; [apply ext_refl|apply innocent_refl; reflexivity]. Qed.
Lemma calm_trans k a b c : calm k a b -> calm k b c -> calm k a c.
Proof.
  intros [A1 A2 A3 A4 A5] [B1 B2 B3 B4 B5]. constructor; try congruence; [eapply ext_trans; eassumption|eapply innocent_trans; eassumption|].
  intros x Hx. rewrite B5, A5 by exact Hx. reflexivity.
Qed.
Lemma updz_other {A} (l : list A) i v l' k : updz l i v = Ok l' -> i <> k -> getz l' k = getz l k.
Proof. intros H Ne. apply updz_inv in H. destruct H as (_ & _ & H). rewrite H. destruct (Z.eqb_spec k i); [congruence|reflexivity]. Qed.
Lemma updz_same {A} (l : list A) i v l' : updz l i v = Ok l' -> getz l' i = Ok v.
Proof. intros H. apply updz_inv in H. destruct H as (_ & _ & H). rewrite H, Z.eqb_refl. reflexivity. Qed.
Lemma calm_pks k c i x l : updz (t_pks c) i x = Ok l -> i <> k -> calm k c (tp_pks_set c l).
Proof. intros H Ne. constructor; try reflexivity; [apply ext_pks; eapply updz_zlen; exact H|apply innocent_refl; reflexivity|eapply updz_other; eassumption]. Qed.
Lemma calm_com k c i d l : updz (t_com c) i (rows (t_t c) d) = Ok l -> calm k c (tp_com_set c l).
Proof. intros H. constructor; try reflexivity; [eapply ext_com; exact H|apply innocent_refl; reflexivity]. Qed.
Lemma calm_add k c step error peer other c' : add_cheater c step error peer other = Some c' -> step <> 18 -> 0 <= peer < 256 -> peer <> k + 1 -> calm k c c'.
Proof.
  intros H Hs Hp Ne. pose proof (ext_add _ _ _ _ _ _ H) as X. apply add_cheater_inv in H. destruct H as (_ & ->). constructor; try reflexivity; [exact X|].
  eexists. split; [reflexivity|]. repeat constructor; cbn [ch_step ch_peer]; [exact Hs|]. unfold u8. rewrite Z.mod_small by lia. exact Ne.
Qed.

Section FAIRTP.
Variable C : crypto.
Hypothesis HC : crypto_ok C.
Notation S := (cS C).
Let HS : sigs_ok S := ok_cS C HC.

Lemma calm_recv k c buf off len msgno from to pk i now ret c' : tp_recv C c buf off len msgno from to pk i now = Ok (ret, c') -> i <> k -> calm k c c'.
Proof.
  intros H Ne. pose proof (ext_recv C _ _ _ _ _ _ _ _ _ _ _ _ H) as X. apply tp_recv_inv in H. destruct H as (last & last' & l & _ & _ & H & ->).
  constructor; try reflexivity; [exact X|apply innocent_refl; reflexivity|eapply updz_other; eassumption].
Qed.
(** a good message is accepted *)
Lemma own_recv k c buf off len msgno from to pk now ret c' last m ts body : tp_recv C c buf off len msgno from to pk k now = Ok (ret, c') ->
  zlen (t_sid c) = 32 -> rd buf off len = Ok m -> signed S pk (t_sid c) msgno from to ts body m -> getz (t_last c) k = Ok last -> fresh (t_eps c) last ts now ->
  len < 2 ^ 32 -> is_byte msgno -> is_byte from -> is_byte to -> is_u64 ts ->
  ret = 0 /\ tp_ext c c' /\ t_cheaters c' = t_cheaters c /\ t_pks c' = t_pks c /\ t_complaints c' = t_complaints c /\ getz (t_last c') k = Ok ts /\ t_com c' = t_com c /\ t_enc c' = t_enc c /\ t_transcript c' = t_transcript c.
Proof.
  intros H Hsid Hm Hg Hl Hf Hlen B1 B2 B3 Hu. pose proof (ext_recv C _ _ _ _ _ _ _ _ _ _ _ _ H) as X.
  apply tp_recv_inv in H. destruct H as (last0 & last' & l & G & R & U & ->). rewrite Hl in G. injection G as <-.
  erewrite recv_signed in R; try eassumption. injection R as <- <-.
  split; [reflexivity|]. split; [exact X|]. do 3 (split; [reflexivity|]). split; [eapply updz_same; exact U|auto].
Qed.

(** one message of every peer *)
Lemma zrange_once n : NoDup (zrange 0 n).
Proof. unfold zrange. apply FinFun.Injective_map_NoDup; [|apply seq_NoDup]. intros x y E. cbn beta in E. lia. Qed.
Lemma one_each {X} (proj : X -> tp) f k n s r (P : tp -> Prop) : 0 <= k < n -> (forall i s1 code s', f i s1 = Ok (Return code s') -> code <> 0) ->
  (forall i s1 r1, 0 <= i < n -> i <> k -> f i s1 = Ok r1 -> calm k (proj s1) (proj (ctl_state r1))) ->
  (forall s1 r1, calm k (proj s) (proj s1) -> f k s1 = Ok r1 -> innocent k (proj s1) (proj (ctl_state r1)) /\ forall s2, r1 = Next s2 -> P (proj s2)) ->
  (forall a b, calm k a b -> P a -> P b) -> loopM f (zrange 0 (Z.to_nat n)) s = Ok r ->
  innocent k (proj s) (proj (ctl_state r)) /\ forall s2, r = Next s2 -> P (proj s2).
Proof.
  intros Hk Hc Ho Hown HP H.
  destruct (loop_split (fun a b => calm k (proj a) (proj b)) f k (fun a => calm_refl k (proj a)) (fun a b d => calm_trans k (proj a) (proj b) (proj d)) Hc (zrange 0 (Z.to_nat n)) s r
    (zrange_once _) ltac:(apply zrange_In; lia) ltac:(intros i s1 r1 I; apply zrange_In in I; apply Ho; lia) H) as [(code & s' & _ & -> & Q)|(s1 & r1 & Q & E & T)].
  - split; [apply (cm_new _ _ _ Q)|discriminate].
  - destruct (Hown _ _ Q E) as (A & B). destruct r1 as [s2|code s2].
    + destruct T as (T & _). split.
      * eapply innocent_trans; [apply (cm_new _ _ _ Q)|]. eapply innocent_trans; [exact A|apply (cm_new _ _ _ T)].
      * intros s3 ->. apply (HP _ _ T). apply B. reflexivity.
    + destruct T as (_ & ->). split; [|discriminate]. eapply innocent_trans; [apply (cm_new _ _ _ Q)|exact A].
Qed.

(** what is known about the message of peer [k] in a call *)
Definition good (k : Z) (c : tp) (input : bytes) (off len msgno to : Z) (pk : bytes) (ts now : Z) : Prop :=
  zlen (t_sid c) = 32 /\ len < 2 ^ 32 /\ is_byte msgno /\ is_byte (k + 1) /\ is_byte to /\ is_u64 ts /\
  (exists last, getz (t_last c) k = Ok last /\ fresh (t_eps c) last ts now) /\
  exists m body, rd input off len = Ok m /\ signed S pk (t_sid c) msgno (k + 1) to ts body m.
Lemma own_good k c c1 input off len msgno to pk ts now ret c2 : good k c input off len msgno to pk ts now -> calm k c c1 ->
  tp_recv C c1 input off len msgno (k + 1) to pk k now = Ok (ret, c2) ->
  ret = 0 /\ tp_ext c1 c2 /\ t_cheaters c2 = t_cheaters c1 /\ t_pks c2 = t_pks c1 /\ t_complaints c2 = t_complaints c1 /\ getz (t_last c2) k = Ok ts.
Proof.
  intros (G1 & G2 & G3 & G4 & G5 & G6 & (last & G7 & G8) & m & body & G9 & G10) Q H.
  pose proof (cm_ext _ _ _ Q) as X. rewrite <- (x_sid _ _ X) in G1, G10. rewrite <- (x_eps _ _ X) in G8. rewrite <- (cm_last _ _ _ Q) in G7.
  destruct (own_recv k c1 input off len msgno (k + 1) to pk now ret c2 last m ts body H G1 G9 G10 G7 G8 G2 G3 G4 G5 G6) as (A1 & A2 & A3 & A4 & A5 & A6 & _). auto 10.
Qed.

Notation proj3 := (fun s : tp * bytes * Z => fst (fst s)).
Definition kept (k ts : Z) (pk : bytes) (c : tp) : Prop := getz (t_last c) k = Ok ts /\ getz (t_pks c) k = Ok pk.
Lemma kept_calm k ts pk a b : calm k a b -> kept k ts pk a -> kept k ts pk b.
Proof. intros Q (A & B). split; [rewrite (cm_last _ _ _ Q)|rewrite (cm_pks _ _ _ Q)]; assumption. Qed.

Ltac calms := repeat match goal with
  | E : tp_recv C ?a _ _ _ _ _ _ _ ?i _ = Ok (_, ?b), N : ?i <> ?k |- calm ?k ?a _ => apply (calm_trans k a b); [eapply calm_recv; [exact E|exact N]|]; clear E
  | E : add_cheater ?a _ _ _ _ = Some ?b |- calm ?k ?a _ => apply (calm_trans k a b); [eapply calm_add; [exact E|lia|lia|lia]|]; clear E
  | |- calm ?k ?a ?a => apply calm_refl
  | E : updz (t_pks ?a) ?i _ = Ok ?l |- calm ?k ?a (tp_pks_set ?a ?l) => eapply calm_pks; [exact E|assumption]
  | E : updz (t_com ?a) ?i _ = Ok ?l |- calm ?k ?a (tp_com_set ?a ?l) => eapply calm_com; exact E
  end.

(** ** Step 4 *)
Lemma fair4 e c input out ret c' out' k pk ts : tp_step4 C e c input out = Ok (ret, c', out') -> 0 <= k < t_n c -> t_n c <= 128 ->
  rd input (k * 239 + 111) 32 = Ok pk -> good k c input (k * 239) 175 2 255 pk ts (e_r e k) ->
  innocent k c c' /\ (ret = 0 -> kept k ts pk c').
Proof.
  intros H Hk Hn Hpk G. unfold tp_step4 in H. destruct (_ =? zlen input); cbn [negb] in H; [|injection H as <- <- <-; split; [apply innocent_refl; reflexivity|discriminate]].
  destruct (zlen out =? _); cbn [negb] in H; [|injection H as <- <- <-; split; [apply innocent_refl; reflexivity|discriminate]].
  apply bind_ok in H. destruct H as (r & LL & H).
  assert (Q : innocent k c (proj3 (ctl_state r)) /\ forall s2, r = Next s2 -> kept k ts pk (proj3 s2)).
  { apply (one_each proj3 (tp_step4_body C e input) k (t_n c) (c, out, hdr_SIZE) r (kept k ts pk) Hk); [| | |apply kept_calm|exact LL].
    - intros i [[c1 o1] w1] code s' E. unfold tp_step4_body in E. inv E; lia.
    - intros i [[c1 o1] w1] r1 Hi Ne E. unfold tp_step4_body in E. inv E; cbn [ctl_state fst snd]; calms.
    - intros [[c1 o1] w1] r1 Q E. cbn [fst] in Q |- *. unfold tp_step4_body in E. change (msg2_SIZE + sign_BYTES) with 239 in E. change msg2_SIZE with 175 in E. change hdr_SIZE with 111 in E.
      apply bind_ok in E. destruct E as (ltsig & _ & E). apply bind_ok in E. destruct E as (m & _ & E). apply bind_ok in E. destruct E as (lt & _ & E).
      destruct (sig_verify _ _ _ _); cbn [negb] in E; [|injection E as <-; split; [apply innocent_refl; reflexivity|discriminate]].
      rewrite Hpk in E. cbn [bind] in E. apply bind_ok in E. destruct E as ((rt & c2) & R & E). destruct (own_good _ _ _ _ _ _ _ _ _ _ _ _ _ G Q R) as (-> & A2 & A3 & A4 & A5 & A6).
      cbn [Z.eqb negb] in E. apply bind_ok in E. destruct E as (pks & U & E). apply bind_ok in E. destruct E as (o2 & _ & E). injection E as <-. cbn [ctl_state fst snd]. split.
      + apply innocent_refl. exact A3.
      + intros s2 E2. injection E2 as <-. cbn [fst]. split; [exact A6|]. cbn [t_pks tp_pks_set]. eapply updz_same; exact U. }
  destruct Q as (Q1 & Q2). destruct r as [[[c1 o1] w1]|code [[c1 o1] w1]]; cbn [ctl_state fst] in *.
  - specialize (Q2 _ eq_refl). cbn [fst] in Q2. destruct (0 <? zlen (t_cheaters c1)); [injection H as <- <- <-; split; [exact Q1|discriminate]|].
    apply bind_ok in H. destruct H as (o2 & _ & H). injection H as <- <- <-. split; [exact Q1|intros _; exact Q2].
  - injection H as <- <- <-. split; [exact Q1|]. intros ->. exfalso.
    assert (HH : (fun r => r <> 0) 0); [|apply HH; reflexivity]. refine (loopM_code (fun r => r <> 0) _ _ _ _ _ _ LL). intros x [[c2 o2] w2] r1 s2 E. unfold tp_step4_body in E. inv E; lia.
Qed.

(** ** Step 12 *)
Lemma fair12 e c input out ret c' out' k pk ts : tp_step12 C e c input out = Ok (ret, c', out') -> 0 <= k < t_n c -> t_n c <= 128 ->
  getz (t_pks c) k = Ok pk -> good k c input (k * msg6_SIZE (t_t c)) (msg6_SIZE (t_t c)) 6 255 pk ts (e_r e k) ->
  innocent k c c' /\ (ret = 0 -> kept k ts pk c').
Proof.
  intros H Hk Hn Hpk G. unfold tp_step12 in H. destruct (_ =? zlen input); cbn [negb] in H; [|injection H as <- <- <-; split; [apply innocent_refl; reflexivity|discriminate]].
  destruct (zlen out =? _); cbn [negb] in H; [|injection H as <- <- <-; split; [apply innocent_refl; reflexivity|discriminate]].
  apply bind_ok in H. destruct H as (r & LL & H).
  assert (Q : innocent k c (proj3 (ctl_state r)) /\ forall s2, r = Next s2 -> kept k ts pk (proj3 s2)).
  { apply (one_each proj3 (tp_step12_body C e input) k (t_n c) (c, out, hdr_SIZE) r (kept k ts pk) Hk); [| | |apply kept_calm|exact LL].
    - intros i [[c1 o1] w1] code s' E. unfold tp_step12_body in E. inv E; lia.
    - intros i [[c1 o1] w1] r1 Hi Ne E. unfold tp_step12_body in E. inv E; cbn [ctl_state fst snd]; calms.
    - intros [[c1 o1] w1] r1 Q E. cbn [fst] in Q |- *. unfold tp_step12_body in E. rewrite (x_t _ _ (cm_ext _ _ _ Q)), (cm_pks _ _ _ Q), Hpk in E. cbn [bind] in E.
      apply bind_ok in E. destruct E as ((rt & c2) & R & E). destruct (own_good _ _ _ _ _ _ _ _ _ _ _ _ _ G Q R) as (-> & A2 & A3 & A4 & A5 & A6).
      cbn [Z.eqb negb] in E. apply bind_ok in E. destruct E as (data & _ & E). apply bind_ok in E. destruct E as (com & _ & E). apply bind_ok in E. destruct E as (m & _ & E). apply bind_ok in E. destruct E as (o2 & _ & E). injection E as <-. cbn [ctl_state fst snd]. split.
      + apply innocent_refl. exact A3.
      + intros s2 E2. injection E2 as <-. cbn [fst]. split; [exact A6|]. cbn [t_pks tp_com_set]. rewrite A4, (cm_pks _ _ _ Q). exact Hpk. }
  destruct Q as (Q1 & Q2). destruct r as [[[c1 o1] w1]|code [[c1 o1] w1]]; cbn [ctl_state fst] in *.
  - specialize (Q2 _ eq_refl). cbn [fst] in Q2. destruct (0 <? zlen (t_cheaters c1)); [injection H as <- <- <-; split; [exact Q1|discriminate]|].
    apply bind_ok in H. destruct H as (o2 & _ & H). injection H as <- <- <-. split; [exact Q1|intros _; exact Q2].
  - injection H as <- <- <-. split; [exact Q1|]. intros ->. exfalso.
    assert (HH : (fun r => r <> 0) 0); [|apply HH; reflexivity]. refine (loopM_code (fun r => r <> 0) _ _ _ _ _ _ LL). intros x [[c2 o2] w2] r1 s2 E. unfold tp_step12_body in E. inv E; lia.
Qed.

(** ** Step 20 *)
Lemma fair20 e c input out ret c' out' k pk ts : tp_step20 C e c input out = Ok (ret, c', out') -> 0 <= k < t_n c -> t_n c <= 128 ->
  getz (t_pks c) k = Ok pk -> good k c input (k * 143) 143 20 0 pk ts (e_r e k) -> rd input (k * 143 + 111) 32 = Ok (blake2b (cH C) 32 (t_transcript c)) ->
  innocent k c c' /\ (ret = 0 -> kept k ts pk c').
Proof.
  intros H Hk Hn Hpk G Hd. unfold tp_step20 in H. destruct (_ =? zlen input); cbn [negb] in H; [|injection H as <- <- <-; split; [apply innocent_refl; reflexivity|discriminate]].
  destruct (zlen out =? _); cbn [negb] in H; [|injection H as <- <- <-; split; [apply innocent_refl; reflexivity|discriminate]].
  set (hash := blake2b (cH C) 32 (t_transcript c)) in *.
  apply bind_ok in H. destruct H as (o0 & _ & H). apply bind_ok in H. destruct H as (r & LL & H).
  assert (Q : innocent k c (fst (ctl_state r)) /\ forall s2, r = Next s2 -> kept k ts pk (fst s2)).
  { apply (one_each fst (tp_step20_body C e input hash) k (t_n c) (c, o0) r (kept k ts pk) Hk); [| | |apply kept_calm|exact LL].
    - intros i [c1 o1] code s' E. unfold tp_step20_body in E. inv E; lia.
    - intros i [c1 o1] r1 Hi Ne E. unfold tp_step20_body in E. inv E; cbn [ctl_state fst snd]; calms.
    - intros [c1 o1] r1 Q E. cbn [fst] in Q |- *. unfold tp_step20_body in E. change msg19_SIZE with 143 in E. change hdr_SIZE with 111 in E. rewrite (cm_pks _ _ _ Q), Hpk in E. cbn [bind] in E.
      apply bind_ok in E. destruct E as ((rt & c2) & R & E). destruct (own_good _ _ _ _ _ _ _ _ _ _ _ _ _ G Q R) as (-> & A2 & A3 & A4 & A5 & A6).
      cbn [Z.eqb negb] in E. rewrite Hd in E. cbn [bind] in E. rewrite (proj2 (bytes_eqb_eq hash hash) eq_refl) in E. cbn [negb] in E. injection E as <-. cbn [ctl_state fst snd]. split.
      + apply innocent_refl. exact A3.
      + intros s2 E2. injection E2 as <-. cbn [fst]. split; [exact A6|]. rewrite A4, (cm_pks _ _ _ Q). exact Hpk. }
  destruct Q as (Q1 & Q2). destruct r as [[c1 o1]|code [c1 o1]]; cbn [ctl_state fst] in *.
  - specialize (Q2 _ eq_refl). cbn [fst] in Q2. apply bind_ok in H. destruct H as (o2 & _ & H).
    destruct (zlen (t_cheaters c1) =? 0); injection H as <- <- <-; (split; [exact Q1|try discriminate; intros _; exact Q2]).
  - injection H as <- <- <-. split; [exact Q1|]. intros ->. exfalso.
    assert (HH : (fun r => r <> 0) 0); [|apply HH; reflexivity]. refine (loopM_code (fun r => r <> 0) _ _ _ _ _ _ LL). intros x [c2 o2] r1 s2 E. unfold tp_step20_body in E. inv E; lia.
Qed.

(** ** Step 22 *)
Lemma fair22 e c input out ret c' out' k pk ts : tp_step22 C e c input out = Ok (ret, c', out') -> 0 <= k < t_n c -> t_n c <= 128 ->
  getz (t_pks c) k = Ok pk -> good k c input (k * 113) 113 22 0 pk ts (e_r e k) -> innocent k c c'.
Proof.
  intros H Hk Hn Hpk G. unfold tp_step22 in H. destruct (_ =? zlen input); cbn [negb] in H; [|injection H as <- <- <-; apply innocent_refl; reflexivity].
  destruct (zlen out =? _); cbn [negb] in H; [|injection H as <- <- <-; apply innocent_refl; reflexivity].
  apply bind_ok in H. destruct H as (r & LL & H).
  assert (Q : innocent k c (ctl_state r) /\ forall s2, r = Next s2 -> kept k ts pk s2).
  { apply (one_each (fun c => c) (tp_step22_body C e input) k (t_n c) c r (kept k ts pk) Hk); [| | |apply kept_calm|exact LL].
    - intros i c1 code s' E. unfold tp_step22_body in E. inv E; lia.
    - intros i c1 r1 Hi Ne E. unfold tp_step22_body in E. inv E; cbn [ctl_state fst snd]; calms.
    - intros c1 r1 Q E. unfold tp_step22_body in E. change msg21_SIZE with 113 in E. change hdr_SIZE with 111 in E. rewrite (cm_pks _ _ _ Q), Hpk in E. cbn [bind] in E.
      apply bind_ok in E. destruct E as ((rt & c2) & R & E). destruct (own_good _ _ _ _ _ _ _ _ _ _ _ _ _ G Q R) as (-> & A2 & A3 & A4 & A5 & A6).
      cbn [Z.eqb negb] in E. apply bind_ok in E. destruct E as (d & _ & E). injection E as <-. cbn [ctl_state fst snd]. split.
      + apply innocent_refl. exact A3.
      + intros s2 E2. injection E2 as <-. split; [exact A6|]. rewrite A4, (cm_pks _ _ _ Q). exact Hpk. }
  destruct Q as (Q1 & Q2). destruct r as [c1|code c1]; cbn [ctl_state] in *; injection H as <- <- <-; exact Q1.
Qed.

(** ** Step 16: the complaints of the others, and of peer [k] *)
Lemma calm_complaint k c i a : i <> k -> 0 <= i < 128 -> 0 <= k < 128 -> 0 <= a < 256 -> calm k c (tp_complaints_set c (t_complaints c ++ [pair16 (i + 1) a])).
Proof.
  intros Ne Hi Hk Ha. constructor; try reflexivity; [apply ext_complaints|apply innocent_refl; reflexivity|].
  intros x Hx. cbn [t_complaints tp_complaints_set]. rewrite in_app_iff. split; [|auto]. intros [I|[I|[]]]; [exact I|]. exfalso. rewrite pair16_val in I by lia. lia.
Qed.
Lemma own_complaints input p k lim nm c r : 0 <= k < 128 -> t_n c <= 128 -> NoDup nm -> Forall (fun a => 1 <= a <= t_n c) nm -> rd input (p + 112) (zlen nm) = Ok (map zb nm) ->
  (forall a, 0 <= a < 256 -> ~ In ((k + 1) * 256 + a) (t_complaints c)) ->
  loopM (tp_step16_complaint input p k lim) (zrange 0 (length nm)) c = Ok r -> exists c', r = Next c' /\ t_cheaters c' = t_cheaters c /\ t_last c' = t_last c /\ t_pks c' = t_pks c.
Proof.
  intros Hk Hn Nd Fr Rd No H.
  pose (J := fun (i : Z) (c1 : tp) => t_n c1 = t_n c /\ t_cheaters c1 = t_cheaters c /\ t_last c1 = t_last c /\ t_pks c1 = t_pks c /\
    forall a, 0 <= a < 256 -> In ((k + 1) * 256 + a) (t_complaints c1) -> In a (firstn (Z.to_nat i) nm)).
  assert (Q : match r with Next c1 => J (0 + Z.of_nat (length nm)) c1 | Return _ _ => False end).
  { refine (loopM_seq_inv (tp_step16_complaint input p k lim) J (fun _ _ => False) 0 (length nm) c r _ _ H).
    - split; [reflexivity|]. do 3 (split; [reflexivity|]). intros a Ha I. exfalso. exact (No a Ha I).
    - intros i c1 r1 Hi (J1 & J2 & J3 & J4 & J5) E. unfold tp_step16_complaint in E.
      assert (Mo : forall a, In a (firstn (Z.to_nat i) nm) -> In a (firstn (Z.to_nat (i + 1)) nm)).
      { intros a I. replace (Z.to_nat (i + 1)) with (Datatypes.S (Z.to_nat i)) by lia. clear - I. revert I. generalize (Z.to_nat i). intros q. revert nm. induction q as [|q IH]; intros [|y nm]; cbn; try tauto. intros [->|I]; [left; reflexivity|right; apply IH; exact I]. }
      destruct (i + 1 <? lim); cbn [negb] in E.
      2:{ injection E as <-. repeat split; try assumption. intros a Ha I. apply Mo. exact (J5 a Ha I). }
      destruct (nth_error nm (Z.to_nat i)) as [x|] eqn:Ex; [|apply nth_error_None in Ex; lia].
      assert (Gd : getz input (p + hdr_SIZE + (i + 1)) = Ok (zb x)).
      { replace (p + hdr_SIZE + (i + 1)) with (p + 112 + i) by (unfold hdr_SIZE; lia). destruct (getz_of_rd _ _ _ _ i (zb x) Rd) as (_ & Q); [|exact Q].
        apply getz_ok; [|lia]. rewrite nth_error_map, Ex. reflexivity. }
      rewrite Gd in E. cbn [bind] in E. pose proof (nth_error_In _ _ Ex) as Ix. pose proof (proj1 (Forall_forall _ _) Fr _ Ix) as Hx. cbn beta in Hx.
      rewrite (WireProofs.bz_zb_small x) in E by (unfold is_byte; lia).
      rewrite J1 in E. destruct (Z.ltb_spec (t_n c) x); [lia|]. destruct (Z.ltb_spec x 1); [lia|]. cbn [orb] in E.
      rewrite pair16_val in E by lia.
      destruct (existsb _ _) eqn:Eb in E.
      { exfalso. apply existsb_eqb_In in Eb. apply J5 in Eb; [|lia]. apply In_nth_error in Eb. destruct Eb as (q & Eb).
        assert (Q : (q < Z.to_nat i)%nat). { assert (Q : (q < length (firstn (Z.to_nat i) nm))%nat) by (apply nth_error_Some; congruence). rewrite firstn_length in Q. lia. }
        rewrite nth_error_firstn_lt in Eb by exact Q. assert (q = Z.to_nat i); [|lia]. apply (proj1 (NoDup_nth_error nm) Nd); [lia|congruence]. }
      destruct (_ <? t_cmax c1); [|discriminate]. injection E as <-. repeat split; try assumption.
      intros a Ha I. cbn [t_complaints tp_complaints_set] in I. apply in_app_or in I. destruct I as [I|[I|[]]]; [apply Mo; exact (J5 a Ha I)|].
      assert (a = x) by lia. subst a. replace (Z.to_nat (i + 1)) with (Datatypes.S (Z.to_nat i)) by lia. eapply (nth_error_In _ (Z.to_nat i)). rewrite nth_error_firstn_lt by lia. exact Ex. }
  destruct r as [c1|]; [|contradiction]. exists c1. destruct Q as (_ & Q2 & Q3 & Q4 & _). auto.
Qed.
Lemma others_complaints input p i k lim ks c r : i <> k -> 0 <= i < 128 -> 0 <= k < 128 -> loopM (tp_step16_complaint input p i lim) ks c = Ok r -> calm k c (ctl_state r).
Proof.
  intros Ne Hi Hk H. revert H. apply (loop_rel (calm k)); [apply calm_refl|apply calm_trans|]. intros kk c1 r1 E. unfold tp_step16_complaint in E.
  inv E; cbn [ctl_state]; try solve [calms]. apply calm_complaint; try assumption. apply bz_range.
Qed.

Lemma fair16 e c input out ret c' out' k pk ts nm : tp_step16 C e c input out = Ok (ret, c', out') -> 0 <= k < t_n c -> t_n c <= 128 ->
  getz (t_pks c) k = Ok pk -> good k c input (k * (112 + t_n c)) (112 + t_n c) 9 255 pk ts (e_r e k) ->
  NoDup nm -> Forall (fun a => 1 <= a <= t_n c) nm -> zlen nm <= t_n c -> getz input (k * (112 + t_n c) + 111) = Ok (zb (zlen nm)) -> rd input (k * (112 + t_n c) + 112) (zlen nm) = Ok (map zb nm) ->
  innocent k c c' /\ (ret = 0 -> kept k ts pk c').
Proof.
  intros H Hk Hn Hpk G Nd Fr Hl Hc Hr. unfold tp_step16 in H. destruct (_ =? zlen input); cbn [negb] in H; [|injection H as <- <- <-; split; [apply innocent_refl; reflexivity|discriminate]].
  destruct (zlen out =? _); cbn [negb] in H; [|injection H as <- <- <-; split; [apply innocent_refl; reflexivity|discriminate]].
  apply bind_ok in H. destruct H as (r & LL & H). set (c0 := tp_complaints_set c []) in *.
  assert (Code : forall i s1 code s', tp_step16_body C e input i s1 = Ok (Return code s') -> code <> 0).
  { intros i [[c1 o1] w1] code s' E. unfold tp_step16_body in E. inv E; try lia.
    match goal with L : loopM (tp_step16_complaint _ _ _ _) _ _ = Ok (Return ?r _) |- _ => assert (HH : (fun r => r <> 0) r); [|exact HH]; refine (loopM_code (fun r => r <> 0) _ _ _ _ _ _ L) end.
    intros x c2 r1 s2 E'. unfold tp_step16_complaint in E'. inv E'; lia. }
  assert (Q : innocent k c0 (proj3 (ctl_state r)) /\ forall s2, r = Next s2 -> kept k ts pk (proj3 s2)).
  { apply (one_each proj3 (tp_step16_body C e input) k (t_n c) (c0, out, hdr_SIZE) r (kept k ts pk) Hk); [exact Code| | |apply kept_calm|exact LL].
    - intros i [[c1 o1] w1] r1 Hi Ne E. unfold tp_step16_body in E. inv E; cbn [ctl_state fst snd]; try solve [calms].
      all: match goal with L : loopM (tp_step16_complaint _ _ _ _) _ _ = Ok _ |- _ => apply (others_complaints _ _ _ k) in L; [cbn [ctl_state] in L|exact Ne|lia|lia] end.
      all: match goal with R : tp_recv C ?a _ _ _ _ _ _ _ ?i _ = Ok (_, ?b) |- calm ?k ?a _ => apply (calm_trans k a b); [eapply calm_recv; [exact R|assumption]|] end; assumption.
    - intros [[c1 o1] w1] r1 Q E. cbn [fst] in Q |- *. unfold tp_step16_body in E. pose proof (x_n _ _ (cm_ext _ _ _ Q)) as Xn. cbn [fst] in Xn. change (t_n c0) with (t_n c) in Xn.
      rewrite msg9_val, Xn in E. change hdr_SIZE with 111 in E. rewrite (cm_pks _ _ _ Q) in E. cbn [fst] in E. change (t_pks c0) with (t_pks c) in E. rewrite Hpk in E. cbn [bind] in E.
      apply bind_ok in E. destruct E as ((rt & c2) & R & E). destruct (own_good _ c0 _ _ _ _ _ _ _ _ _ _ _ G Q R) as (-> & A2 & A3 & A4 & A5 & A6).
      cbn [Z.eqb negb] in E. apply bind_ok in E. destruct E as (flen & _ & E). rewrite Hc in E. cbn [bind] in E. rewrite (WireProofs.bz_zb_small (zlen nm)) in E by (pose proof (zlen_nonneg nm); unfold is_byte; lia).
      destruct (_ <? zlen nm); [injection E as <-; split; [apply innocent_refl; exact A3|discriminate]|].
      apply bind_ok in E. destruct E as (r2 & L2 & E). replace (Z.to_nat (zlen nm)) with (length nm) in L2 by (unfold zlen; lia).
      destruct (own_complaints input (k * (112 + t_n c)) k _ nm c2 r2 ltac:(lia) ltac:(rewrite (x_n _ _ A2); lia) Nd ltac:(rewrite (x_n _ _ A2), Xn; exact Fr) Hr ltac:(intros a Ha I; rewrite A5 in I; apply (cm_own _ _ _ Q a Ha) in I; exact I) L2) as (c3 & -> & B1 & B2 & B3).
      apply bind_ok in E. destruct E as (m & _ & E). apply bind_ok in E. destruct E as (o2 & _ & E). injection E as <-. cbn [ctl_state fst snd]. split.
      + apply innocent_refl. congruence.
      + intros s2 E2. injection E2 as <-. cbn [fst]. split; [congruence|]. rewrite B3, A4, (cm_pks _ _ _ Q). exact Hpk. }
  destruct Q as (Q1 & Q2). change (innocent k c (proj3 (ctl_state r))) in Q1. destruct r as [[[c1 o1] w1]|code [[c1 o1] w1]]; cbn [ctl_state fst] in *.
  - specialize (Q2 _ eq_refl). cbn [fst] in Q2. destruct (_ <=? zlen (t_complaints c1)).
    { destruct (add_cheater _ _ _ _ _) as [c2|] eqn:Ea; injection H as <- <- <-; (split; [|discriminate]); [|exact Q1].
      eapply innocent_trans; [exact Q1|]. apply (cm_new _ _ _ (calm_add k _ _ _ _ _ _ Ea ltac:(lia) ltac:(lia) ltac:(lia))). }
    destruct (0 <? zlen (t_cheaters c1)); [injection H as <- <- <-; split; [exact Q1|discriminate]|].
    apply bind_ok in H. destruct H as (o2 & _ & H). injection H as <- <- <-. split; [exact Q1|intros _; exact Q2].
  - injection H as <- <- <-. split; [exact Q1|]. intros ->. exfalso.
    assert (HH : (fun r => r <> 0) 0); [|apply HH; reflexivity]. exact (loopM_code (fun r => r <> 0) _ _ _ _ _ ltac:(intros x s1 r1 s2 E; eapply Code; exact E) LL).
Qed.

(** ** A message of every peer for every peer *)
Definition before_nth (l0 : Z) (ts : Z -> Z) (i : Z) : Z := if i =? 0 then l0 else ts (i - 1).
Lemma count_next n k kk : 0 <= k < n -> 0 <= kk -> (kk + 1 + n - 1 - k) / n = (if kk mod n =? k then (kk + n - 1 - k) / n + 1 else (kk + n - 1 - k) / n) /\ (kk mod n = k -> (kk + n - 1 - k) / n = kk / n).
Proof.
  intros Hk Hkk. pose proof (Z.div_mod kk n ltac:(lia)) as E. pose proof (Z.mod_pos_bound kk n ltac:(lia)) as B. set (q := kk / n) in *. set (j := kk mod n) in *.
  assert (D : forall x y, 0 <= y < n -> (n * x + y) / n = x) by (intros x y Hy; symmetry; apply (Z.div_unique _ n x y); [left; lia|reflexivity]).
  destruct (Z.eqb_spec j k) as [Ej|Ej].
  - replace (kk + 1 + n - 1 - k) with (n * (q + 1) + 0) by lia. replace (kk + n - 1 - k) with (n * q + (n - 1)) by lia. rewrite !D by lia. split; [reflexivity|auto].
  - split; [|intros Q; contradiction]. destruct (Z.lt_ge_cases j k).
    + replace (kk + 1 + n - 1 - k) with (n * q + (j + n - k)) by lia. replace (kk + n - 1 - k) with (n * q + (j + n - 1 - k)) by lia. rewrite !D by lia. reflexivity.
    + replace (kk + 1 + n - 1 - k) with (n * (q + 1) + (j - k)) by lia. replace (kk + n - 1 - k) with (n * (q + 1) + (j - 1 - k)) by lia. rewrite !D by lia. reflexivity.
Qed.
Lemma two_each (f : Z -> tp * bytes * Z -> res (ctl (tp * bytes * Z))) k n s r pk l0 ts : 0 <= k < n -> t_n (proj3 s) = n ->
  getz (t_pks (proj3 s)) k = Ok pk -> getz (t_last (proj3 s)) k = Ok l0 ->
  (forall kk s1 r1, 0 <= kk -> kk mod n <> k -> tp_ext (proj3 s) (proj3 s1) -> f kk s1 = Ok r1 -> calm k (proj3 s1) (proj3 (ctl_state r1))) ->
  (forall i s1 r1, 0 <= i < n -> tp_ext (proj3 s) (proj3 s1) -> getz (t_pks (proj3 s1)) k = Ok pk -> getz (t_last (proj3 s1)) k = Ok (before_nth l0 ts i) -> f (i * n + k) s1 = Ok r1 ->
     exists s2, r1 = Next s2 /\ tp_ext (proj3 s1) (proj3 s2) /\ t_cheaters (proj3 s2) = t_cheaters (proj3 s1) /\ t_pks (proj3 s2) = t_pks (proj3 s1) /\ getz (t_last (proj3 s2)) k = Ok (ts i)) ->
  loopM f (zrange 0 (Z.to_nat (n * n))) s = Ok r ->
  innocent k (proj3 s) (proj3 (ctl_state r)) /\ forall s2, r = Next s2 -> kept k (ts (n - 1)) pk (proj3 s2).
Proof.
  intros Hk Hn Hpk Hl Hoth Hown H.
  pose (J := fun (kk : Z) (s1 : tp * bytes * Z) => tp_ext (proj3 s) (proj3 s1) /\ innocent k (proj3 s) (proj3 s1) /\ getz (t_pks (proj3 s1)) k = Ok pk /\
    getz (t_last (proj3 s1)) k = Ok (before_nth l0 ts ((kk + n - 1 - k) / n))).
  assert (Q : match r with Next s1 => J (0 + Z.of_nat (Z.to_nat (n * n))) s1 | Return _ s1 => innocent k (proj3 s) (proj3 s1) end).
  { refine (loopM_seq_inv f J (fun _ s1 => innocent k (proj3 s) (proj3 s1)) 0 (Z.to_nat (n * n)) s r _ _ H).
    - split; [apply ext_refl|]. split; [apply innocent_refl; reflexivity|]. split; [exact Hpk|]. replace ((0 + n - 1 - k) / n) with 0 by (rewrite Z.div_small by lia; reflexivity). exact Hl.
    - intros kk s1 r1 Hkk (J1 & J2 & J3 & J4) E. destruct (count_next n k kk Hk ltac:(lia)) as (Q1 & Q2). destruct (Z.eqb_spec (kk mod n) k) as [Em|Em].
      + rewrite (Q2 Em) in *. assert (Ekk : kk = kk / n * n + k) by (pose proof (Z.div_mod kk n ltac:(lia)); lia).
        assert (Hi : 0 <= kk / n < n) by (split; [apply Z.div_pos; lia|apply Z.div_lt_upper_bound; nia]).
        rewrite Ekk in E. destruct (Hown (kk / n) s1 r1 Hi J1 J3 J4 E) as (s2 & -> & A1 & A2 & A3 & A4).
        split; [eapply ext_trans; eassumption|]. split; [eapply innocent_trans; [exact J2|apply innocent_refl; exact A2]|]. split; [congruence|]. rewrite Q1. rewrite A4. unfold before_nth. destruct (Z.eqb_spec (kk / n + 1) 0); [lia|]. do 2 f_equal. lia.
      + pose proof (Hoth kk s1 r1 ltac:(lia) Em J1 E) as Q. destruct r1 as [s2|code s2]; cbn [ctl_state] in Q.
        * split; [eapply ext_trans; [exact J1|apply (cm_ext _ _ _ Q)]|]. split; [eapply innocent_trans; [exact J2|apply (cm_new _ _ _ Q)]|]. split; [rewrite (cm_pks _ _ _ Q); exact J3|]. rewrite (cm_last _ _ _ Q), Q1. exact J4.
        * eapply innocent_trans; [exact J2|apply (cm_new _ _ _ Q)]. }
  destruct r as [s2|code s2]; cbn [ctl_state]; [|split; [exact Q|discriminate]]. destruct Q as (_ & Q2 & Q3 & Q4). split; [exact Q2|]. intros s3 E. injection E as <-.
  split; [|exact Q3]. rewrite Q4. rewrite Z2Nat.id by nia. replace (0 + n * n + n - 1 - k) with (n - 1 - k + n * n) by lia. rewrite Z.div_add by lia. rewrite Z.div_small by lia.
  unfold before_nth. destruct (Z.eqb_spec (0 + n) 0); [lia|]. do 2 f_equal.
Qed.

(** what is known about the messages of peer [k] in such a call *)
Definition good_row (k : Z) (c : tp) (input : bytes) (sz msgno : Z) (pk : bytes) (l0 : Z) (ts : Z -> Z) : Prop :=
  zlen (t_sid c) = 32 /\ 111 <= sz < 2 ^ 32 /\ is_byte msgno /\ getz (t_last c) k = Ok l0 /\
  forall i, 0 <= i < t_n c -> is_u64 (ts i) /\ (forall now, fresh (t_eps c) (before_nth l0 ts i) (ts i) now) /\
    exists m body, rd input ((k * t_n c + i) * sz) sz = Ok m /\ signed S pk (t_sid c) msgno (k + 1) (i + 1) (ts i) body m.

Lemma fair68 e c input out ret c' out' k pk l0 ts : tp_step68 C e c input out = Ok (ret, c', out') -> 0 <= k < t_n c -> t_n c <= 128 -> t_step c = 2 \/ t_step c = 3 ->
  getz (t_pks c) k = Ok pk -> good_row k c input 159 (2 + t_step c) pk l0 ts ->
  innocent k c c' /\ (ret = 0 -> kept k (ts (t_n c - 1)) pk c').
Proof.
  intros H Hk Hn Hst Hpk (G1 & G2 & G3 & G4 & G5). unfold tp_step68 in H. destruct (zlen input =? msg4_SIZE * t_n c * t_n c); cbn [negb] in H; [|injection H as <- <- <-; split; [apply innocent_refl; reflexivity|discriminate]].
  destruct (zlen input =? _); cbn [negb] in H; [|injection H as <- <- <-; split; [apply innocent_refl; reflexivity|discriminate]].
  apply bind_ok in H. destruct H as (r & LL & H).
  assert (Q : innocent k c (proj3 (ctl_state r)) /\ forall s2, r = Next s2 -> kept k (ts (t_n c - 1)) pk (proj3 s2)).
  { apply (two_each (tp_step68_body C e input) k (t_n c) (c, out, 0) r pk l0 ts Hk eq_refl Hpk G4); [| |exact LL].
    - intros kk [[c1 o1] w1] r1 Hkk Ne X E. cbn [fst] in X. unfold tp_step68_body in E. pose proof (Z.mod_pos_bound kk (t_n c) ltac:(lia)) as Hm. rewrite (x_n _ _ X) in E.
      apply bind_ok in E. destruct E as (pk1 & _ & E). apply bind_ok in E. destruct E as ((rt & c2) & R & E). pose proof (x_step _ _ (ext_recv C _ _ _ _ _ _ _ _ _ _ _ _ R)) as Xs. rewrite (x_step _ _ X) in Xs.
      inv E; cbn [ctl_state fst snd]; calms.
    - intros i [[c1 o1] w1] r1 Hi X Hp Hl E. cbn [fst] in X, Hp, Hl |- *. unfold tp_step68_body in E. rewrite (x_n _ _ X), (x_step _ _ X) in E.
      replace ((i * t_n c + k) / t_n c) with i in E by (rewrite Z.div_add_l, Z.div_small by lia; lia). replace ((i * t_n c + k) mod t_n c) with k in E by (rewrite Z.add_comm, Z.mod_add, Z.mod_small by lia; reflexivity).
      rewrite Hp in E. cbn [bind] in E. apply bind_ok in E. destruct E as ((rt & c2) & R & E). destruct (G5 i Hi) as (T1 & T2 & m & body & M1 & M2).
      replace (Mem.u8 (2 + t_step c)) with (2 + t_step c) in R by (unfold Mem.u8; rewrite Z.mod_small by lia; reflexivity).
      rewrite <- (x_sid _ _ X) in M2. rewrite <- (x_eps _ _ X) in T2.
      destruct (own_recv k c1 input _ msg4_SIZE (2 + t_step c) (k + 1) (i + 1) pk _ rt c2 _ m (ts i) body R ltac:(rewrite (x_sid _ _ X); exact G1) M1 M2 Hl (T2 _) ltac:(change msg4_SIZE with 159; lia) G3 ltac:(unfold is_byte; lia) ltac:(unfold is_byte; lia) T1) as (-> & A2 & A3 & A4 & A5 & A6 & _).
      cbn [Z.eqb negb] in E. apply bind_ok in E. destruct E as (m' & _ & E). apply bind_ok in E. destruct E as (o2 & _ & E). injection E as <-. eexists. split; [reflexivity|]. cbn [fst]. auto. }
  destruct Q as (Q1 & Q2). destruct r as [[[c1 o1] w1]|code [[c1 o1] w1]]; cbn [ctl_state fst] in *; injection H as <- <- <-.
  - split; [exact Q1|]. intros _. exact (Q2 _ eq_refl).
  - split; [exact Q1|]. intros ->. exfalso.
    assert (HH : (fun r => r <> 0) 0); [|apply HH; reflexivity]. refine (loopM_code (fun r => r <> 0) _ _ _ _ _ _ LL). intros x [[c2 o2] w2] r1 s2 E. unfold tp_step68_body in E. inv E; lia.
Qed.

Lemma fair14 e c input out ret c' out' k pk l0 ts : tp_step14 C e c input out = Ok (ret, c', out') -> 0 <= k < t_n c -> t_n c <= 128 ->
  getz (t_pks c) k = Ok pk -> good_row k c input 256 8 pk l0 ts ->
  innocent k c c' /\ (ret = 0 -> kept k (ts (t_n c - 1)) pk c').
Proof.
  intros H Hk Hn Hpk (G1 & G2 & G3 & G4 & G5). unfold tp_step14 in H. destruct (zlen input =? msg8_SIZE * t_n c * t_n c); cbn [negb] in H; [|injection H as <- <- <-; split; [apply innocent_refl; reflexivity|discriminate]].
  destruct (zlen input =? _); cbn [negb] in H; [|injection H as <- <- <-; split; [apply innocent_refl; reflexivity|discriminate]].
  apply bind_ok in H. destruct H as (r & LL & H).
  assert (Q : innocent k c (proj3 (ctl_state r)) /\ forall s2, r = Next s2 -> kept k (ts (t_n c - 1)) pk (proj3 s2)).
  { apply (two_each (tp_step14_body C e input) k (t_n c) (c, out, 0) r pk l0 ts Hk eq_refl Hpk G4); [| |exact LL].
    - intros kk [[c1 o1] w1] r1 Hkk Ne X E. cbn [fst] in X. unfold tp_step14_body in E. pose proof (Z.mod_pos_bound kk (t_n c) ltac:(lia)) as Hm. rewrite (x_n _ _ X) in E.
      inv E; cbn [ctl_state fst snd]; calms.
    - intros i [[c1 o1] w1] r1 Hi X Hp Hl E. cbn [fst] in X, Hp, Hl |- *. unfold tp_step14_body in E. rewrite (x_n _ _ X) in E.
      replace ((i * t_n c + k) / t_n c) with i in E by (rewrite Z.div_add_l, Z.div_small by lia; lia). replace ((i * t_n c + k) mod t_n c) with k in E by (rewrite Z.add_comm, Z.mod_add, Z.mod_small by lia; reflexivity).
      rewrite Hp in E. cbn [bind] in E. apply bind_ok in E. destruct E as ((rt & c2) & R & E). destruct (G5 i Hi) as (T1 & T2 & m & body & M1 & M2).
      rewrite <- (x_sid _ _ X) in M2. rewrite <- (x_eps _ _ X) in T2.
      destruct (own_recv k c1 input _ msg8_SIZE 8 (k + 1) (i + 1) pk _ rt c2 _ m (ts i) body R ltac:(rewrite (x_sid _ _ X); exact G1) M1 M2 Hl (T2 _) ltac:(change msg8_SIZE with 256; lia) G3 ltac:(unfold is_byte; lia) ltac:(unfold is_byte; lia) T1) as (-> & A2 & A3 & A4 & A5 & A6 & _).
      cbn [Z.eqb negb] in E. apply bind_ok in E. destruct E as (m' & _ & E). apply bind_ok in E. destruct E as (o2 & _ & E). injection E as <-. eexists. split; [reflexivity|]. cbn [fst]. auto. }
  destruct Q as (Q1 & Q2). destruct r as [[[c1 o1] w1]|code [[c1 o1] w1]]; cbn [ctl_state fst] in *.
  - specialize (Q2 _ eq_refl). cbn [fst] in Q2. destruct (0 <? zlen (t_cheaters c1)); [injection H as <- <- <-; split; [exact Q1|discriminate]|].
    apply bind_ok in H. destruct H as (enc & _ & H). injection H as <- <- <-. split; [exact Q1|intros _; exact Q2].
  - injection H as <- <- <-. split; [exact Q1|]. intros ->. exfalso.
    assert (HH : (fun r => r <> 0) 0); [|apply HH; reflexivity]. refine (loopM_code (fun r => r <> 0) _ _ _ _ _ _ LL). intros x [[c2 o2] w2] r1 s2 E. unfold tp_step14_body in E. inv E; lia.
Qed.
End FAIRTP.
