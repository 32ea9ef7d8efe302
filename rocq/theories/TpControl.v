(** The control flow of the two state machines. *)
From Coq Require Import ZArith Lia List Bool.
From Coq.Strings Require Import Byte.
From Verif Require Import Bytes Res Mem Sodium PrimeL ToprfModel ToprfSpec DkgModel DkgProofs WireModel TpCrypto TpModel PeerModel TpFrame PeerFrame TpSpec.
Import ListNotations.
Open Scope list_scope.
Open Scope Z_scope.

Section CTL.
Variable C : crypto.

(** case analysis on the step of a party; the last case is "none of the listed steps" *)
Lemma step_cases (P : Z -> Prop) z :
  (P 0) -> (P 1) -> (P 2) -> (P 3) -> (P 4) -> (P 5) -> (P 6) -> (P 7) -> (P 8) -> (P 9) -> (P 10) ->
  (z < 0 \/ 10 < z -> P z) -> P z.
Proof.
  intros. destruct (Z.ltb_spec z 0); [auto|]. destruct (Z.ltb_spec 10 z); [auto|].
  assert (E : z = 0 \/ z = 1 \/ z = 2 \/ z = 3 \/ z = 4 \/ z = 5 \/ z = 6 \/ z = 7 \/ z = 8 \/ z = 9 \/ z = 10) by lia.
  destruct E as [->|[->|[->|[->|[->|[->|[->|[->|[->|[->| ->]]]]]]]]]]; assumption.
Qed.

Lemma match_default {A} (z : Z) (a0 a1 a2 a3 a4 a5 a6 a7 a8 a9 d : A) : z < 0 \/ 9 < z ->
  match z with 0 => a0 | 1 => a1 | 2 => a2 | 3 => a3 | 4 => a4 | 5 => a5 | 6 => a6 | 7 => a7 | 8 => a8 | 9 => a9 | _ => d end = d.
Proof.
  intros H. destruct z as [|p|p]; try lia; [|reflexivity].
  do 4 (destruct p as [p|p|]; try reflexivity; try lia).
Qed.
Lemma match_default10 {A} (z : Z) (a0 a1 a2 a3 a4 a5 a6 a7 a8 a9 a10 d : A) : z < 0 \/ 10 < z ->
  match z with 0 => a0 | 1 => a1 | 2 => a2 | 3 => a3 | 4 => a4 | 5 => a5 | 6 => a6 | 7 => a7 | 8 => a8 | 9 => a9 | 10 => a10 | _ => d end = d.
Proof.
  intros H. destruct z as [|p|p]; try lia; [|reflexivity].
  do 4 (destruct p as [p|p|]; try reflexivity; try lia).
Qed.

Lemma tp_next_0 e c input out : t_step c = 0 -> tp_next C e c input out = tp_finish_step (tp_step1 C e c input out).
Proof. intros H. unfold tp_next. rewrite H. reflexivity. Qed.
Lemma tp_next_1 e c input out : t_step c = 1 -> tp_next C e c input out = tp_finish_step (tp_step4 C e c input out).
Proof. intros H. unfold tp_next. rewrite H. reflexivity. Qed.
Lemma tp_next_2 e c input out : t_step c = 2 -> tp_next C e c input out = tp_finish_step (tp_step68 C e c input out).
Proof. intros H. unfold tp_next. rewrite H. reflexivity. Qed.
Lemma tp_next_3 e c input out : t_step c = 3 -> tp_next C e c input out = tp_finish_step (tp_step68 C e c input out).
Proof. intros H. unfold tp_next. rewrite H. reflexivity. Qed.
Lemma tp_next_4 e c input out : t_step c = 4 -> tp_next C e c input out = tp_finish_step (tp_step12 C e c input out).
Proof. intros H. unfold tp_next. rewrite H. reflexivity. Qed.
Lemma tp_next_5 e c input out : t_step c = 5 -> tp_next C e c input out = tp_finish_step (tp_step14 C e c input out).
Proof. intros H. unfold tp_next. rewrite H. reflexivity. Qed.
Lemma tp_next_6 e c input out : t_step c = 6 -> tp_next C e c input out =
  do (ret, c, out) <- tp_step16 C e c input out ;;
  Ok (ret, tp_step_set c (t_step c + (if zlen (t_complaints c) =? 0 then 2 else 1)) (t_step c), out).
Proof. intros H. unfold tp_next. rewrite H. reflexivity. Qed.
Lemma tp_next_7 e c input out : t_step c = 7 -> tp_next C e c input out = tp_finish_step (tp_step18 C e c input out).
Proof. intros H. unfold tp_next. rewrite H. reflexivity. Qed.
Lemma tp_next_8 e c input out : t_step c = 8 -> tp_next C e c input out = tp_finish_step (tp_step20 C e c input out).
Proof. intros H. unfold tp_next. rewrite H. reflexivity. Qed.
Lemma tp_next_9 e c input out : t_step c = 9 -> tp_next C e c input out = tp_finish_step (tp_step22 C e c input out).
Proof. intros H. unfold tp_next. rewrite H. reflexivity. Qed.
Lemma tp_next_other e c input out : t_step c < 0 \/ 9 < t_step c -> tp_next C e c input out = Ok (99, c, out).
Proof. intros H. unfold tp_next. rewrite match_default by assumption. reflexivity. Qed.

(** what one call of tpdkg_tp_next does to the state *)
Definition tp_moves (c : tp) (ret : Z) (c' : tp) : Prop := exists c1, tp_ext c c1 /\
  ((t_step c = 6 /\ c' = tp_step_set c1 (if zlen (t_complaints c1) =? 0 then 8 else 7) 6) \/
   (t_step c <> 6 /\ ret = 0 /\ c' = tp_step_set c1 (t_step c + 1) (t_step c)) \/
   (t_step c <> 6 /\ ret <> 0 /\ (c' = tp_step_set c1 99 (t_step c) \/ (t_step c = 7 \/ t_step c = 8) /\ ret = 3 /\ c' = tp_step_set c1 99 99))).

Lemma finish_moves c r ret c' out' : t_step c <> 6 ->
  (forall a b d, r = Ok (a, b, d) -> tp_ext c b \/ (t_step c = 7 \/ t_step c = 8) /\ a = 3 /\ exists c1, tp_ext c c1 /\ b = tp_step_set c1 99 (t_prev c1)) ->
  tp_finish_step r = Ok (ret, c', out') -> tp_moves c ret c'.
Proof.
  intros H6 Hr E. unfold tp_finish_step in E. inv E. destruct (Hr _ _ _ eq_refl) as [X|(H78 & -> & c1 & X & ->)].
  - exists t. split; [assumption|]. right. rewrite (x_step _ _ X). destruct (Z.eqb_spec ret 0); [left|right]; auto.
  - exists c1. split; [assumption|]. right. right. split; [assumption|]. split; [lia|]. right. split; [assumption|]. split; [reflexivity|].
    destruct c1; reflexivity.
Qed.

Lemma tp_next_moves e c input out ret c' out' : tp_next C e c input out = Ok (ret, c', out') ->
  (t_step c < 0 \/ 9 < t_step c) /\ ret = 99 /\ c' = c /\ out' = out \/ 0 <= t_step c <= 9 /\ tp_moves c ret c'.
Proof.
  intros H.
  assert (D : (t_step c < 0 \/ 9 < t_step c) \/ 0 <= t_step c <= 9) by lia. destruct D as [D|D].
  - left. split; [assumption|]. rewrite tp_next_other in H by assumption. injection H as <- <- <-. auto.
  - right. split; [assumption|].
    assert (E : t_step c = 0 \/ t_step c = 1 \/ t_step c = 2 \/ t_step c = 3 \/ t_step c = 4 \/ t_step c = 5 \/ t_step c = 6 \/ t_step c = 7 \/ t_step c = 8 \/ t_step c = 9) by lia.
    destruct E as [E|[E|[E|[E|[E|[E|[E|[E|[E|E]]]]]]]]].
    + rewrite tp_next_0 in H by assumption. eapply finish_moves; [lia| |exact H]. intros. left. eapply ext_step1; eassumption.
    + rewrite tp_next_1 in H by assumption. eapply finish_moves; [lia| |exact H]. intros. left. eapply ext_step4; eassumption.
    + rewrite tp_next_2 in H by assumption. eapply finish_moves; [lia| |exact H]. intros. left. eapply ext_step68; eassumption.
    + rewrite tp_next_3 in H by assumption. eapply finish_moves; [lia| |exact H]. intros. left. eapply ext_step68; eassumption.
    + rewrite tp_next_4 in H by assumption. eapply finish_moves; [lia| |exact H]. intros. left. eapply ext_step12; eassumption.
    + rewrite tp_next_5 in H by assumption. eapply finish_moves; [lia| |exact H]. intros. left. eapply ext_step14; eassumption.
    + rewrite tp_next_6 in H by assumption. inv H. match goal with Q : tp_step16 _ _ _ _ _ = Ok _ |- _ => pose proof (ext_step16 C _ _ _ _ _ _ _ Q) as X end. exists t. split; [assumption|].
      left. split; [assumption|]. rewrite (x_step _ _ X), E. f_equal. destruct (zlen (t_complaints t) =? 0); reflexivity.
    + rewrite tp_next_7 in H by assumption. eapply finish_moves; [lia| |exact H]. intros ? ? ? E'.
      apply ext_step18 in E'. destruct E' as (c1 & X & [(-> & _)|(-> & ->)]); [left; assumption|right]. eauto 6.
    + rewrite tp_next_8 in H by assumption. eapply finish_moves; [lia| |exact H]. intros ? ? ? E'.
      apply ext_step20 in E'. destruct E' as (c1 & X & [(-> & _)|(-> & ->)]); [left; assumption|right]. eauto 6.
    + rewrite tp_next_9 in H by assumption. eapply finish_moves; [lia| |exact H]. intros. left. eapply ext_step22; eassumption.
Qed.

(** ** Progress *)
Theorem tp_forward e c input out ret c' out' : 0 <= t_step c < 10 ->
  tp_next C e c input out = Ok (ret, c', out') -> t_step c < t_step c'.
Proof.
  intros H E. apply tp_next_moves in E. destruct E as [(D & _)|(D & c1 & X & E)]; [lia|].
  destruct E as [(E & ->)|[(E & _ & ->)|(E & _ & [->|(_ & _ & ->)])]]; cbn; try lia. destruct (_ =? 0); lia.
Qed.

Theorem tp_stays_done e c input out : 10 <= t_step c -> tp_next C e c input out = Ok (99, c, out).
Proof. intros H. apply tp_next_other. lia. Qed.

Lemma final_cons {X} (c : X) o outs : final c (o :: outs) = final (snd (fst o)) outs.
Proof.
  unfold final. cbn [map last]. destruct outs as [|o' outs]; cbn [map]; [reflexivity|].
  set (l := snd (fst o') :: map _ outs). assert (Hl : l <> []) by discriminate. clearbody l.
  induction l as [|a l IH]; [contradiction|]. destruct l as [|b l]; [reflexivity|]. cbn [last]. apply IH. discriminate.
Qed.

Lemma tp_run_step calls : forall c outs, 0 <= t_step c -> tp_run C c calls = Ok outs ->
  10 <= t_step (final c outs) \/ t_step c + Z.of_nat (length calls) <= t_step (final c outs).
Proof.
  induction calls as [|[[e input] out] calls IH]; intros c outs H0 H; cbn [tp_run] in H.
  - injection H as <-. right. change (final c []) with c. cbn [length]. lia.
  - inv H. rewrite final_cons. cbn [fst snd length].
    destruct (Z.ltb_spec (t_step c) 10) as [Hs|Hs].
    + pose proof (tp_forward _ _ _ _ _ _ _ (conj H0 Hs) E) as F. destruct (IH t y0 ltac:(lia) E2); [left; assumption|right; lia].
    + rewrite tp_stays_done in E by assumption. injection E as <- <- <-. left.
      destruct (IH c y0 H0 E2); [assumption|lia].
Qed.

Theorem tp_finishes c calls outs : 0 <= t_step c -> (10 <= length calls)%nat -> tp_run C c calls = Ok outs ->
  tp_not_done (final c outs) = false.
Proof.
  intros H0 Hl H. unfold tp_not_done. apply Z.ltb_ge. destruct (tp_run_step calls c outs H0 H); lia.
Qed.

(** ** Errors *)
Theorem tp_error_ends e c input out ret c' out' : t_step c <> 6 -> tp_next C e c input out = Ok (ret, c', out') -> ret <> 0 ->
  0 <= t_step c -> tp_not_done c' = false.
Proof.
  intros H6 E Hr H0. apply tp_next_moves in E. unfold tp_not_done. apply Z.ltb_ge.
  destruct E as [(D & _ & -> & _)|(D & c1 & X & E)]; [lia|].
  destruct E as [(E & _)|[(_ & E & _)|(E & _ & [->|(_ & _ & ->)])]]; try contradiction; cbn; lia.
Qed.

(** whatever the outcome of step 6, the trusted party continues *)
Theorem tp_step6_continues e c input out ret c' out' : t_step c = 6 -> tp_next C e c input out = Ok (ret, c', out') ->
  tp_not_done c' = true.
Proof.
  intros H6 E. apply tp_next_moves in E. unfold tp_not_done. apply Z.ltb_lt.
  destruct E as [(D & _)|(D & c1 & X & E)]; [lia|].
  destruct E as [(E & ->)|[(E & _)|(E & _)]]; try contradiction. cbn. destruct (_ =? 0); lia.
Qed.

(** ** Cheaters *)
Theorem tp_cheaters_step e c input out ret c' out' : tp_next C e c input out = Ok (ret, c', out') ->
  t_chmax c' = t_chmax c /\ (zlen (t_cheaters c) <= t_chmax c -> zlen (t_cheaters c') <= t_chmax c) /\
  exists l, t_cheaters c' = t_cheaters c ++ l.
Proof.
  intros E. apply tp_next_moves in E. destruct E as [(_ & _ & -> & _)|(_ & c1 & X & E)].
  - split; [reflexivity|]. split; [auto|]. exists []. rewrite app_nil_r. reflexivity.
  - assert (Ec : t_chmax c' = t_chmax c1 /\ t_cheaters c' = t_cheaters c1).
    { destruct E as [(_ & ->)|[(_ & _ & ->)|(_ & _ & [->|(_ & _ & ->)])]]; auto. }
    destruct Ec as (-> & ->). split; [apply (x_chmax _ _ X)|]. split; [|apply (x_cheaters _ _ X)]. rewrite <- (x_chmax _ _ X). pose proof (x_chlen _ _ X) as Q. rewrite (x_chmax _ _ X) in *. exact Q.
Qed.

Theorem tp_cheaters_history calls : forall c outs, tp_run C c calls = Ok outs -> zlen (t_cheaters c) <= t_chmax c ->
  Forall (fun o => zlen (t_cheaters (snd (fst o))) <= t_chmax c /\ exists l, t_cheaters (snd (fst o)) = t_cheaters c ++ l) outs.
Proof.
  induction calls as [|[[e input] out] calls IH]; intros c outs H H0; cbn [tp_run] in H.
  - injection H as <-. constructor.
  - inv H. pose proof (tp_cheaters_step _ _ _ _ _ _ _ E) as (F1 & F2 & l0 & F3). constructor; cbn [fst snd]; [split; [auto|eexists; exact F3]|].
    specialize (IH t y0 E2). rewrite F1 in IH. specialize (IH (F2 H0)). eapply Forall_impl; [|exact IH].
    intros o (Ha & l' & Hb). split; [assumption|]. exists (l0 ++ l'). rewrite Hb, F3, app_assoc. reflexivity.
Qed.

(** ** The peers *)
Lemma peer_next_0 e c input out : p_step C c = 0 -> peer_next C e c input out = peer_finish_step C (peer_step23 C e c input out).
Proof. intros H. unfold peer_next. rewrite H. reflexivity. Qed.
Lemma peer_next_1 e c input out : p_step C c = 1 -> peer_next C e c input out = peer_finish_step C (peer_step5 C e c input out).
Proof. intros H. unfold peer_next. rewrite H. reflexivity. Qed.
Lemma peer_next_2 e c input out : p_step C c = 2 -> peer_next C e c input out = peer_finish_step C (peer_step7 C e c input out).
Proof. intros H. unfold peer_next. rewrite H. reflexivity. Qed.
Lemma peer_next_3 e c input out : p_step C c = 3 -> peer_next C e c input out = peer_finish_step C (peer_step911 C e c input out).
Proof. intros H. unfold peer_next. rewrite H. reflexivity. Qed.
Lemma peer_next_4 e c input out : p_step C c = 4 -> peer_next C e c input out = peer_finish_step C (peer_step13 C e c input out).
Proof. intros H. unfold peer_next. rewrite H. reflexivity. Qed.
Lemma peer_next_5 e c input out : p_step C c = 5 -> peer_next C e c input out = peer_finish_step C (peer_step15 C e c input out).
Proof. intros H. unfold peer_next. rewrite H. reflexivity. Qed.
Lemma peer_next_6 e c input out : p_step C c = 6 -> peer_next C e c input out = peer_finish_step C (peer_step17 C e c input out).
Proof. intros H. unfold peer_next. rewrite H. reflexivity. Qed.
Lemma peer_next_7 e c input out : p_step C c = 7 -> peer_next C e c input out = peer_finish_step C (peer_step17a C e c input out).
Proof. intros H. unfold peer_next. rewrite H. reflexivity. Qed.
Lemma peer_next_8 e c input out : p_step C c = 8 -> peer_next C e c input out = peer_finish_step C (peer_step19 C e c input out).
Proof. intros H. unfold peer_next. rewrite H. reflexivity. Qed.
Lemma peer_next_9 e c input out : p_step C c = 9 -> peer_next C e c input out = peer_finish_step C (peer_step21 C e c input out).
Proof. intros H. unfold peer_next. rewrite H. reflexivity. Qed.
Lemma peer_next_10 e c input out : p_step C c = 10 -> peer_next C e c input out = peer_finish_step C (Ok (0, c, out)).
Proof. intros H. unfold peer_next. rewrite H. reflexivity. Qed.
Lemma peer_next_other e c input out : p_step C c < 0 \/ 10 < p_step C c ->
  peer_next C e c input out = Ok (99, peer_step_set C c 99 (p_step C c), out).
Proof. intros H. unfold peer_next. rewrite match_default10 by assumption. reflexivity. Qed.

(** what one call of tpdkg_peer_next does to the state: [c1] is the state before the step
    counters are written *)
Definition peer_moves (e : penv) (input : bytes) (c : peer C) (ret : Z) (c' : peer C) : Prop := exists c1, p_ext C c c1 /\
  ((ret <> 0 /\ c' = peer_step_set C c1 99 (p_step C c)) \/
   (ret = 0 /\ p_step C c <> 9 /\ c' = peer_step_set C c1 (p_step C c + 1) (p_step C c)) \/
   (ret = 0 /\ p_step C c = 6 /\ p_complaints C c1 = [] /\ c' = peer_step_set C c1 8 7) \/
   (ret = 0 /\ p_step C c = 7 /\ c' = peer_step_set C c1 100 99) \/
   (ret = 0 /\ p_step C c = 9 /\ p_xshares C c1 = p_xshares C c /\
    c' = peer_step_set C (peer_share_set C c1 (mkShare (p_index C c) (dkg_finish (firstn (Z.to_nat (p_n C c)) (p_xshares C c))))) 10 9 /\
    exists last', recv_msg (cS C) input 0 (zlen input) 21 0 255 (p_tp_pk C c) (p_sid C c) (p_eps C c) (p_tp_last C c) (pe_r e 0) = Ok (0, last') /\
       rd input hdr_SIZE 2 = Ok str_OK)).

Lemma pfinish_inv r ret c' out' : peer_finish_step C r = Ok (ret, c', out') -> exists p, r = Ok (ret, p, out') /\
  c' = peer_step_set C p (if ret =? 0 then p_step C p + 1 else 99) (p_step C p).
Proof. intros E. unfold peer_finish_step in E. inv E. eexists. split; reflexivity. Qed.

Lemma pfinish_moves e input c r ret c' out' : p_step C c <> 9 ->
  (forall a b d, r = Ok (a, b, d) -> p_ext C c b \/
     a = 0 /\ p_step C c = 6 /\ (exists c1, p_ext C c c1 /\ p_complaints C c1 = [] /\ b = peer_step_set C c1 7 6) \/
     a = 0 /\ p_step C c = 7 /\ (exists c1, p_ext C c c1 /\ b = peer_step_set C c1 99 (p_prev C c1))) ->
  peer_finish_step C r = Ok (ret, c', out') -> peer_moves e input c ret c'.
Proof.
  intros H9 Hr E. apply pfinish_inv in E. destruct E as (p & -> & ->). destruct (Hr _ _ _ eq_refl) as [X|[(-> & H6 & c1 & X & Hc & ->)|(-> & H7 & c1 & X & ->)]].
  - exists p. split; [assumption|]. rewrite (y_step C _ _ X). destruct (Z.eqb_spec ret 0); [right; left|left]; auto.
  - exists c1. split; [assumption|]. right. right. left. repeat split; auto.
  - exists c1. split; [assumption|]. right. right. right. left. repeat split; auto.
Qed.

Lemma peer_next_moves e c input out ret c' out' : peer_next C e c input out = Ok (ret, c', out') ->
  (p_step C c < 0 \/ 10 < p_step C c) /\ ret = 99 /\ c' = peer_step_set C c 99 (p_step C c) /\ out' = out \/
  0 <= p_step C c <= 10 /\ peer_moves e input c ret c'.
Proof.
  intros H.
  assert (D : (p_step C c < 0 \/ 10 < p_step C c) \/ 0 <= p_step C c <= 10) by lia. destruct D as [D|D].
  - left. split; [assumption|]. rewrite peer_next_other in H by assumption. injection H as <- <- <-. auto.
  - right. split; [assumption|].
    assert (E : p_step C c = 0 \/ p_step C c = 1 \/ p_step C c = 2 \/ p_step C c = 3 \/ p_step C c = 4 \/ p_step C c = 5 \/ p_step C c = 6 \/ p_step C c = 7 \/ p_step C c = 8 \/ p_step C c = 9 \/ p_step C c = 10) by lia.
    destruct E as [E|[E|[E|[E|[E|[E|[E|[E|[E|[E|E]]]]]]]]]].
    + rewrite peer_next_0 in H by assumption. eapply pfinish_moves; [lia| |exact H]. intros. left. eapply pext_step23; eassumption.
    + rewrite peer_next_1 in H by assumption. eapply pfinish_moves; [lia| |exact H]. intros. left. eapply pext_step5; eassumption.
    + rewrite peer_next_2 in H by assumption. eapply pfinish_moves; [lia| |exact H]. intros. left. eapply pext_step7; eassumption.
    + rewrite peer_next_3 in H by assumption. eapply pfinish_moves; [lia| |exact H]. intros. left. eapply pext_step911; eassumption.
    + rewrite peer_next_4 in H by assumption. eapply pfinish_moves; [lia| |exact H]. intros. left. eapply pext_step13; eassumption.
    + rewrite peer_next_5 in H by assumption. eapply pfinish_moves; [lia| |exact H]. intros. left. eapply pext_step15; eassumption.
    + rewrite peer_next_6 in H by assumption. eapply pfinish_moves; [lia| |exact H]. intros ? ? ? E'.
      apply pext_step17 in E'. destruct E' as (c1 & X & [->|(-> & -> & Hc)]); [left; assumption|right; left].
      split; [reflexivity|]. split; [assumption|]. exists c1. split; [assumption|]. split; [assumption|].
      rewrite (y_step C _ _ X), E. reflexivity.
    + rewrite peer_next_7 in H by assumption. eapply pfinish_moves; [lia| |exact H]. intros ? ? ? E'.
      apply pext_step17a in E'. destruct E' as [->|(-> & ->)]; [left; apply pext_refl|right; right].
      split; [reflexivity|]. split; [assumption|]. exists c. split; [apply pext_refl|reflexivity].
    + rewrite peer_next_8 in H by assumption. eapply pfinish_moves; [lia| |exact H]. intros ? ? ? E'. apply pext_step19 in E'. subst. left. apply pext_refl.
    + rewrite peer_next_9 in H by assumption. apply pfinish_inv in H. destruct H as (p & E0 & ->). apply pext_step21 in E0.
      destruct E0 as (c1 & X & Hx & [(-> & Hr)|(-> & -> & last' & H1 & H2)]); exists c1; (split; [assumption|]).
      * left. split; [assumption|]. rewrite (y_step C _ _ X). destruct (Z.eqb_spec ret 0); [contradiction|reflexivity].
      * right. right. right. right. split; [reflexivity|]. split; [assumption|]. split; [assumption|]. split; [|eexists; split; eassumption].
        rewrite (y_index C _ _ X), (y_n C _ _ X), Hx by lia. cbn [Z.eqb p_step peer_share_set]. rewrite (y_step C _ _ X), E. reflexivity.
    + rewrite peer_next_10 in H by assumption. eapply pfinish_moves; [lia| |exact H]. intros ? ? ? E'. injection E' as <- <- <-. left. apply pext_refl.
Qed.

Theorem peer_forward e c input out ret c' out' : 0 <= p_step C c < 11 ->
  peer_next C e c input out = Ok (ret, c', out') -> p_step C c < p_step C c'.
Proof.
  intros H E. apply peer_next_moves in E. destruct E as [(D & _)|(D & c1 & X & E)]; [lia|].
  destruct E as [(E & ->)|[(E & _ & ->)|[(E & E6 & _ & ->)|[(E & E7 & ->)|(E & E9 & _ & -> & _)]]]]; cbn; lia.
Qed.

Theorem peer_stays_done e c input out : 11 <= p_step C c ->
  exists c', peer_next C e c input out = Ok (99, c', out) /\ 11 <= p_step C c'.
Proof. intros H. rewrite peer_next_other by lia. eexists. split; [reflexivity|]. cbn. lia. Qed.

Lemma peer_run_step calls : forall c outs, 0 <= p_step C c -> peer_run C c calls = Ok outs ->
  11 <= p_step C (final c outs) \/ p_step C c + Z.of_nat (length calls) <= p_step C (final c outs).
Proof.
  induction calls as [|[[e input] out] calls IH]; intros c outs H0 H; cbn [peer_run] in H.
  - injection H as <-. right. change (final c []) with c. cbn [length]. lia.
  - inv H. rewrite final_cons. cbn [fst snd length].
    destruct (Z.ltb_spec (p_step C c) 11) as [Hs|Hs].
    + pose proof (peer_forward _ _ _ _ _ _ _ (conj H0 Hs) E) as F. match goal with Q : peer_run C ?q calls = Ok y0 |- _ => destruct (IH q y0 ltac:(lia) Q); [left; assumption|right; lia] end.
    + destruct (peer_stays_done e c input out Hs) as (c' & E' & Hc'). rewrite E' in E. injection E as <- <- <-. left.
      match goal with Q : peer_run C ?q calls = Ok y0 |- _ => destruct (IH q y0 ltac:(lia) Q); [assumption|lia] end.
Qed.

Theorem peer_finishes c calls outs : 0 <= p_step C c -> (11 <= length calls)%nat -> peer_run C c calls = Ok outs ->
  peer_not_done C (final c outs) = false.
Proof.
  intros H0 Hl H. unfold peer_not_done. apply Z.ltb_ge. destruct (peer_run_step calls c outs H0 H); lia.
Qed.

Theorem peer_error_ends e c input out ret c' out' : peer_next C e c input out = Ok (ret, c', out') -> ret <> 0 ->
  peer_not_done C c' = false.
Proof.
  intros E Hr. apply peer_next_moves in E. unfold peer_not_done. apply Z.ltb_ge.
  destruct E as [(D & _ & -> & _)|(D & c1 & X & E)]; [cbn; lia|].
  destruct E as [(_ & ->)|[(E & _)|[(E & _)|[(E & _)|(E & _)]]]]; try contradiction. cbn; lia.
Qed.

(** after it is done a peer writes nothing and reports an error to every further call *)
Theorem peer_done_silent calls : forall c, 11 <= p_step C c ->
  exists outs, peer_run C c calls = Ok outs /\
    Forall2 (fun call o => fst (fst o) = 99 /\ snd o = snd call /\ peer_not_done C (snd (fst o)) = false) calls outs.
Proof.
  induction calls as [|[[e input] out] calls IH]; intros c H; cbn [peer_run].
  - exists []. split; [reflexivity|constructor].
  - destruct (peer_stays_done e c input out H) as (c' & E & H'). rewrite E. cbn [bind].
    destruct (IH c' H') as (outs & -> & HF). cbn [bind]. eexists. split; [reflexivity|]. constructor; [|assumption].
    cbn. repeat split. unfold peer_not_done. apply Z.ltb_ge. assumption.
Qed.

Theorem tp_done_silent calls : forall c, 10 <= t_step c ->
  exists outs, tp_run C c calls = Ok outs /\ Forall2 (fun call o => o = (99, c, snd call)) calls outs.
Proof.
  induction calls as [|[[e input] out] calls IH]; intros c H; cbn [tp_run].
  - exists []. split; [reflexivity|constructor].
  - rewrite tp_stays_done by assumption. cbn [bind].
    destruct (IH c H) as (outs & -> & HF). cbn [bind]. eexists. split; [reflexivity|]. constructor; [auto|assumption].
Qed.

(** ** The share *)
Theorem peer_share_step e c input out ret c' out' : peer_next C e c input out = Ok (ret, c', out') ->
  p_share C c' = p_share C c \/
  ret = 0 /\ p_step C c = 9 /\
  p_share C c' = mkShare (p_index C c) (dkg_finish (firstn (Z.to_nat (p_n C c)) (p_xshares C c))) /\
  exists last', recv_msg (cS C) input 0 (zlen input) 21 0 255 (p_tp_pk C c) (p_sid C c) (p_eps C c) (p_tp_last C c) (pe_r e 0) = Ok (0, last') /\
       rd input hdr_SIZE 2 = Ok str_OK.
Proof.
  intros E. apply peer_next_moves in E. destruct E as [(D & _ & -> & _)|(D & c1 & X & E)]; [left; reflexivity|].
  pose proof (y_share C _ _ X) as Hs.
  destruct E as [(E & ->)|[(E & _ & ->)|[(E & E6 & _ & ->)|[(E & E7 & ->)|(E & E9 & _ & -> & HO)]]]]; try (left; exact Hs).
  right. repeat split; auto.
Qed.

(** ** A recorded cheater excludes success *)
Lemma success_no_cheaters e c input out c' out' : 1 <= t_step c <= 9 -> tp_next C e c input out = Ok (0, c', out') ->
  t_cheaters c' = [].
Proof.
  intros Hs H.
  assert (Z0 : forall l : list cheater, (0 <? zlen l) = false -> l = []).
  { intros l E. apply Z.ltb_ge in E. apply zlen_0. pose proof (zlen_nonneg l). lia. }
  assert (F : forall r, tp_finish_step r = Ok (0, c', out') ->
              (forall c1 o1, r = Ok (0, c1, o1) -> t_cheaters c1 = []) -> t_cheaters c' = []).
  { intros r E Hr. unfold tp_finish_step in E. inv E. cbn. eapply Hr. reflexivity. }
  assert (E : t_step c = 1 \/ t_step c = 2 \/ t_step c = 3 \/ t_step c = 4 \/ t_step c = 5 \/ t_step c = 6 \/ t_step c = 7 \/ t_step c = 8 \/ t_step c = 9) by lia.
  destruct E as [E|[E|[E|[E|[E|[E|[E|[E|E]]]]]]]].
  - rewrite tp_next_1 in H by assumption. eapply F; [exact H|]. clear H. intros c1 o1 H. unfold tp_step4 in H. inv H; cbn; auto.
    match goal with Q : loopM _ _ _ = Ok (Return 0 _) |- _ => rename Q into HQ end.
    exfalso. refine (loopM_code (fun r => r <> 0) _ _ _ _ _ _ HQ eq_refl). intros i [[a b] w] r s' E'. unfold tp_step4_body in E'. inv E'; lia.
  - rewrite tp_next_2 in H by assumption. eapply F; [exact H|]. clear H. intros c1 o1 H. unfold tp_step68 in H. inv H; cbn; auto.
    + match goal with Q : (if ?b then 6 else 0) = 0 |- _ => destruct b eqn:?; [discriminate|auto] end.
    + match goal with Q : loopM _ _ _ = Ok (Return 0 _) |- _ => rename Q into HQ end.
      exfalso. refine (loopM_code (fun r => r <> 0) _ _ _ _ _ _ HQ eq_refl). intros i [[a b] w] r s' E'. unfold tp_step68_body in E'. inv E'; lia.
  - rewrite tp_next_3 in H by assumption. eapply F; [exact H|]. clear H. intros c1 o1 H. unfold tp_step68 in H. inv H; cbn; auto.
    + match goal with Q : (if ?b then 6 else 0) = 0 |- _ => destruct b eqn:?; [discriminate|auto] end.
    + match goal with Q : loopM _ _ _ = Ok (Return 0 _) |- _ => rename Q into HQ end.
      exfalso. refine (loopM_code (fun r => r <> 0) _ _ _ _ _ _ HQ eq_refl). intros i [[a b] w] r s' E'. unfold tp_step68_body in E'. inv E'; lia.
  - rewrite tp_next_4 in H by assumption. eapply F; [exact H|]. clear H. intros c1 o1 H. unfold tp_step12 in H. inv H; cbn; auto.
    match goal with Q : loopM _ _ _ = Ok (Return 0 _) |- _ => rename Q into HQ end.
    exfalso. refine (loopM_code (fun r => r <> 0) _ _ _ _ _ _ HQ eq_refl). intros i [[a b] w] r s' E'. unfold tp_step12_body in E'. inv E'; lia.
  - rewrite tp_next_5 in H by assumption. eapply F; [exact H|]. clear H. intros c1 o1 H. unfold tp_step14 in H. inv H; cbn; auto.
    match goal with Q : loopM _ _ _ = Ok (Return 0 _) |- _ => rename Q into HQ end.
    exfalso. refine (loopM_code (fun r => r <> 0) _ _ _ _ _ _ HQ eq_refl). intros i [[a b] w] r s' E'. unfold tp_step14_body in E'. inv E'; lia.
  - rewrite tp_next_6 in H by assumption. apply bind_ok in H. destruct H as ([[r1 c1] o1] & H & H'). injection H' as -> <- <-. cbn.
    unfold tp_step16 in H. inv H; cbn; auto.
    match goal with Q : loopM _ _ _ = Ok (Return 0 _) |- _ => rename Q into HQ end.
    exfalso. refine (loopM_code (fun r => r <> 0) _ _ _ _ _ _ HQ eq_refl). intros i [[a b] w] r s' E'. unfold tp_step16_body in E'. inv E'; try lia.
    match goal with Q : loopM _ _ _ = Ok (Return _ _) |- _ => rename Q into HQ2 end.
    refine (loopM_code (fun r => r <> 0) _ _ _ _ _ _ HQ2). intros k s1 r1 s2 E'. unfold tp_step16_complaint in E'. inv E'; lia.
  - rewrite tp_next_7 in H by assumption. eapply F; [exact H|]. clear H. intros c1 o1 H. apply ext_step18 in H.
    destruct H as (c2 & _ & [(_ & H)|(_ & H)]); lia.
  - rewrite tp_next_8 in H by assumption. eapply F; [exact H|]. clear H. intros c1 o1 H. unfold tp_step20 in H. inv H; cbn.
    + match goal with Q : (zlen _ =? 0) = true |- _ => apply Z.eqb_eq in Q; apply zlen_0 in Q; exact Q end.
    + match goal with Q : loopM _ _ _ = Ok (Return 0 _) |- _ => rename Q into HQ end.
      exfalso. refine (loopM_code (fun r => r <> 0) _ _ _ _ _ _ HQ eq_refl). intros i [a b] r s' E'. unfold tp_step20_body in E'. inv E'; lia.
  - rewrite tp_next_9 in H by assumption. eapply F; [exact H|]. clear H. intros c1 o1 H. unfold tp_step22 in H. inv H; cbn; auto.
    + match goal with Q : (if ?b then 5 else 0) = 0 |- _ => destruct b eqn:?; [discriminate|auto] end.
    + match goal with Q : loopM _ _ _ = Ok (Return 0 _) |- _ => rename Q into HQ end.
      exfalso. refine (loopM_code (fun r => r <> 0) _ _ _ _ _ _ HQ eq_refl). intros i a r s' E'. unfold tp_step22_body in E'. inv E'; lia.
Qed.

(** along every history: a call that reports success leaves, and found, an empty cheater list *)
Theorem cheater_excludes_success calls : forall c outs, 1 <= t_step c -> tp_run C c calls = Ok outs ->
  t_cheaters c <> [] -> Forall (fun o => fst (fst o) <> 0) outs.
Proof.
  induction calls as [|[[e input] out] calls IH]; intros c outs Hs H Hc; cbn [tp_run] in H.
  - injection H as <-. constructor.
  - apply bind_ok in H. destruct H as ([[ret c1] o1] & E & H). apply bind_ok in H. destruct H as (rest & E2 & H). injection H as <-.
    destruct (tp_cheaters_step _ _ _ _ _ _ _ E) as (_ & _ & l & Hl).
    assert (Hne : t_cheaters c1 <> []). { rewrite Hl. intros Q. apply app_eq_nil in Q. tauto. }
    constructor; cbn [fst].
    + intros ->. destruct (Z.le_gt_cases (t_step c) 9) as [Hle|Hgt].
      * apply success_no_cheaters in E; [contradiction|lia].
      * rewrite tp_next_other in E by lia. discriminate.
    + eapply IH; [|exact E2|exact Hne]. destruct (Z.lt_ge_cases (t_step c) 10).
      * assert (Hr : 0 <= t_step c < 10) by lia. pose proof (tp_forward _ _ _ _ _ _ _ Hr E). lia.
      * rewrite tp_stays_done in E by assumption. injection E as <- <- <-. assumption.
Qed.

(** ** The share over a history *)
Theorem peer_share_history calls : forall c outs, peer_run C c calls = Ok outs ->
  p_share C (final c outs) = p_share C c \/
  exists pre e input out post opre last',
    calls = pre ++ (e, input, out) :: post /\ peer_run C c pre = Ok opre /\
    let c0 := final c opre in
    p_step C c0 = 9 /\
    recv_msg (cS C) input 0 (zlen input) 21 0 255 (p_tp_pk C c0) (p_sid C c0) (p_eps C c0) (p_tp_last C c0) (pe_r e 0) = Ok (0, last') /\
    rd input hdr_SIZE 2 = Ok str_OK /\
    p_share C (final c outs) = mkShare (p_index C c0) (dkg_finish (firstn (Z.to_nat (p_n C c0)) (p_xshares C c0))).
Proof.
  induction calls as [|[[e input] out] calls IH]; intros c outs H; cbn [peer_run] in H.
  - injection H as <-. left. reflexivity.
  - apply bind_ok in H. destruct H as ([[ret c1] o1] & E & H). apply bind_ok in H. destruct H as (rest & E2 & H). injection H as <-.
    rewrite final_cons. cbn [fst snd].
    destruct (IH c1 rest E2) as [Hsh|(pre & e' & input' & out' & post & opre & last' & -> & Hpre & Hrest)].
    + destruct (peer_share_step _ _ _ _ _ _ _ E) as [Hs1|(-> & Hs9 & Hshare & last' & Hr & HO)].
      * left. congruence.
      * right. exists [], e, input, out, calls, [], last'. cbn [app]. split; [reflexivity|]. split; [reflexivity|].
        change (final c []) with c. cbv zeta. repeat split; try assumption. congruence.
    + right. exists ((e, input, out) :: pre), e', input', out', post, ((ret, c1, o1) :: opre), last'.
      split; [reflexivity|]. split; [cbn [peer_run]; rewrite E; cbn [bind]; rewrite Hpre; reflexivity|].
      rewrite final_cons. exact Hrest.
Qed.

Lemma finish_sum l : Forall (fun s => 0 <= s_value s < 2 ^ 255) l -> dkg_finish l = zsum (map s_value l) mod L.
Proof.
  intros H. induction l as [|s l IH] using rev_ind; [reflexivity|].
  apply Forall_app in H. destruct H as (H1 & H2). inversion H2 as [|? ? Hs _]; subst.
  rewrite finish_snoc by assumption. rewrite (IH H1), map_app. unfold zsum at 2. rewrite fold_right_app. cbn [map fold_right].
  assert (G : forall m x, fold_right Z.add x m = zsum m + x). { induction m as [|y m IHm]; intros x; cbn; [lia|]. rewrite IHm. unfold zsum. lia. }
  rewrite G, Z.add_0_r.
  apply Zplus_mod_idemp_l.
Qed.

Theorem peer_error_silent e c input out ret c' out' : peer_next C e c input out = Ok (ret, c', out') -> ret <> 0 ->
  peer_not_done C c' = false /\
  forall calls, exists outs, peer_run C c' calls = Ok outs /\
    Forall2 (fun call o => fst (fst o) = 99 /\ snd o = snd call /\ peer_not_done C (snd (fst o)) = false) calls outs.
Proof.
  intros E Hr. pose proof (peer_error_ends _ _ _ _ _ _ _ E Hr) as H. split; [assumption|]. intros calls.
  apply peer_done_silent. unfold peer_not_done in H. apply Z.ltb_ge in H. assumption.
Qed.

Theorem tp_error_silent e c input out ret c' out' : t_step c <> 6 -> 0 <= t_step c ->
  tp_next C e c input out = Ok (ret, c', out') -> ret <> 0 ->
  tp_not_done c' = false /\
  forall calls, exists outs, tp_run C c' calls = Ok outs /\ Forall2 (fun call o => o = (99, c', snd call)) calls outs.
Proof.
  intros H6 H0 E Hr. pose proof (tp_error_ends _ _ _ _ _ _ _ H6 E Hr H0) as H. split; [assumption|]. intros calls.
  apply tp_done_silent. unfold tp_not_done in H. apply Z.ltb_ge in H. assumption.
Qed.

Theorem share_only_after_ok calls c outs : peer_run C c calls = Ok outs ->
  p_share C (final c outs) = p_share C c \/
  exists pre e input out post opre last',
    calls = pre ++ (e, input, out) :: post /\ peer_run C c pre = Ok opre /\
    let c0 := final c opre in
    p_step C c0 = 9 /\
    recv_msg (cS C) input 0 (zlen input) 21 0 255 (p_tp_pk C c0) (p_sid C c0) (p_eps C c0) (p_tp_last C c0) (pe_r e 0) = Ok (0, last') /\
    rd input 111 2 = Ok str_OK /\
    s_index (p_share C (final c outs)) = p_index C c0 /\
    let received := firstn (Z.to_nat (p_n C c0)) (p_xshares C c0) in
    (Forall (fun s => 0 <= s_value s < 2 ^ 255) received ->
     s_value (p_share C (final c outs)) = zsum (map s_value received) mod L).
Proof.
  intros H. destruct (peer_share_history calls c outs H) as [H1|(pre & e & input & out & post & opre & last' & Hc & Hp & H1)]; [left; assumption|].
  right. exists pre, e, input, out, post, opre, last'. split; [assumption|]. split; [assumption|].
  cbv zeta in *. destruct H1 as (A1 & A2 & A3 & A4). rewrite A4. cbn [s_index s_value]. repeat split; try assumption.
  apply finish_sum.
Qed.
End CTL.
