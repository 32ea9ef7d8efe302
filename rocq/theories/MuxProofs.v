(** Proofs about the multiplexer *)
From Coq Require Import ZArith Lia List Bool.
From Coq.Strings Require Import Byte.
From Verif Require Import Bytes Res Mem MuxModel MuxSpec.
Import ListNotations.
Open Scope list_scope.
Open Scope Z_scope.

Lemma bytes_eqb_eq a b : bytes_eqb a b = true <-> a = b.
Proof. unfold bytes_eqb. destruct (list_eq_dec _ a b); split; intros; try discriminate; try contradiction; auto. Qed.
Lemma bytes_eqb_neq a b : bytes_eqb a b = false <-> a <> b.
Proof. unfold bytes_eqb. destruct (list_eq_dec _ a b); split; intros; try discriminate; try contradiction; auto. Qed.

Lemma app_same_len {X} (a b c d : list X) : length a = length b -> a ++ c = b ++ d -> a = b /\ c = d.
Proof.
  revert b. induction a as [|x a IH]; intros [|y b] HL H; try discriminate; [auto|]. injection H as -> H. injection HL as HL.
  destruct (IH _ HL H) as (-> & ->). auto.
Qed.

(** ** One read *)
Lemma recv_all_wire evs : forall size b evs', 0 < size -> recv_all size evs = (Some b, evs') ->
  wire evs = b ++ wire evs' /\ (zlen b = size \/ zlen b < size /\ wire evs' = [] /\ evs' = []).
Proof.
  induction evs as [|[d|] evs IH]; intros size b evs' Hs H; cbn [recv_all] in H.
  - injection H as <- <-. split; [reflexivity|]. right. unfold zlen. cbn. auto.
  - destruct (Z.ltb_spec size (zlen d)) as [Hlt|Hge].
    + injection H as <- <-. cbn [wire flat_map]. rewrite app_assoc, firstn_skipn. split; [reflexivity|]. left.
      unfold zlen in *. rewrite firstn_length. lia.
    + destruct (Z.eqb_spec size (zlen d)) as [He|Hne].
      * injection H as <- <-. split; [reflexivity|]. left. lia.
      * destruct (recv_all (size - zlen d) evs) as [[m|] e] eqn:E; [|discriminate]. injection H as <- <-.
        apply IH in E; [|lia]. destruct E as (E1 & E2). cbn [wire flat_map]. fold (wire evs). rewrite E1, app_assoc. split; [reflexivity|].
        unfold zlen in *. rewrite app_length. destruct E2 as [E2|(E2 & E3 & E4)]; [left|right]; try (split; [|split]); auto; lia.
  - discriminate.
Qed.

Lemma m_read_some len p b p1 : m_read len p = (Some b, p1) ->
  0 < len /\ is_connected p = true /\ m_fd p1 = m_fd p /\ bytes_of p = b ++ bytes_of p1 /\
  ((zlen b = len /\ is_connected p1 = true) \/ (zlen b < len /\ bytes_of p1 = [] /\ is_connected p1 = false)).
Proof.
  unfold m_read. destruct (is_connected p) eqn:Hc; [|discriminate]. cbn [negb].
  destruct (Z.leb_spec len 0) as [|Hl]; [discriminate|]. destruct (recv_all len (m_in p)) as [[m|] evs] eqn:E; [|discriminate].
  intros H. injection H as -> <-. apply recv_all_wire in E; [|exact Hl]. destruct E as (E1 & E2).
  unfold bytes_of, is_connected in *. cbn [set_in m_in m_state m_fd]. split; [exact Hl|]. split; [reflexivity|]. split; [reflexivity|]. split; [exact E1|].
  destruct E2 as [E2|(E2 & E3 & E4)].
  - left. split; [exact E2|]. destruct (Z.ltb_spec (zlen b) len); [lia|reflexivity].
  - right. split; [exact E2|]. split; [exact E3|]. destruct (Z.ltb_spec (zlen b) len); [reflexivity|lia].
Qed.

(** ** Cutting a stream into messages *)
Lemma reads_snoc len s ms rest : reads len s ms rest -> Forall (fun m => zlen m = len) ms -> forall m rest', reads len rest [m] rest' ->
  reads len s (ms ++ [m]) rest'.
Proof.
  intros H. induction H as [s|m0 s ms rest Hm H IH|m0 Hm]; intros F m rest' Hr; cbn [app].
  - exact Hr.
  - constructor; [exact Hm|]. apply IH; [|exact Hr]. inversion F; assumption.
  - inversion F; subst. lia.
Qed.
Lemma reads_app_wire len s ms rest : reads len s ms rest -> s = concat ms ++ rest.
Proof.
  induction 1 as [s|m0 s ms rest Hm H IH|m0 Hm]; cbn [concat app].
  - reflexivity.
  - rewrite IH at 1. rewrite app_assoc. reflexivity.
  - rewrite !app_nil_r. reflexivity.
Qed.
Lemma reads_head len s m1 ms1 r1 : reads len s (m1 :: ms1) r1 -> forall m2 ms2 r2, reads len s (m2 :: ms2) r2 ->
  m1 = m2 /\ exists s', reads len s' ms1 r1 /\ reads len s' ms2 r2.
Proof.
  intros H1 m2 ms2 r2 H2. inversion H1 as [|x1 y1 ? ? L1 R1 E1|x1 L1 E1]; subst; inversion H2 as [|x2 y2 ? ? L2 R2 E2|x2 L2 E2]; subst.
  - unfold zlen in *. assert (m2 = m1 /\ y2 = y1) as (-> & ->). { apply app_same_len; [lia|exact E2]. } split; [reflexivity|]. exists y1. auto.
  - unfold zlen in *. rewrite app_length in L2. lia.
  - unfold zlen in *. rewrite app_length in L1. lia.
  - split; [reflexivity|]. exists []. split; constructor.
Qed.

Section GATHERING.
Variable A : Type.
Variable proc : bytes -> option A.
Variable len : Z.

Definition sinv (p0 : mpeer) (s : slot A) : Prop :=
  exists ms, reads len (bytes_of p0) ms (bytes_of (fst s)) /\ (is_connected (fst s) = true -> Forall (fun m => zlen m = len) ms) /\
  match snd s with
  | Absent => Forall (useless proc) ms
  | Value v => exists ms' m, ms = ms' ++ [m] /\ Forall (useless proc) ms' /\ m <> fail_pkt /\ proc m = Some v
  | Failed => exists ms' m, ms = ms' ++ [m] /\ Forall (useless proc) ms' /\ (m = fail_pkt \/ ms' = [] /\ proc m = None)
  end.

Lemma sinv_start p : sinv p (p, Absent).
Proof. exists []. cbn. split; [constructor|]. split; constructor. Qed.

Lemma one_read p0 p ms b p1 : reads len (bytes_of p0) ms (bytes_of p) -> (is_connected p = true -> Forall (fun m => zlen m = len) ms) ->
  m_read len p = (Some b, p1) ->
  reads len (bytes_of p0) (ms ++ [b]) (bytes_of p1) /\ (is_connected p1 = true -> Forall (fun m => zlen m = len) (ms ++ [b])).
Proof.
  intros HR HF H. apply m_read_some in H. destruct H as (Hl & Hc & _ & Hw & Hs). specialize (HF Hc). split.
  - eapply reads_snoc; [exact HR|exact HF|]. rewrite Hw. destruct Hs as [(Hs & _)|(Hs & -> & _)].
    + constructor; [exact Hs|constructor].
    + rewrite app_nil_r. constructor. exact Hs.
  - intros Hc1. destruct Hs as [(Hs & _)|(_ & _ & Hs)]; [|congruence]. apply Forall_app. split; [exact HF|]. constructor; [exact Hs|constructor].
Qed.

Lemma pending_sinv pend p s1 : visit_pending A proc len pend (p, Absent) = (true, s1) -> sinv p s1.
Proof.
  unfold visit_pending. destruct (m_fd p); [discriminate| |].
  1,2: destruct (pend =? len); [|intros H; injection H as <-; apply sinv_start];
    destruct (m_read len p) as [[b|] p1] eqn:E; [|discriminate]; intros H; injection H as <-;
    destruct (one_read p p [] b p1 (reads_none _ _) (fun _ => Forall_nil _) E) as (R & F); cbn [app] in R, F;
    exists [b]; cbn [fst snd]; split; [exact R|]; split; [exact F|];
    destruct (bytes_eqb b fail_pkt) eqn:Eb;
    [apply bytes_eqb_eq in Eb; exists [], b; auto|apply bytes_eqb_neq in Eb; destruct (proc b) eqn:Ep; exists [], b; auto].
Qed.
Lemma ready_sinv ready p0 s s1 : sinv p0 s -> visit_ready A proc len ready s = (true, s1) -> sinv p0 s1.
Proof.
  intros (ms & R & F & I). unfold visit_ready. destruct (negb (ready && in_fds A s)) eqn:Er; [intros H; injection H as <-; exists ms; auto|].
  apply negb_false_iff, andb_true_iff in Er. destruct Er as (_ & Er). unfold in_fds in Er. apply andb_true_iff in Er. destruct Er as (Er & _).
  destruct s as [p e]. unfold absent in Er. cbn [fst snd] in *. destruct e; try discriminate Er.
  destruct (m_read len p) as [[b|] p1] eqn:E; [|discriminate]. intros H. injection H as <-.
  destruct (one_read p0 p ms b p1 R F E) as (R1 & F1). exists (ms ++ [b]). cbn [fst snd]. split; [exact R1|]. split; [exact F1|].
  destruct (bytes_eqb b fail_pkt) eqn:Eb; [apply bytes_eqb_eq in Eb; exists ms, b; auto|]. apply bytes_eqb_neq in Eb.
  destruct (proc b) eqn:Ep; [exists ms, b; auto|]. apply Forall_app. split; [exact I|]. constructor; [split; assumption|constructor].
Qed.

Lemma walk_forall2 {E} (visit : E -> slot A -> bool * slot A) env l : forall i l1, walk A visit env i l = (true, l1) ->
  Forall2 (fun s s1 => exists e, visit e s = (true, s1)) l l1.
Proof.
  induction l as [|s l IH]; intros i l1 H; cbn [walk] in H; [injection H as <-; constructor|].
  destruct (visit (env i) s) as [[|] s1] eqn:Es; [|discriminate]. destruct (walk A visit env (i + 1) l) as [ok l2] eqn:El.
  injection H as -> <-. constructor; [eauto|]. eapply IH. exact El.
Qed.
Lemma forall2_comp {X Y Z0} (P : X -> Y -> Prop) (Q : Y -> Z0 -> Prop) (R : X -> Z0 -> Prop) l1 : (forall x y z, P x y -> Q y z -> R x z) ->
  forall l2 l3, Forall2 P l1 l2 -> Forall2 Q l2 l3 -> Forall2 R l1 l3.
Proof.
  intros HR. induction l1 as [|x l1 IH]; intros l2 l3 HP HQ; inversion HP; subst; inversion HQ; subst; constructor; eauto.
Qed.

Lemma rounds_sinv n ps : forall sched l o l1, rounds A proc len n sched l = (o, l1) -> Forall2 sinv ps l ->
  (exists out, o = Got out) -> Forall2 sinv ps l1 /\ o = finish A l1 /\ n <= answered A l1.
Proof.
  induction sched as [|r sched IH]; intros l o l1 H F Hg; cbn [rounds] in H.
  - destruct (Z.leb_spec n (answered A l)) as [Hn|]; [injection H as <- <-; auto|].
    destruct (negb _); injection H as <- <-; destruct Hg as (out & Hg); discriminate.
  - destruct (Z.leb_spec n (answered A l)) as [Hn|]; [injection H as <- <-; auto|].
    destruct (negb _); [injection H as <- <-; destruct Hg as (out & Hg); discriminate|].
    destruct (walk A (visit_ready A proc len) r 0 l) as [[|] l2] eqn:W; [|injection H as <- <-; destruct Hg as (out & Hg); discriminate].
    eapply IH; [exact H| |exact Hg]. apply walk_forall2 in W. eapply forall2_comp; [|exact F|exact W].
    intros p0 s s1 Hi (e & He). eapply ready_sinv; eassumption.
Qed.

Lemma start_forall2 (ps : list mpeer) : Forall2 (fun p s => s = (p, @Absent A)) ps (map (fun p => (p, Absent)) ps).
Proof. induction ps; cbn; constructor; auto. Qed.

Lemma gather_inv n pend sched ps out ps' : gather A proc len n pend sched ps = (Got out, ps') ->
  exists l, Forall2 sinv ps l /\ ps' = map fst l /\ out = map (fun s => entry_out A (snd s)) l /\ n <= answered A l /\
    (answered A l <= 0 \/ exists p v, In (p, Value v) l).
Proof.
  unfold gather. destruct (walk A (visit_pending A proc len) pend 0 _) as [[|] l] eqn:W; [|discriminate].
  apply walk_forall2 in W. destruct (rounds A proc len n sched l) as [o l1] eqn:E. intros H. injection H as -> <-.
  assert (F : Forall2 sinv ps l).
  { eapply forall2_comp; [|apply start_forall2|exact W]. intros p s s1 -> (e & He). eapply pending_sinv. exact He. }
  eapply rounds_sinv in E; [|exact F|eauto]. destruct E as (F1 & E & Hn). exists l1. split; [exact F1|]. split; [reflexivity|].
  unfold finish in E. destruct (0 <? answered A l1) eqn:H0; cbn [andb] in E.
  - match type of E with context [if ?x then _ else _] => destruct x eqn:Hf end; [discriminate|]. injection E as ->. split; [reflexivity|]. split; [exact Hn|]. right.
    assert (Hx : existsb (fun s : slot A => match snd s with Value _ => true | _ => false end) l1 = true).
    { clear - Hf. induction l1 as [|[p e] l IH]; [discriminate|]. cbn [forallb existsb snd] in *. destruct e; cbn in *; auto. }
    apply existsb_exists in Hx. destruct Hx as ([p e] & Hin & He). destruct e; try discriminate He. eauto.
  - injection E as ->. split; [reflexivity|]. split; [exact Hn|]. left. apply Z.ltb_ge in H0. lia.
Qed.

Lemma forall2_nth {X Y} (P : X -> Y -> Prop) l1 l2 : Forall2 P l1 l2 -> forall i x, nth_error l1 i = Some x -> exists y, nth_error l2 i = Some y /\ P x y.
Proof. induction 1; intros [|i] a H1; cbn in *; try discriminate; [injection H1 as <-; eauto|eauto]. Qed.
Lemma forall2_len {X Y} (P : X -> Y -> Prop) l1 l2 : Forall2 P l1 l2 -> length l1 = length l2.
Proof. induction 1; cbn; auto. Qed.

(** every entry of the result comes from the stream of its own peer *)
Lemma gather_sound n pend sched ps out ps' : gather A proc len n pend sched ps = (Got out, ps') ->
  length out = length ps /\ length ps' = length ps /\
  forall i p, nth_error ps i = Some p -> exists p' o, nth_error ps' i = Some p' /\ nth_error out i = Some o /\
    match o with
    | Some v => answers proc len (bytes_of p) v (bytes_of p')
    | None => reports_failure proc len (bytes_of p) (bytes_of p') \/ silent proc len (bytes_of p) (bytes_of p')
    end.
Proof.
  intros H. apply gather_inv in H. destruct H as (l & F & -> & -> & _ & _). rewrite !map_length. pose proof (forall2_len _ _ _ F) as HL.
  split; [symmetry; exact HL|]. split; [symmetry; exact HL|]. intros i p Hp. destruct (forall2_nth _ _ _ F _ _ Hp) as ([p' e] & Hs & (ms & R & Fu & I)).
  exists p', (entry_out A e). unfold slot in *. rewrite !nth_error_map, Hs. split; [reflexivity|]. split; [reflexivity|]. cbn [fst snd] in *.
  destruct e; cbn [entry_out].
  - right. exists ms. auto.
  - left. destruct I as (ms' & m & -> & I). exists ms', m. tauto.
  - destruct I as (ms' & m & -> & I). exists ms', m. tauto.
Qed.

(** ... and is the same whatever else happens *)
Lemma answers_unique s v1 r1 v2 r2 : answers proc len s v1 r1 -> answers proc len s v2 r2 -> v1 = v2 /\ r1 = r2.
Proof.
  intros (ms1 & m1 & R1 & U1 & N1 & P1) (ms2 & m2 & R2 & U2 & N2 & P2). revert s ms2 R1 R2 U2.
  induction ms1 as [|a ms1 IH]; intros s [|b ms2] R1 R2 U2; cbn [app] in R1, R2.
  - destruct (reads_head _ _ _ _ _ R1 _ _ _ R2) as (-> & s' & Q1 & Q2). split; [congruence|]. inversion Q1; subst. inversion Q2; subst. reflexivity.
  - destruct (reads_head _ _ _ _ _ R1 _ _ _ R2) as (-> & _). inversion U2 as [|? ? (_ & U)]; subst. congruence.
  - destruct (reads_head _ _ _ _ _ R1 _ _ _ R2) as (-> & _). inversion U1 as [|? ? (_ & U)]; subst. congruence.
  - destruct (reads_head _ _ _ _ _ R1 _ _ _ R2) as (-> & s' & Q1 & Q2). inversion U1; subst. inversion U2; subst. eapply IH; eassumption.
Qed.
Lemma gather_independent n1 pend1 sched1 ps1 out1 ps1' n2 pend2 sched2 ps2 out2 ps2' i p1 p2 v1 v2 :
  gather A proc len n1 pend1 sched1 ps1 = (Got out1, ps1') -> gather A proc len n2 pend2 sched2 ps2 = (Got out2, ps2') ->
  nth_error ps1 i = Some p1 -> nth_error ps2 i = Some p2 -> bytes_of p1 = bytes_of p2 ->
  nth_error out1 i = Some (Some v1) -> nth_error out2 i = Some (Some v2) -> v1 = v2.
Proof.
  intros G1 G2 E1 E2 Ew V1 V2. apply gather_sound in G1. apply gather_sound in G2. destruct G1 as (_ & _ & G1). destruct G2 as (_ & _ & G2).
  destruct (G1 _ _ E1) as (p1' & o1 & _ & O1 & R1). destruct (G2 _ _ E2) as (p2' & o2 & _ & O2 & R2).
  rewrite V1 in O1. injection O1 as <-. rewrite V2 in O2. injection O2 as <-. rewrite Ew in R1. exact (proj1 (answers_unique _ _ _ _ _ R1 R2)).
Qed.

(** how many answers there are *)
Lemma answered_nth (l : list (slot A)) : exists qs, NoDup qs /\ Z.of_nat (length qs) = answered A l /\
  forall i, In i qs <-> exists s, nth_error l i = Some s /\ absent A s = false.
Proof.
  unfold answered. induction l as [|s l (qs & N & L & I)].
  - exists []. split; [constructor|]. split; [reflexivity|]. intros i. split; [intros []|]. intros (s & H & _). destruct i; discriminate.
  - assert (HI : forall j, In j (map S qs) <-> exists i s', j = S i /\ nth_error l i = Some s' /\ absent A s' = false).
    { intros j. rewrite in_map_iff. split; [intros (i & <- & Hi); apply I in Hi; destruct Hi as (s' & Hs); eauto|intros (i & s' & -> & Hs); exists i; split; [reflexivity|apply I; eauto]]. }
    assert (HN : NoDup (map S qs)) by (apply FinFun.Injective_map_NoDup; [intros ? ? H; injection H as H; exact H|exact N]).
    cbn [filter]. destruct (absent A s) eqn:Ea; cbn [negb].
    + exists (map S qs). split; [exact HN|]. split; [rewrite map_length; exact L|]. intros i. rewrite HI. split.
      * intros (j & s' & -> & H). exists s'. exact H.
      * intros (s' & H & Hs). destruct i as [|i]; cbn in H; [congruence|eauto].
    + exists (0%nat :: map S qs). split; [constructor; [|exact HN]; intros H; apply HI in H; destruct H as (? & ? & H & _); discriminate|].
      split; [unfold zlen in *; cbn [length]; rewrite map_length; lia|]. intros i. cbn [In]. rewrite HI. split.
      * intros [<-|(j & s' & -> & H)]; [exists s; auto|exists s'; exact H].
      * intros (s' & H & Hs). destruct i as [|i]; [left; reflexivity|right; cbn in H; eauto].
Qed.
Lemma gather_enough n pend sched ps out ps' : gather A proc len n pend sched ps = (Got out, ps') ->
  exists qs, NoDup qs /\ n <= Z.of_nat (length qs) /\
    (forall i, In i qs -> exists p p', nth_error ps i = Some p /\ nth_error ps' i = Some p' /\
       ((exists v, nth_error out i = Some (Some v)) \/ reports_failure proc len (bytes_of p) (bytes_of p'))) /\
    (1 <= n -> exists i v, nth_error out i = Some (Some v)).
Proof.
  intros H. apply gather_inv in H. destruct H as (l & F & -> & -> & Hn & Hv). destruct (answered_nth l) as (qs & N & L & I).
  exists qs. split; [exact N|]. split; [lia|]. split.
  - intros i Hi. apply I in Hi. destruct Hi as ([p' e] & Hs & Ha). assert (exists p, nth_error ps i = Some p) as (p & Hp).
    { destruct (nth_error ps i) eqn:E; [eauto|]. apply nth_error_None in E. assert (i < length l)%nat by (apply nth_error_Some; congruence).
      pose proof (forall2_len _ _ _ F). lia. }
    exists p, p'. unfold slot in *. rewrite !nth_error_map, Hs. split; [exact Hp|]. split; [reflexivity|].
    destruct (forall2_nth _ _ _ F _ _ Hp) as (s & Hs' & (ms & R & _ & E)). rewrite Hs in Hs'. injection Hs' as <-. cbn [fst snd] in *.
    destruct e; [discriminate Ha| |left; eexists; reflexivity]. right. destruct E as (ms' & m & -> & E). exists ms', m. tauto.
  - intros H1. destruct Hv as [Hv|(p & v & Hv)]; [lia|]. apply In_nth_error in Hv. destruct Hv as (i & Hi). exists i, v. unfold slot in *. rewrite nth_error_map, Hi. reflexivity.
Qed.
End GATHERING.

(** ** Without a proc *)
Lemma useless_raw ms : Forall (useless raw) ms -> ms = [].
Proof. destruct 1 as [|m ms (_ & H)]; [reflexivity|discriminate]. Qed.
Lemma reads_one len s m rest : reads len s [m] rest -> s = m ++ rest /\ (zlen m = len \/ zlen m < len /\ rest = []).
Proof.
  intros H. inversion H as [|? s' ? ? L R|? L]; subst.
  - inversion R; subst. auto.
  - rewrite app_nil_r. auto.
Qed.
Lemma gather_raw len n pend sched ps out ps' : gather bytes raw len n pend sched ps = (Got out, ps') ->
  forall i p, nth_error ps i = Some p -> exists p' o, nth_error ps' i = Some p' /\ nth_error out i = Some o /\
    match o with
    | Some m => bytes_of p = m ++ bytes_of p' /\ m <> fail_pkt /\ (zlen m = len \/ zlen m < len /\ bytes_of p' = [])
    | None => bytes_of p = bytes_of p' \/ bytes_of p = fail_pkt ++ bytes_of p' /\ (len = 6 \/ 6 < len /\ bytes_of p' = [])
    end.
Proof.
  intros H i p Hp. apply gather_sound in H. destruct H as (_ & _ & H). destruct (H _ _ Hp) as (p' & o & E1 & E2 & E3). exists p', o.
  split; [exact E1|]. split; [exact E2|]. destruct o as [m|].
  - destruct E3 as (ms & m' & R & U & N & P). apply useless_raw in U. subst ms. injection P as ->. apply reads_one in R. tauto.
  - destruct E3 as [(ms & m' & R & U & P)|(ms & R & U)].
    + apply useless_raw in U. subst ms. destruct P as [->|(_ & P)]; [|discriminate]. apply reads_one in R. destruct R as (R1 & R2). right. split; [exact R1|].
      change (zlen fail_pkt) with 6 in R2. destruct R2 as [R2|R2]; [left; lia|right; exact R2].
    + apply useless_raw in U. subst ms. inversion R; subst. left. reflexivity.
Qed.

Lemma gather_short len n pend sched ps out ps' i p' m : gather bytes raw len n pend sched ps = (Got out, ps') ->
  nth_error out i = Some (Some m) -> nth_error ps' i = Some p' -> is_connected p' = true -> zlen m = len.
Proof.
  intros H Ho Hp Hc. apply gather_inv in H. destruct H as (l & F & -> & -> & _ & _). unfold slot in *. rewrite nth_error_map in Ho, Hp.
  destruct (nth_error l i) as [[q e]|] eqn:El; [|discriminate]. cbn [option_map fst snd] in Ho, Hp. injection Hp as <-. destruct e; try discriminate Ho.
  injection Ho as <-. assert (exists p, nth_error ps i = Some p) as (p & Hp).
  { destruct (nth_error ps i) eqn:E; [eauto|]. apply nth_error_None in E. assert (i < length l)%nat by (apply nth_error_Some; congruence).
    pose proof (forall2_len _ _ _ F). unfold slot in *. lia. }
  destruct (forall2_nth _ _ _ F _ _ Hp) as (s & Hs & (ms & R & Fu & I)). rewrite El in Hs. injection Hs as <-. cbn [fst snd] in *.
  specialize (Fu Hc). destruct I as (ms' & m & -> & _ & _ & P). injection P as ->. apply Forall_app in Fu. destruct Fu as (_ & Fu). inversion Fu; assumption.
Qed.

(** ** When it returns *)
Section RETURNS.
Variable len : Z.
Hypothesis Hlen : 0 < len.
Notation sl := (mpeer * entry bytes)%type.

Fixpoint iall (P : Z -> mpeer -> sl -> Prop) (i : Z) (ps : list mpeer) (l : list sl) : Prop :=
  match ps, l with
  | [], [] => True
  | p :: ps', s :: l' => P i p s /\ iall P (i + 1) ps' l'
  | _, _ => False
  end.
Fixpoint ieach (P : Z -> mpeer -> Prop) (i : Z) (ps : list mpeer) : Prop :=
  match ps with [] => True | p :: ps' => P i p /\ ieach P (i + 1) ps' end.

(** exactly the peers seen so far have a value *)
Definition seen_inv (seen : Z -> bool) (i : Z) (p : mpeer) (s : sl) : Prop :=
  if seen i then exists p' v, s = (p', Value v) else s = (p, Absent).

Lemma delivers_read p : delivers len p -> exists m p1, m_read len p = (Some m, p1) /\ m <> fail_pkt.
Proof.
  intros (Hc & _ & m & evs & E & _ & Hm). unfold m_read. rewrite Hc. cbn [negb]. destruct (Z.leb_spec len 0); [lia|]. rewrite E. eauto.
Qed.

Lemma walk_pending (G : Z -> bool) pend ps : forall i,
  ieach (fun j p => m_fd p <> NoFd /\ (G j = true -> delivers len p) /\ (G j = false -> pend j <> len)) i ps ->
  exists l, walk bytes (visit_pending bytes raw len) pend i (map (fun p => (p, Absent)) ps) = (true, l) /\ iall (seen_inv (fun j => pend j =? len)) i ps l.
Proof.
  induction ps as [|p ps IH]; intros i H; cbn [map walk].
  - exists []. split; [reflexivity|exact I].
  - destruct H as ((Hf & Hg & Hn) & H). destruct (IH _ H) as (l & W & F).
    assert (exists s1, visit_pending bytes raw len (pend i) (p, Absent) = (true, s1) /\ seen_inv (fun j => pend j =? len) i p s1) as (s1 & E & Hs).
    { unfold visit_pending, seen_inv. destruct (Z.eqb_spec (pend i) len) as [He|He].
      - destruct (G i) eqn:EG; [|exfalso; exact (Hn eq_refl He)]. destruct (delivers_read p (Hg eq_refl)) as (m & p1 & -> & Hm). apply bytes_eqb_neq in Hm. rewrite Hm.
        cbn [raw]. destruct (m_fd p); [contradiction| |]; eexists; (split; [reflexivity|]); eauto.
      - destruct (m_fd p); [contradiction| |]; eexists; (split; [reflexivity|]); reflexivity. }
    rewrite E, W. eexists. split; [reflexivity|]. split; assumption.
Qed.

Lemma walk_ready (G seen r : Z -> bool) ps : forall i l,
  ieach (fun j p => (G j = true -> delivers len p) /\ (G j = false -> r j = false)) i ps ->
  iall (seen_inv seen) i ps l ->
  exists l1, walk bytes (visit_ready bytes raw len) r i l = (true, l1) /\ iall (seen_inv (fun j => seen j || r j)) i ps l1.
Proof.
  induction ps as [|p ps IH]; intros i [|s l] H F; try contradiction F; cbn [walk].
  - exists []. split; [reflexivity|exact I].
  - destruct H as ((Hg & Hn) & H). destruct F as (Fs & F). destruct (IH _ _ H F) as (l1 & W & F1).
    assert (exists s1, visit_ready bytes raw len (r i) s = (true, s1) /\ seen_inv (fun j => seen j || r j) i p s1) as (s1 & E & Hs).
    { unfold visit_ready, seen_inv in *. destruct (seen i) eqn:Es; cbn [orb].
      - destruct Fs as (p' & v & ->). unfold in_fds, absent. cbn [snd fst andb]. rewrite andb_false_r. cbn [negb]. eexists. split; [reflexivity|]. eauto.
      - subst s. destruct (r i) eqn:Er; cbn [andb negb].
        + destruct (G i) eqn:EG; [|specialize (Hn eq_refl); discriminate]. specialize (Hg eq_refl). pose proof Hg as (_ & Hfd & _).
          unfold in_fds, absent. cbn [snd fst andb]. rewrite Hfd. cbn [negb]. destruct (delivers_read p Hg) as (m & p1 & -> & Hm).
          apply bytes_eqb_neq in Hm. rewrite Hm. cbn [raw]. eexists. split; [reflexivity|]. eauto.
        + eexists. split; [reflexivity|]. reflexivity. }
    rewrite E, W. eexists. split; [reflexivity|]. split; assumption.
Qed.

Lemma zrange_cons a k : zrange a (S k) = a :: zrange (a + 1) k.
Proof. unfold zrange. cbn [seq map]. rewrite Z.add_0_r. f_equal. rewrite <- seq_shift, map_map. apply map_ext. intros x. lia. Qed.

Lemma all_seen (G seen : Z -> bool) ps : forall i l, iall (seen_inv seen) i ps l ->
  (forall j, i <= j < i + zlen ps -> G j = true -> seen j = true) -> zlen (filter G (zrange i (length ps))) <= answered bytes l.
Proof.
  unfold answered, zlen. induction ps as [|p ps IH]; intros i [|s l] F H; try contradiction F; cbn [length].
  - cbn. lia.
  - rewrite zrange_cons. destruct F as (Fs & F). assert (Hi := IH _ _ F ltac:(intros j Hj; apply H; cbn [length]; lia)).
    cbn [filter]. pose proof (H i ltac:(cbn [length]; lia)) as H0. unfold seen_inv in Fs. destruct (G i).
    + rewrite (H0 eq_refl) in Fs. destruct Fs as (p' & v & ->). cbn [absent snd negb length]. lia.
    + destruct (negb _); cbn [length]; lia.
Qed.
Lemma some_waiting (G seen : Z -> bool) ps : forall i l, ieach (fun j p => G j = true -> delivers len p) i ps -> iall (seen_inv seen) i ps l -> existsb (in_fds bytes) l = false ->
  forall j, i <= j < i + zlen ps -> G j = true -> seen j = true.
Proof.
  unfold zlen. induction ps as [|p ps IH]; intros i [|s l] HG F H j Hj Hg; try contradiction F; cbn [length] in Hj; [lia|].
  destruct HG as (Hd & HG). destruct F as (Fs & F). cbn [existsb] in H. apply orb_false_iff in H. destruct H as (H0 & H).
  destruct (Z.eq_dec j i) as [->|Hne]; [|eapply IH; [exact HG|exact F|exact H|lia|exact Hg]].
  unfold seen_inv in Fs. destruct (seen i); [reflexivity|]. subst s. specialize (Hd Hg). destruct Hd as (_ & Hfd & _).
  unfold in_fds in H0. cbn [absent snd fst andb] in H0. rewrite Hfd in H0. discriminate.
Qed.
Lemma no_fail seen ps : forall i l, iall (seen_inv seen) i ps l -> 0 < answered bytes l ->
  forallb (fun s : sl => match snd s with Value _ => false | _ => true end) l = false.
Proof.
  unfold answered, zlen. induction ps as [|p ps IH]; intros i [|s l] F H; try contradiction F.
  - cbn in H. lia.
  - destruct F as (Fs & F). cbn [forallb]. unfold seen_inv in Fs. destruct (seen i).
    + destruct Fs as (p' & v & ->). reflexivity.
    + subst s. cbn [snd andb]. eapply IH; [exact F|]. exact H.
Qed.
Lemma ieach_impl (P Q : Z -> mpeer -> Prop) ps : (forall j p, P j p -> Q j p) -> forall i, ieach P i ps -> ieach Q i ps.
Proof. intros H. induction ps as [|p ps IH]; intros i; cbn; [auto|]. intros (H1 & H2). split; auto. Qed.

Lemma ieach_and (P Q : Z -> mpeer -> Prop) ps : forall i, ieach P i ps -> ieach Q i ps -> ieach (fun j p => P j p /\ Q j p) i ps.
Proof. induction ps as [|p ps IH]; intros i; cbn; [auto|]. intros (H1 & H2) (H3 & H4). split; auto. Qed.

Lemma rounds_return (G : Z -> bool) n ps : n <= zlen (filter G (zrange 0 (length ps))) ->
  ieach (fun j p => G j = true -> delivers len p) 0 ps ->
  forall sched seen l, iall (seen_inv seen) 0 ps l ->
  ieach (fun j p => G j = false -> Forall (fun r => r j = false) sched) 0 ps ->
  (forall j, 0 <= j < zlen ps -> G j = true -> seen j = true \/ Exists (fun r => r j = true) sched) ->
  exists out l1, rounds bytes raw len n sched l = (Got out, l1).
Proof.
  intros Hn HG. induction sched as [|r sched IH]; intros seen l F HN HS; cbn [rounds].
  - destruct (Z.leb_spec n (answered bytes l)) as [Hle|Hgt].
    + unfold finish. destruct (Z.ltb_spec 0 (answered bytes l)) as [H0|H0]; cbn [andb]; [rewrite (no_fail _ _ _ _ F H0)|]; eauto.
    + exfalso. assert (zlen (filter G (zrange 0 (length ps))) <= answered bytes l); [|lia]. eapply all_seen; [exact F|].
      intros j Hj Hg. destruct (HS j ltac:(lia) Hg) as [E|E]; [exact E|inversion E].
  - destruct (Z.leb_spec n (answered bytes l)) as [Hle|Hgt].
    + unfold finish. destruct (Z.ltb_spec 0 (answered bytes l)) as [H0|H0]; cbn [andb]; [rewrite (no_fail _ _ _ _ F H0)|]; eauto.
    + destruct (existsb (in_fds bytes) l) eqn:Ex; cbn [negb].
      * destruct (walk_ready G seen r ps 0 l) as (l1 & W & F1).
        { eapply ieach_impl; [|exact (ieach_and _ _ ps 0 HG HN)]. intros j p (H1 & H2). split; [exact H1|]. intros Hg. specialize (H2 Hg). inversion H2; assumption. }
        { exact F. }
        rewrite W. eapply IH; [exact F1| |].
        { revert HN. apply ieach_impl. intros j p H Hg. specialize (H Hg). inversion H; assumption. }
        { intros j Hj Hg. destruct (HS j Hj Hg) as [->|E]; [left; reflexivity|]. inversion E as [? ? E1|? ? E1]; subst; [left; rewrite E1; apply orb_true_r|right; exact E1]. }
      * exfalso. assert (zlen (filter G (zrange 0 (length ps))) <= answered bytes l); [|lia]. eapply all_seen; [exact F|].
        eapply some_waiting; [exact HG|exact F|exact Ex].
Qed.

Lemma ieach_nth (P : Z -> mpeer -> Prop) ps : forall i, (forall k p, nth_error ps k = Some p -> P (i + Z.of_nat k) p) -> ieach P i ps.
Proof.
  induction ps as [|p ps IH]; intros i H; cbn; [exact I|]. split.
  - specialize (H 0%nat p eq_refl). rewrite Z.add_0_r in H. exact H.
  - apply IH. intros k q Hk. specialize (H (S k) q Hk). replace (i + 1 + Z.of_nat k) with (i + Z.of_nat (S k)) by lia. exact H.
Qed.

Lemma gather_returns (G : Z -> bool) n pend sched ps :
  (forall k p, nth_error ps k = Some p -> m_fd p <> NoFd /\
     (if G (Z.of_nat k) then delivers len p /\ (pend (Z.of_nat k) = len \/ Exists (fun r => r (Z.of_nat k) = true) sched)
      else pend (Z.of_nat k) <> len /\ Forall (fun r => r (Z.of_nat k) = false) sched)) ->
  n <= zlen (filter G (zrange 0 (length ps))) ->
  exists out ps', gather bytes raw len n pend sched ps = (Got out, ps').
Proof.
  intros H Hn. unfold gather. destruct (walk_pending G pend ps 0) as (l & W & F).
  { apply ieach_nth. intros k p Hk. specialize (H k p Hk). rewrite Z.add_0_l. destruct H as (H1 & H2). split; [exact H1|]. destruct (G (Z.of_nat k)); (split; [intros Hg|intros Hg]); try discriminate Hg; exact (proj1 H2). }
  rewrite W. destruct (rounds_return G n ps Hn) with (sched := sched) (seen := fun j => pend j =? len) (l := l) as (out & l1 & R).
  - apply ieach_nth. intros k p Hk Hg. specialize (H k p Hk). rewrite Z.add_0_l in Hg. rewrite Hg in H. tauto.
  - exact F.
  - apply ieach_nth. intros k p Hk Hg. specialize (H k p Hk). rewrite Z.add_0_l in *. rewrite Hg in H. tauto.
  - intros j Hj Hg. unfold zlen in Hj. destruct (nth_error ps (Z.to_nat j)) as [p|] eqn:Ep; [|apply nth_error_None in Ep; lia].
    specialize (H _ _ Ep). rewrite Z2Nat.id in H by lia. rewrite Hg in H. destruct H as (_ & _ & [H|H]); [left; apply Z.eqb_eq; exact H|right; exact H].
  - rewrite R. eauto.
Qed.
End RETURNS.

(** ** Sequences of calls *)
Lemma gather_all len n pend sched ps out ps' : gather bytes raw len n pend sched ps = (Got out, ps') -> zlen ps <= n ->
  forall i p, nth_error ps i = Some p -> exists p' o, nth_error ps' i = Some p' /\ nth_error out i = Some o /\ bytes_of p = said o ++ bytes_of p' /\
    (zlen (said o) = len \/ zlen (said o) < len /\ bytes_of p' = []).
Proof.
  intros H Hn i p Hp. pose proof (gather_sound _ _ _ _ _ _ _ _ _ H) as (HL & _ & _). pose proof (gather_enough _ _ _ _ _ _ _ _ _ H) as (qs & N & L & Q & _).
  assert (Hin : In i qs).
  { assert (Hb : (i < length ps)%nat) by (apply nth_error_Some; congruence).
    assert (Hincl : incl qs (seq 0 (length ps))).
    { intros j Hj. apply in_seq. destruct (Q j Hj) as (q & _ & Hq & _). assert (j < length ps)%nat by (apply nth_error_Some; congruence). lia. }
    apply (NoDup_length_incl N) in Hincl; [apply Hincl; apply in_seq; lia|]. rewrite seq_length. unfold zlen in Hn. lia. }
  destruct (gather_raw _ _ _ _ _ _ _ H _ _ Hp) as (p' & o & Ep' & Eo & E). exists p', o. split; [exact Ep'|]. split; [exact Eo|].
  destruct o as [m|]; cbn [said]; [tauto|].
  destruct (Q i Hin) as (p2 & p2' & Hp2 & Hp2' & [(v & Hv)|Hf]); [congruence|]. rewrite Hp in Hp2. injection Hp2 as <-. rewrite Ep' in Hp2'. injection Hp2' as <-.
  destruct Hf as (ms & m & R & U & P). apply useless_raw in U. subst ms. destruct P as [->|(_ & P)]; [|discriminate]. apply reads_one in R. exact R.
Qed.

Lemma gathers_in_order gs ps outs ps' : gathers gs ps outs ps' -> Forall (fun g => zlen ps <= g_n g) gs ->
  forall i p, nth_error ps i = Some p -> exists p' os, nth_error ps' i = Some p' /\
    Forall2 (fun out o => nth_error out i = Some o) outs os /\ bytes_of p = concat (map said os) ++ bytes_of p'.
Proof.
  induction 1 as [ps|g gs ps out ps1 outs ps2 H HG IH]; intros F i p Hp.
  - exists p, []. split; [exact Hp|]. split; [constructor|]. reflexivity.
  - inversion F as [|? ? Hg F']; subst. destruct (gather_all _ _ _ _ _ _ _ H Hg _ _ Hp) as (p1 & o & Ep1 & Eo & Ew & _).
    pose proof (gather_sound _ _ _ _ _ _ _ _ _ H) as (_ & HL & _).
    destruct (IH ltac:(unfold zlen in *; rewrite HL; exact F') _ _ Ep1) as (p' & os & Ep' & Eos & Ew'). exists p', (o :: os).
    split; [exact Ep'|]. split; [constructor; assumption|]. cbn [map concat]. rewrite Ew, Ew', app_assoc. reflexivity.
Qed.

(** ** One connection *)
Lemma pruns_app cs1 : forall cs2 p, pruns (cs1 ++ cs2) p = let '(rs1, p1) := pruns cs1 p in let '(rs2, p2) := pruns cs2 p1 in (rs1 ++ rs2, p2).
Proof.
  induction cs1 as [|c cs1 IH]; intros cs2 p; cbn [app pruns].
  - destruct (pruns cs2 p); reflexivity.
  - destruct (pdo c p) as [r p1]. rewrite IH. destruct (pruns cs1 p1) as [rs1 p2]. destruct (pruns cs2 p2) as [rs2 p3]. reflexivity.
Qed.

(** type, certificate and checks of a peer in any history *)
Definition kept (ty : transport) (cert : bool) (p : mpeer) : Prop :=
  m_type p = ty /\ m_cert p = cert /\ (is_connected p = true -> ty = SSL /\ m_auth p = negb cert /\ m_fd p = OpenFd) /\ (ty <> SSL -> m_fd p = NoFd).
Lemma mstate_eqb_eq a b : mstate_eqb a b = true <-> a = b.
Proof. destruct a, b; split; intros; try discriminate; reflexivity. Qed.
Lemma pdo_kept ty cert c p r p1 : kept ty cert p -> pdo c p = (r, p1) -> kept ty cert p1.
Proof.
  intros K. destruct c; cbn [pdo].
  - unfold m_connect. destruct (is_connected p) eqn:Ec; [intros H; injection H as <- <-; exact K|].
    destruct K as (K1 & K2 & K3 & K4). rewrite K1. destruct ty; [|intros H; injection H as <- <-; repeat split; auto; congruence|intros H; injection H as <- <-; repeat split; auto; congruence].
    rewrite K2. destruct up; intros H; injection H as <- <-.
    + repeat split; auto. congruence.
    + unfold is_connected in *. repeat split; auto; cbn; congruence.
  - unfold m_read. destruct (is_connected p) eqn:Ec; cbn [negb]; [|intros H; injection H as <- <-; exact K].
    destruct (size <=? 0); [intros H; injection H as <- <-; exact K|].
    destruct K as (K1 & K2 & K3 & K4). specialize (K3 Ec). destruct (recv_all size (m_in p)) as [[b|] evs]; intros H; injection H as <- <-; repeat split; cbn; auto; tauto.
  - unfold m_send. destruct K as (K1 & K2 & K3 & K4). destruct (m_fd p) eqn:Ef; [| |]; try (intros H; injection H as <- <-; repeat split; auto; rewrite ?Ef; tauto).
    destruct up; intros H; injection H as <- <-; unfold is_connected in *; cbn; (split; [exact K1|]); (split; [exact K2|]); cbn; rewrite ?Ef; auto.
  - intros H. injection H as <- <-. unfold m_close. destruct K as (K1 & K2 & K3 & K4). unfold is_connected in *.
    destruct (m_state p) eqn:Es; (split; [exact K1|]); (split; [exact K2|]); cbn [m_state m_fd m_auth mstate_eqb].
    4: { unfold is_connected. rewrite Es. split; [discriminate|exact K4]. }
    all: split; [discriminate|intros HT; specialize (K4 HT); rewrite K4; reflexivity].
Qed.
Lemma pruns_kept ty cert cs : forall p rs p1, kept ty cert p -> pruns cs p = (rs, p1) -> kept ty cert p1.
Proof.
  induction cs as [|c cs IH]; intros p rs p1 K; cbn [pruns]; [intros H; injection H as <- <-; exact K|].
  destruct (pdo c p) as [r q] eqn:E. destruct (pruns cs q) as [rs' q'] eqn:E'. intros H. injection H as <- <-. eapply IH; [|exact E']. eapply pdo_kept; eassumption.
Qed.
Lemma new_kept ty cert : kept ty cert (new_peer ty cert).
Proof. repeat split; cbn; intros; discriminate. Qed.

Lemma connected_auth ty cert cs rs p : pruns cs (new_peer ty cert) = (rs, p) -> is_connected p = true -> ty = SSL /\ m_auth p = negb cert.
Proof. intros H Hc. destruct (pruns_kept _ _ _ _ _ _ (new_kept ty cert) H) as (_ & _ & K & _). specialize (K Hc). tauto. Qed.
Lemma never_tcp ty cert cs rs p : ty <> SSL -> pruns cs (new_peer ty cert) = (rs, p) -> is_connected p = false /\ forall up strm, fst (m_connect up strm p) = false.
Proof.
  intros Ht H. destruct (pruns_kept _ _ _ _ _ _ (new_kept ty cert) H) as (K1 & _ & K & _). destruct (is_connected p) eqn:Ec; [destruct (K eq_refl); contradiction|].
  split; [reflexivity|]. intros up strm. unfold m_connect. rewrite Ec, K1. destruct ty; [contradiction|reflexivity|reflexivity].
Qed.

(** data is only delivered and accepted on a connection *)
Lemma read_connected ty cert cs rs p size b p1 : pruns cs (new_peer ty cert) = (rs, p) -> m_read size p = (Some b, p1) ->
  is_connected p = true /\ m_fd p = OpenFd /\ ty = SSL /\ bytes_of p = b ++ bytes_of p1 /\ zlen b <= size /\ (is_connected p1 = true <-> zlen b = size).
Proof.
  intros H Hr. destruct (pruns_kept _ _ _ _ _ _ (new_kept ty cert) H) as (_ & _ & K & _). apply m_read_some in Hr. destruct Hr as (Hl & Hc & Hf & Hw & Hs).
  specialize (K Hc). split; [exact Hc|]. split; [tauto|]. split; [tauto|]. split; [exact Hw|]. destruct Hs as [(H1 & H2)|(H1 & _ & H2)]; rewrite H2; (split; [lia|]); split; intros; try discriminate; lia.
Qed.
Lemma closed_until_connect cs : forall p, m_state p = Closed -> m_fd p <> OpenFd -> no_connect cs ->
  forall rs p1, pruns cs p = (rs, p1) -> dead cs rs /\ p1 = p.
Proof.
  induction cs as [|c cs IH]; intros p Hs Hf Hn rs p1; cbn [pruns].
  - intros H. injection H as <- <-. split; [constructor|auto].
  - inversion Hn as [|? ? Hc Hn']; subst. destruct (pdo c p) as [r q] eqn:E. destruct (pruns cs q) as [rs' q'] eqn:E'. intros H. injection H as <- <-.
    assert (q = p /\ match c with PRead _ => r = Bytes None | PSend _ _ => r = Done false | PClose => r = Done true | PConnect _ _ => False end) as (-> & Hr).
    { destruct c; cbn [pdo] in E; [contradiction| | |].
      - unfold m_read, is_connected in E. rewrite Hs in E. injection E as <- <-. auto.
      - unfold m_send in E. destruct (m_fd p); try congruence; injection E as <- <-; auto.
      - unfold m_close in E. rewrite Hs in E. injection E as <- <-. auto. }
    destruct (IH p Hs Hf Hn' _ _ E') as (H1 & H2). split; [constructor; assumption|auto].
Qed.
Lemma close_closes ty cert cs rs p : pruns cs (new_peer ty cert) = (rs, p) -> m_state p <> Closed ->
  forall cs' rs' p1, no_connect cs' -> pruns (PClose :: cs') p = (rs', p1) ->
  (exists rest, rs' = Done true :: rest /\ dead cs' rest) /\ m_state p1 = Closed /\ m_fd p1 <> OpenFd /\ m_out p1 = m_out p.
Proof.
  intros _ Hs cs' rs' p1 Hn H. cbn [pruns pdo] in H. destruct (pruns cs' (m_close p)) as [rs1 q] eqn:E. injection H as <- <-.
  assert (A : m_state (m_close p) = Closed /\ m_fd (m_close p) <> OpenFd /\ m_out (m_close p) = m_out p).
  { unfold m_close. destruct (m_state p); try congruence; cbn; (split; [reflexivity|]); (split; [destruct (m_fd p); discriminate|reflexivity]). }
  destruct A as (A1 & A2 & A3). destruct (closed_until_connect cs' _ A1 A2 Hn _ _ E) as (B1 & ->). split; [exists rs1; auto|auto].
Qed.
(** closing what is closed already: nothing happens, also if a connect failed in between and left a socket *)
Lemma close_again p : m_state p = Closed -> m_close p = p.
Proof. unfold m_close. intros ->. reflexivity. Qed.

(** while a connection lasts the reads return its bytes in order *)
Lemma reads_in_order cs : forall p rs p1, pruns cs p = (rs, p1) -> undisturbed cs rs -> bytes_of p = got rs ++ bytes_of p1.
Proof.
  induction cs as [|c cs IH]; intros p rs p1; cbn [pruns].
  - intros H _. injection H as <- <-. reflexivity.
  - destruct (pdo c p) as [r q] eqn:E. destruct (pruns cs q) as [rs' q'] eqn:E'. intros H (F & Hn). injection H as <- <-. inversion F as [|? ? Hc F']; subst.
    assert (Hn' : ~ In (Bytes None) rs') by (intros H; apply Hn; right; exact H). specialize (IH _ _ _ E' (conj F' Hn')).
    cbn [got flat_map]. fold (got rs'). destruct c; try contradiction Hc; cbn [pdo] in E.
    + destruct (m_read size p) as [o q0] eqn:Er. injection E as <- <-. destruct o as [b|]; [|exfalso; apply Hn; left; reflexivity].
      apply m_read_some in Er. destruct Er as (_ & _ & _ & Hw & _). rewrite Hw, IH, app_assoc. reflexivity.
    + unfold m_send in E. destruct (m_fd p) eqn:Ef; try destruct up; injection E as <- <-; cbn [app]; exact IH.
Qed.
