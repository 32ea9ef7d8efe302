(** How far accepted time stamps can move apart when some messages in between fail. *)
From Coq Require Import ZArith Lia List Bool.
From Coq.Strings Require Import Byte.
From Verif Require Import Bytes Res Mem Sodium WireModel WireSpec WireHistory WireProofs WireExamples.
Import ListNotations.
Open Scope list_scope.
Open Scope Z_scope.

Section S.
Variables (S : sigs) (eps : Z).
Hypothesis Heps : 0 <= eps.

Lemma zlen_cons' {A} (x : A) l : zlen (x :: l) = 1 + zlen l.
Proof. unfold zlen. cbn [length]. lia. Qed.
Lemma drift_from l : forall last outs, 0 < last -> Forall arrival_ok l -> recv_history S eps last l = Ok outs ->
  forall mid b rest, outs = mid ++ (0, b) :: rest -> b - last <= eps * (1 + zlen (filter (fun o => (fst o =? 0) || (fst o =? 6)) mid)).
Proof.
  induction l as [|a l IH]; intros last outs Hl0 Hl H mid b rest E.
  - injection H as <-. destruct mid; discriminate.
  - inversion Hl as [|? ? Ha Hl' E1]; subst. destruct (recv_history_cons S eps last a l _ Ha H) as (r & ts & last' & rest' & E & Hr & Hts & El & Hf).
    destruct mid as [|[r0 ts0] mid]; cbn [app] in E.
    + injection E as <- <- <-. change (zlen (filter _ [])) with 0. pose proof (fresh_window eps last b (a_now a) Heps Hl0 (Hf (or_introl eq_refl))). lia.
    + injection E as <- <- E. cbn [filter fst]. destruct ((r0 =? 0) || (r0 =? 6)) eqn:Eb.
      * apply orb_true_iff in Eb. rewrite !Z.eqb_eq in Eb. specialize (Hf Eb). pose proof (fresh_window eps last ts0 (a_now a) Heps Hl0 Hf) as Q1.
        pose proof (fresh_ge eps last ts0 (a_now a) ltac:(lia) Hts Hf) as Q2. subst last'.
        pose proof (IH ts0 rest' ltac:(lia) Hl' Hr mid b rest (eq_sym E)) as Q. rewrite zlen_cons'. lia.
      * subst last'. apply (IH last rest' Hl0 Hl' Hr mid b rest). symmetry. exact E.
Qed.
Theorem drift l : forall last outs, 0 <= last -> Forall arrival_ok l -> recv_history S eps last l = Ok outs ->
  forall before a mid b rest, outs = before ++ (0, a) :: mid ++ (0, b) :: rest -> 0 < a ->
  0 <= b - a <= eps * (1 + zlen (filter (fun o => (fst o =? 0) || (fst o =? 6)) mid)).
Proof.
  intros last outs H0 Hl H before a mid b rest E Ha. split.
  { pose proof (history_sorted S eps l last outs H0 Hl H) as Hs. rewrite E in Hs. unfold accepted in Hs.
    rewrite filter_app, map_app in Hs. cbn [filter fst Z.eqb map snd] in Hs. rewrite filter_app, map_app in Hs. cbn [filter fst Z.eqb map snd] in Hs.
    revert Hs. generalize (map snd (filter (fun o : Z * Z => fst o =? 0) before)). intros l0. induction l0 as [|x l0 IH]; cbn [app]; intros Hs; inversion Hs as [|? ? Hs1 Hs2]; subst; [|apply IH; assumption].
    rewrite Forall_forall in Hs2. assert (a <= b); [|lia]. apply Hs2. apply in_or_app. right. left. reflexivity. }
  revert last outs H0 Hl H before E. induction l as [|x l IH]; intros last outs H0 Hl H before E.
  - injection H as <-. destruct before; discriminate.
  - inversion Hl as [|? ? Hx Hl' E1]; subst. destruct (recv_history_cons S eps last x l _ Hx H) as (r & ts & last' & rest' & E & Hr & Hts & El & Hf).
    destruct before as [|o before]; cbn [app] in E.
    + injection E as <- <- E. cbn [Z.eqb orb] in El. subst last'. apply (drift_from l a rest' Ha Hl' Hr mid b rest). symmetry. exact E.
    + injection E as -> E. apply (IH last' rest') with (before := before); [|exact Hl'|exact Hr|symmetry; exact E]. subst last'. destruct ((r =? 0) || (r =? 6)); [apply Hts|exact H0].
Qed.
End S.

Lemma C27_drift_example : exists l outs, Forall arrival_ok l /\ recv_history toyS 3600 0 l = Ok outs /\
  outs = [] ++ (0, 1700000000) :: [(6, 1700003600); (5, 1699999999)] ++ (0, 1700007200) :: [].
Proof.
  exists (map ex_arrival [ex_msg [x4f; x4b] 1700000000; ex_forged [x4f; x4b] 1700003600; ex_msg [x4f; x4b] 1699999999; ex_msg [x4e; x4f] 1700007200]). eexists.
  split; [cbn [map]; repeat constructor; vm_compute; congruence|]. split; [|reflexivity]. vm_compute. reflexivity.
Qed.
