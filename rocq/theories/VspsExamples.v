(** Concrete cases for C102. *)
From Coq Require Import ZArith Lia List Bool.
From Verif Require Import PrimeL Fq Bytes Res Sodium ToprfModel ToprfSpec OprfProofs ToprfExamples MpmultModel VspsModel VspsSpec Vsps.
Import ListNotations.
Open Scope list_scope.
Open Scope Z_scope.

Lemma small_mod a b : 0 <= a < 65536 -> b < 65536 -> a <> b -> a mod L <> b.
Proof. intros Ha Hb Hab. pose proof L_gt_65536. rewrite Z.mod_small by lia. exact Hab. Qed.

(** the claim as stated fails already for lines, whatever the group *)
Lemma honest_rejected R : ristretto_ok R ->
  ~ (forall h t f r delta junk out, (1 <= t <= 100)%nat -> length f = (t + 1)%nat -> length r = (t + 1)%nat ->
       Forall (fun c => 0 <= c < L) f -> Forall (fun c => 0 <= c < L) r ->
       (forall i, (1 <= i <= 2 * t + 2)%nat -> commitment R h f r (Z.of_nat i) <> rzero R) ->
       random_scalar delta -> (forall i, (1 <= i <= 2 * t + 2)%nat -> delta <> Z.of_nat i) -> junk = Z.of_nat (t + 1) ->
       vsps_check R t (commitments R h f r (2 * t + 2)) delta junk out = Ok 0).
Proof.
  intros HR H. specialize (H (rbase R) 1%nat [0; 1] [0; 0] 5 2 (fun _ _ => 0)).
  change (2 * 1 + 2)%nat with 4%nat in H.
  rewrite (line_rejected R HR) in H.
  - pose proof L_gt_65536. discriminate H.
    + lia.
    + reflexivity.
    + reflexivity.
    + repeat constructor; lia.
    + repeat constructor; lia.
    + intros i Hi. apply (line_nonzero R HR). lia.
    + unfold random_scalar. lia.
    + intros i Hi. lia.
    + reflexivity.
  - unfold u8. lia.
  - lia.
  - change ((10 * 2 - 13) * 5) with 35. apply small_mod; lia.
Qed.

Lemma C102_rejected_example : exists junk delta, u8 junk /\ junk <> 1 /\ ((10 * junk - 13) * delta) mod L <> 1 /\ junk = 2 /\ delta = 77.
Proof. exists 2, 77. repeat split; try lia. change ((10 * 2 - 13) * 77) with 539. apply small_mod; lia. Qed.

Lemma C102_evaluates_example : exists R h t f r xs delta, ristretto_ok R /\ length xs = (t + 1)%nat /\ NoDup xs /\ Forall u8 xs /\
  (length f <= t + 1)%nat /\ (length r <= t + 1)%nat /\
  (forall x, In x xs -> commitment R h f r x <> rzero R) /\ (forall x, In x xs -> delta mod L <> x) /\ t = 3%nat /\ xs = [4; 5; 6; 7].
Proof.
  exists toyR, (rbase toyR), 3%nat, [0; 1], [0; 0], [4; 5; 6; 7], 1000. split; [exact toyR_ok|]. split; [reflexivity|].
  split; [repeat constructor; cbn; intuition lia|]. split; [repeat constructor; unfold u8; lia|]. split; [cbn; lia|]. split; [cbn; lia|].
  split; [intros x Hx; apply (line_nonzero toyR toyR_ok); cbn in Hx; intuition lia|].
  split; [intros x Hx; apply small_mod; cbn in Hx; intuition lia|]. split; reflexivity.
Qed.

Lemma C102_sound_example : exists R t (P : Z -> rG R) xs ys deltas out, ristretto_ok R /\
  length xs = (t + 1)%nat /\ length ys = (t + 1)%nat /\ NoDup xs /\ NoDup ys /\ Forall u8 xs /\ Forall u8 ys /\
  NoDup deltas /\ Forall (fun d => 0 <= d < L) deltas /\ (t + 1 <= length deltas)%nat /\
  (forall d, In d deltas -> exists v,
     vsps R t (map (fun x => renc R (P x)) xs) d (invertedVDMmatrix xs out) = Ok (0, v) /\
     vsps R t (map (fun x => renc R (P x)) ys) d (invertedVDMmatrix ys out) = Ok (0, v)) /\ t = 1%nat /\ xs = [1; 2] /\ ys = [2; 3].
Proof.
  exists toyR, 1%nat, (commitment toyR (rbase toyR) [0; 1] [0; 0]), [1; 2], [2; 3], [40; 50], (fun _ _ => 0).
  split; [exact toyR_ok|]. split; [reflexivity|]. split; [reflexivity|].
  split; [repeat constructor; cbn; intuition lia|]. split; [repeat constructor; cbn; intuition lia|].
  split; [repeat constructor; unfold u8; lia|]. split; [repeat constructor; unfold u8; lia|].
  split; [repeat constructor; cbn; intuition lia|].
  split; [pose proof L_gt_65536; repeat constructor; lia|]. split; [cbn; lia|]. split; [|repeat split; reflexivity].
  intros d Hd. exists (renc toyR (commitment toyR (rbase toyR) [0; 1] [0; 0] d)).
  assert (Hd' : 40 <= d <= 50) by (cbn in Hd; intuition lia). clear Hd.
  split; apply (vsps_evaluates toyR toyR_ok); try reflexivity; try (cbn; lia);
    try (repeat constructor; cbn; intuition lia); try (repeat constructor; unfold u8; lia);
    try (intros x Hx; apply (line_nonzero toyR toyR_ok); cbn in Hx; intuition lia);
    (intros x Hx; apply small_mod; cbn in Hx; intuition lia).
Qed.
