(** Property theorems C102: the degree check for committed polynomials (src/tests/mpmult.c).
    Vocabulary: VspsSpec.v (commitment, commitments), ToprfSpec.v (poly, u8). *)
From Coq Require Import ZArith List.
From Verif Require Import PrimeL Bytes Res Sodium ToprfSpec MpmultModel VspsModel VspsSpec Vsps VspsExamples.
Import ListNotations.
Open Scope list_scope.
Open Scope Z_scope.

(** C102 as stated: commitments to a polynomial with t+1 coefficients pass the check, delta being
    drawn outside the positions and none of the commitments being the identity.  It fails even if the
    byte that is not initialised has the value that was meant, t+1. *)
Theorem C102_honest_accepted_refuted : forall R, ristretto_ok R ->
  ~ (forall h t f r delta junk out, (1 <= t <= 100)%nat -> length f = (t + 1)%nat -> length r = (t + 1)%nat ->
       Forall (fun c => 0 <= c < L) f -> Forall (fun c => 0 <= c < L) r ->
       (forall i, (1 <= i <= 2 * t + 2)%nat -> commitment R h f r (Z.of_nat i) <> rzero R) ->
       random_scalar delta -> (forall i, (1 <= i <= 2 * t + 2)%nat -> delta <> Z.of_nat i) -> junk = Z.of_nat (t + 1) ->
       vsps_check R t (commitments R h f r (2 * t + 2)) delta junk out = Ok 0).
Proof. exact honest_rejected. Qed.
Print Assumptions C102_honest_accepted_refuted.

(** How it fails: commitments to the line f(x) = x are rejected for every value of the byte other than
    1 and every delta but the one with (10 * junk - 13) * delta = 1 mod L. *)
Theorem C102_line_rejected : forall R, ristretto_ok R -> forall h junk delta out, u8 junk -> junk <> 1 ->
  ((10 * junk - 13) * delta) mod L <> 1 ->
  vsps_check R 1 (commitments R h [0; 1] [0; 0] 4) delta junk out = Ok 1.
Proof. exact line_rejected. Qed.
Print Assumptions C102_line_rejected.

Example C102_line_nonvacuous : exists junk delta, u8 junk /\ junk <> 1 /\ ((10 * junk - 13) * delta) mod L <> 1 /\ junk = 2 /\ delta = 77.
Proof. exact C102_rejected_example. Qed.

(** What holds of its parts: given the inverse matrix with rows of t+1 entries and the commitments at
    the t+1 positions of that matrix, _vsps computes the commitment at delta; two such windows give the
    same result. *)
Theorem C102_evaluates_partial : forall R, ristretto_ok R -> forall h t f r xs delta out,
  length xs = (t + 1)%nat -> NoDup xs -> Forall u8 xs -> (length f <= t + 1)%nat -> (length r <= t + 1)%nat ->
  (forall x, In x xs -> commitment R h f r x <> rzero R) -> (forall x, In x xs -> delta mod L <> x) ->
  vsps R t (map (fun x => renc R (commitment R h f r x)) xs) delta (invertedVDMmatrix xs out) =
  Ok (0, renc R (commitment R h f r delta)).
Proof. exact vsps_evaluates. Qed.
Print Assumptions C102_evaluates_partial.

Example C102_evaluates_nonvacuous : exists R h t f r xs delta, ristretto_ok R /\ length xs = (t + 1)%nat /\ NoDup xs /\ Forall u8 xs /\
  (length f <= t + 1)%nat /\ (length r <= t + 1)%nat /\
  (forall x, In x xs -> commitment R h f r x <> rzero R) /\ (forall x, In x xs -> delta mod L <> x) /\ t = 3%nat /\ xs = [4; 5; 6; 7].
Proof. exact C102_evaluates_example. Qed.

(** ... and the results of two windows over any group elements agree for more than t values of delta
    only if all of the elements lie on one polynomial with t+1 coefficients. *)
Theorem C102_agreement_partial : forall R, ristretto_ok R -> forall t (P : Z -> rG R) xs ys deltas out,
  length xs = (t + 1)%nat -> length ys = (t + 1)%nat -> NoDup xs -> NoDup ys -> Forall u8 xs -> Forall u8 ys ->
  NoDup deltas -> Forall (fun d => 0 <= d < L) deltas -> (t + 1 <= length deltas)%nat ->
  (forall d, In d deltas -> exists v,
     vsps R t (map (fun x => renc R (P x)) xs) d (invertedVDMmatrix xs out) = Ok (0, v) /\
     vsps R t (map (fun x => renc R (P x)) ys) d (invertedVDMmatrix ys out) = Ok (0, v)) ->
  exists cs, length cs = (t + 1)%nat /\ forall x, In x xs \/ In x ys -> P x = rsmul R (poly cs x mod L) (rbase R).
Proof. exact vsps_sound. Qed.
Print Assumptions C102_agreement_partial.

Example C102_agreement_nonvacuous : exists R t (P : Z -> rG R) xs ys deltas out, ristretto_ok R /\
  length xs = (t + 1)%nat /\ length ys = (t + 1)%nat /\ NoDup xs /\ NoDup ys /\ Forall u8 xs /\ Forall u8 ys /\
  NoDup deltas /\ Forall (fun d => 0 <= d < L) deltas /\ (t + 1 <= length deltas)%nat /\
  (forall d, In d deltas -> exists v,
     vsps R t (map (fun x => renc R (P x)) xs) d (invertedVDMmatrix xs out) = Ok (0, v) /\
     vsps R t (map (fun x => renc R (P x)) ys) d (invertedVDMmatrix ys out) = Ok (0, v)) /\ t = 1%nat /\ xs = [1; 2] /\ ys = [2; 3].
Proof. exact C102_sound_example. Qed.
