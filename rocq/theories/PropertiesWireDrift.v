(** Property theorems C27, continued: how far accepted time stamps move apart.
    Vocabulary: WireHistory.v, WireSpec.v. *)
From Coq Require Import ZArith List Bool.
From Coq.Strings Require Import Byte.
From Verif Require Import Bytes Res Mem Sodium WireModel WireSpec WireHistory.
From Verif Require Import WireExamples WireDrift.
Import ListNotations.
Open Scope list_scope.
Open Scope Z_scope.

(** C27 for all histories: a later accepted time stamp is not smaller, and larger by at most one window
    for itself and one for each message in between that was accepted or failed only in its signature.
    (C27_consecutive_within_window_refuted: without the latter the bound does not hold; missing: the
    time stamp 0, which means that nothing is recorded.) *)
Theorem C27_drift_partial : forall S window, 0 <= window -> forall l recorded outs, 0 <= recorded -> Forall arrival_ok l -> recv_history S window recorded l = Ok outs ->
  forall before a between b after, outs = before ++ (0, a) :: between ++ (0, b) :: after -> 0 < a ->
  0 <= b - a <= window * (1 + zlen (filter (fun o => (fst o =? 0) || (fst o =? 6)) between)).
Proof. exact drift. Qed.
Print Assumptions C27_drift_partial.

Example C27_drift_nonvacuous : exists l outs, Forall arrival_ok l /\ recv_history toyS 3600 0 l = Ok outs /\
  outs = [] ++ (0, 1700000000) :: [(6, 1700003600); (5, 1699999999)] ++ (0, 1700007200) :: [].
Proof. exact C27_drift_example. Qed.
