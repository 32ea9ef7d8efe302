(** Property theorems C97: wrong and repeated responses in a quorum (src/toprf.c:131-205).
    Vocabulary: ToprfSpec.v. *)
From Coq Require Import ZArith Lia List Bool Permutation.
From Verif Require Import PrimeL Bytes Res Sodium OprfModel ToprfModel ToprfSpec.
From Verif Require Import TamperProofs ToprfExamples TamperExamples.
Import ListNotations.
Open Scope list_scope.
Open Scope Z_scope.

(** C97 as one would want it: combining reports a wrong response and a repeated one.  It does
    neither: with one response of an honest quorum replaced, or counted twice, success is returned
    together with a value that is not the secret times the element. *)
Theorem C97_wrong_refuted : exists R secret n t a buf shares qs alpha P i v v' r junk out,
  ristretto_ok R /\ sharing_params secret n t a buf /\ create_shares secret n t a buf = Ok shares /\
  quorum t shares qs /\ rdec R alpha = Some P /\
  Forall2 (fun s p => p_index p = s_index s /\ oprf_Evaluate R (s_value s) alpha = (0, Some (p_value p)))
    qs (mkPart i v :: r) /\
  length junk = length (mkPart i v :: r) /\ v' <> v /\
  thresholdmult R (mkPart i v' :: r) junk = Ok (0, out) /\ out <> renc R (rsmul R secret P).
Proof. exact tm_wrong. Qed.
Print Assumptions C97_wrong_refuted.

Theorem C97_repeated_refuted : exists R secret n t a buf shares qs alpha P p r junk out,
  ristretto_ok R /\ sharing_params secret n t a buf /\ create_shares secret n t a buf = Ok shares /\
  quorum t shares qs /\ rdec R alpha = Some P /\
  Forall2 (fun s p => p_index p = s_index s /\ oprf_Evaluate R (s_value s) alpha = (0, Some (p_value p)))
    qs (p :: r) /\
  length junk = length (p :: p :: r) /\
  thresholdmult R (p :: p :: r) junk = Ok (0, out) /\ out <> renc R (rsmul R secret P).
Proof. exact tm_repeated. Qed.
Print Assumptions C97_repeated_refuted.

(** C97, what holds instead.  One wrong response in an honest quorum of any size never goes
    unnoticed by a caller who can recognise the right value: the call fails, or the value is
    wrong. *)
Theorem C97_one_wrong_never_right_partial : forall R, ristretto_ok R ->
  forall secret n t a buf shares qs alpha P junk l i v v' r ret out,
  sharing_params secret n t a buf -> create_shares secret n t a buf = Ok shares ->
  quorum t shares qs -> rdec R alpha = Some P ->
  Forall2 (fun s p => p_index p = s_index s /\ oprf_Evaluate R (s_value s) alpha = (0, Some (p_value p)))
    qs (l ++ mkPart i v :: r) ->
  length junk = length (l ++ mkPart i v :: r) -> v' <> v ->
  thresholdmult R (l ++ mkPart i v' :: r) junk = Ok (ret, out) ->
  ret = 1 \/ (ret = 0 /\ out <> renc R (rsmul R secret P)).
Proof. exact one_wrong_quorum. Qed.
Print Assumptions C97_one_wrong_never_right_partial.

(** C97, for any responses at all: changing exactly one of them changes the result. *)
Theorem C97_one_change_changes_mult : forall R, ristretto_ok R -> forall l i v v' r junk out out',
  length junk = length (l ++ mkPart i v :: r) ->
  Forall index_ok (map p_index (l ++ mkPart i v :: r)) -> v <> v' ->
  thresholdmult R (l ++ mkPart i v :: r) junk = Ok (0, out) ->
  thresholdmult R (l ++ mkPart i v' :: r) junk = Ok (0, out') -> out <> out'.
Proof. exact one_wrong. Qed.
Print Assumptions C97_one_change_changes_mult.

Theorem C97_one_change_changes_combine : forall R, ristretto_ok R -> forall l i v v' r r0 out out',
  (length (l ++ mkPart i v :: r) <= 255)%nat ->
  is_valid_point R v = true -> is_valid_point R v' = true -> v <> v' ->
  thresholdcombine R (l ++ mkPart i v :: r) r0 = Ok (0, out) ->
  thresholdcombine R (l ++ mkPart i v' :: r) r0 = Ok (0, out') -> out <> out'.
Proof. exact one_wrong_combine. Qed.
Print Assumptions C97_one_change_changes_combine.

(** C97, a response other than the identity counted twice by the combining call always changes
    its result. *)
Theorem C97_repeated_changes_combine : forall R, ristretto_ok R -> forall p parts r0 out out2,
  (length (p :: parts) <= 255)%nat ->
  is_valid_point R (p_value p) = true -> p_value p <> zeros 32 ->
  In p parts -> thresholdcombine R parts r0 = Ok (0, out) ->
  thresholdcombine R (p :: parts) r0 = Ok (0, out2) -> out <> out2.
Proof. exact twice_combine. Qed.
Print Assumptions C97_repeated_changes_combine.

Example C97_repeated_nonvacuous : exists p parts (r0 out out2 : bytes), (length (p :: parts) <= 255)%nat /\
  is_valid_point toyR (p_value p) = true /\ p_value p <> zeros 32 /\ In p parts /\ (1 < length parts)%nat /\
  thresholdcombine toyR parts r0 = Ok (0, out) /\ thresholdcombine toyR (p :: parts) r0 = Ok (0, out2).
Proof. exact tm_combine. Qed.

(** C97, two wrong responses can cancel out. *)
Theorem C97_two_wrong_can_cancel : exists R secret n t a buf shares qs alpha P p1 p2 v1 v2 junk,
  ristretto_ok R /\ sharing_params secret n t a buf /\ create_shares secret n t a buf = Ok shares /\
  quorum t shares qs /\ rdec R alpha = Some P /\
  Forall2 (fun s p => p_index p = s_index s /\ oprf_Evaluate R (s_value s) alpha = (0, Some (p_value p)))
    qs [p1; p2] /\ length junk = length [p1; p2] /\
  v1 <> p_value p1 /\ v2 <> p_value p2 /\
  thresholdmult R [mkPart (p_index p1) v1; mkPart (p_index p2) v2] junk = Ok (0, renc R (rsmul R secret P)).
Proof. exact tm_cancel. Qed.
Print Assumptions C97_two_wrong_can_cancel.

(** C97, whoever answers last decides: whatever the others sent, of any two group elements there
    is one that a single response can make the result, and success is returned. *)
Theorem C97_last_answer_decides : forall R, ristretto_ok R -> forall l i r junk T1 T2,
  (length (l ++ mkPart i [] :: r) <= 255)%nat ->
  length junk = length (l ++ mkPart i [] :: r) -> Forall index_ok (map p_index (l ++ mkPart i [] :: r)) ->
  (forall p, In p (l ++ r) -> exists P, rdec R (p_value p) = Some P /\ P <> rzero R) ->
  T1 <> T2 ->
  exists T, (T = T1 \/ T = T2) /\ exists v, thresholdmult R (l ++ mkPart i v :: r) junk = Ok (0, renc R T).
Proof. exact can_force. Qed.
Print Assumptions C97_last_answer_decides.

Example C97_last_nonvacuous : exists l i r (junk : list Z) (T1 T2 : rG toyR), (length (l ++ mkPart i [] :: r) <= 255)%nat /\
  length junk = length (l ++ mkPart i [] :: r) /\ Forall index_ok (map p_index (l ++ mkPart i [] :: r)) /\
  (forall p, In p (l ++ r) -> exists P, rdec toyR (p_value p) = Some P /\ P <> rzero toyR) /\
  T1 <> T2 /\ l <> [] /\ r <> [].
Proof. exact tm_force. Qed.
