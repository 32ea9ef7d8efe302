(** Property theorems C109: a dealer that sends something else to one server in a key update.
    Vocabulary: SelectSpec.v, UpdateSpec.v, MulSpec.v, ToprfSpec.v. *)
From Coq Require Import ZArith Lia List Bool.
From Verif Require Import PrimeL Bytes Res Sodium ToprfModel ToprfSpec DkgModel MpmultModel MulSpec UpdateSpec SelectSpec.
From Verif Require Import Select SelectExamples.
Import ListNotations.
Open Scope list_scope.
Open Scope Z_scope.

(** C109.  Full statement: after an update any two quorums hold the same key, although one dealer sent something
    else to one server.  False: shares are not checked when they are received. *)
Theorem C109_quorums_agree_refuted : ~ (forall z j e K delta d dshares d' qs qs', 0 <= e < L -> shares_key K d -> shares_key delta (mkDep (d_n d) (d_t d) dshares) -> selective z j e d dshares d' ->
  quorum (d_t d') (d_shares d') qs -> quorum (d_t d') (d_shares d') qs' -> dkg_reconstruct qs = dkg_reconstruct qs').
Proof. exact C109_refutation. Qed.
Print Assumptions C109_quorums_agree_refuted.

(** Which quorums are right: exactly those without the server that got something else (all, if nothing was added).
    Every quorum with that server is wrong, however many other servers are in it. *)
Theorem C109_right_quorums_partial : forall K delta d dshares z j e d' qs, shares_key K d -> shares_key delta (mkDep (d_n d) (d_t d) dshares) -> selective z j e d dshares d' -> 0 <= e < L ->
  quorum (d_t d') (d_shares d') qs -> dkg_reconstruct qs = (K * delta) mod L <-> (~ In j (map s_index qs) \/ e = 0).
Proof. exact quorum_key. Qed.
Print Assumptions C109_right_quorums_partial.

(** Such an update always goes through. *)
Theorem C109_goes_through : forall z j e K delta d dshares n t dealers, shares_key K d -> shares_key delta (mkDep (d_n d) (d_t d) dshares) -> 1 <= t <= n -> n <= 254 ->
  NoDup dealers -> Forall (fun i => 1 <= i <= d_n d) dealers -> 2 * d_t d - 1 <= Z.of_nat (length dealers) -> In z dealers ->
  exists d', d_n d' = n /\ d_t d' = t /\ selective z j e d dshares d'.
Proof. exact can_select. Qed.
Print Assumptions C109_goes_through.

Example C109_nonvacuous : forall e, exists K delta d dshares z j d' with_j without_j, shares_key K d /\ shares_key delta (mkDep (d_n d) (d_t d) dshares) /\ selective z j e d dshares d' /\
  quorum (d_t d') (d_shares d') with_j /\ quorum (d_t d') (d_shares d') without_j /\ map s_index with_j = [3; 1] /\ map s_index without_j = [4; 2] /\
  K = 5 /\ delta = 7 /\ d_n d = 5 /\ d_t d = 3 /\ z = 5 /\ j = 3 /\ d_n d' = 6 /\ d_t d' = 2.
Proof. exact C109_example. Qed.
