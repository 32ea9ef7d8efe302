(** Property theorems C108: a dealer that deals something else in a key update.
    Vocabulary: DeviateSpec.v, UpdateSpec.v, MulSpec.v, ToprfSpec.v. *)
From Coq Require Import ZArith Lia List Bool.
From Verif Require Import PrimeL Bytes Res Sodium ToprfModel ToprfSpec DkgModel MpmultModel MulSpec UpdateSpec DeviateSpec.
From Verif Require Import Deviate DeviateExamples.
Import ListNotations.
Open Scope list_scope.
Open Scope Z_scope.

(** C108.  Full statement: if the servers end with shares of one key, it is the product of the two keys, although
    one dealer added something to what it deals.  False: nothing shows what a dealer dealt. *)
Theorem C108_tampering_refuted : ~ (forall z e K delta d dshares dealers d' K', 0 <= e < L -> shares_key K d -> shares_key delta (mkDep (d_n d) (d_t d) dshares) -> In z dealers ->
  tampered z e dealers d dshares d' -> shares_key K' d' -> K' = (K * delta) mod L).
Proof. exact C108_refutation. Qed.
Print Assumptions C108_tampering_refuted.

(** The dealer chooses by how much the new key is off.  It needs to know the numbers of the dealers for this, and
    neither key nor anything that the others deal. *)
Theorem C108_dealer_chooses : forall dealers z, NoDup dealers -> Forall (fun i => 1 <= i <= 254) dealers -> In z dealers -> forall c, 0 <= c < L -> exists e, 0 <= e < L /\
  forall K delta d dshares d', shares_key K d -> shares_key delta (mkDep (d_n d) (d_t d) dshares) -> tampered z e dealers d dshares d' -> shares_key ((K * delta + c) mod L) d'.
Proof. exact chosen_offset. Qed.
Print Assumptions C108_dealer_chooses.

(** Such an update always goes through. *)
Theorem C108_goes_through : forall z e K delta d dshares n t dealers, shares_key K d -> shares_key delta (mkDep (d_n d) (d_t d) dshares) -> 1 <= t <= n -> n <= 254 ->
  NoDup dealers -> Forall (fun i => 1 <= i <= d_n d) dealers -> 2 * d_t d - 1 <= Z.of_nat (length dealers) ->
  exists d', d_n d' = n /\ d_t d' = t /\ tampered z e dealers d dshares d'.
Proof. exact can_tamper. Qed.
Print Assumptions C108_goes_through.

(** What is missing: the dealer has to add nothing.  Whatever it adds, the new servers hold shares of one key, and
    this is the product exactly if it adds nothing. *)
Theorem C108_exact_partial : forall dealers z e K delta d dshares d', Forall (fun i => 1 <= i <= 254) dealers -> In z dealers -> 0 <= e < L ->
  shares_key K d -> shares_key delta (mkDep (d_n d) (d_t d) dshares) -> tampered z e dealers d dshares d' -> exists K', shares_key K' d' /\ (K' = (K * delta) mod L <-> e = 0).
Proof. exact tampered_iff. Qed.
Print Assumptions C108_exact_partial.

Example C108_nonvacuous : forall e, exists K delta d dshares dealers z d', shares_key K d /\ shares_key delta (mkDep (d_n d) (d_t d) dshares) /\ tampered z e dealers d dshares d' /\ NoDup dealers /\
  Forall (fun i => 1 <= i <= 254) dealers /\ In z dealers /\ K = 5 /\ delta = 7 /\ d_n d = 5 /\ d_t d = 3 /\ dealers = [4; 1; 5; 2; 3] /\ z = 5 /\ d_n d' = 6 /\ d_t d' = 2.
Proof. exact C108_example. Qed.
