(** Property theorems C107: too few dealers in a key update.
    Vocabulary: ShortSpec.v, UpdateSpec.v, MulSpec.v, ToprfSpec.v. *)
From Coq Require Import ZArith Lia List Bool.
From Verif Require Import PrimeL Bytes Res Sodium ToprfModel ToprfSpec DkgModel MpmultModel MulSpec UpdateSpec ShortSpec.
From Verif Require Import Short ShortExamples.
Import ListNotations.
Open Scope list_scope.
Open Scope Z_scope.

(** C107.  Full statement: if all calls of an update succeed and the servers end with shares of one key,
    it is the product of the two keys.  False: the number of dealers is not checked. *)
Theorem C107_product_refuted : ~ (forall K delta d dshares dealers d' K', drawn_key K d -> drawn_key delta (mkDep (d_n d) (d_t d) dshares) -> dealers <> [] ->
  update_by dealers d dshares d' -> shares_key K' d' -> K' = (K * delta) mod L).
Proof. exact C107_refutation. Qed.
Print Assumptions C107_product_refuted.

(** With one dealer less than needed it is always another key: all servers hold consistent shares, of a key
    that is not the product, whatever the two keys and the coefficients drawn. *)
Theorem C107_one_dealer_short : forall K delta d dshares dealers d', drawn_key K d -> drawn_key delta (mkDep (d_n d) (d_t d) dshares) ->
  update_by dealers d dshares d' -> 2 <= d_t d -> Z.of_nat (length dealers) = 2 * d_t d - 2 ->
  exists K', shares_key K' d' /\ K' <> (K * delta) mod L.
Proof. exact unnoticed. Qed.
Print Assumptions C107_one_dealer_short.

Example C107_nonvacuous : exists K delta d dshares dealers d', drawn_key K d /\ drawn_key delta (mkDep (d_n d) (d_t d) dshares) /\ update_by dealers d dshares d' /\ 2 <= d_t d /\
  Z.of_nat (length dealers) = 2 * d_t d - 2 /\ K = 5 /\ delta = 7 /\ d_n d = 5 /\ d_t d = 3 /\ dealers = [4; 1; 5; 2] /\ d_n d' = 6 /\ d_t d' = 2.
Proof. exact C107_example. Qed.

(** Any dealers, however few, get through, and the servers then hold shares of some key. *)
Theorem C107_any_dealers : forall K delta d dshares n t dealers, shares_key K d -> shares_key delta (mkDep (d_n d) (d_t d) dshares) -> 1 <= t <= n -> n <= 254 ->
  NoDup dealers -> Forall (fun i => 1 <= i <= d_n d) dealers -> dealers <> [] ->
  exists d' K', d_n d' = n /\ d_t d' = t /\ update_by dealers d dshares d' /\ shares_key K' d'.
Proof. exact any_dealers. Qed.
Print Assumptions C107_any_dealers.

(** What is missing: the number of dealers has to be right. *)
Theorem C107_enough_dealers_partial : forall K delta d dshares dealers d' K', shares_key K d -> shares_key delta (mkDep (d_n d) (d_t d) dshares) ->
  update_by dealers d dshares d' -> 2 * d_t d - 1 <= Z.of_nat (length dealers) -> shares_key K' d' -> K' = (K * delta) mod L.
Proof. exact enough_right. Qed.
Print Assumptions C107_enough_dealers_partial.

Example C107_enough_nonvacuous : exists K delta d dshares dealers d' K', shares_key K d /\ shares_key delta (mkDep (d_n d) (d_t d) dshares) /\ update_by dealers d dshares d' /\
  2 * d_t d - 1 <= Z.of_nat (length dealers) /\ shares_key K' d' /\ K = 5 /\ delta = 7 /\ d_n d = 5 /\ d_t d = 3 /\ dealers = [4; 1; 5; 2; 3].
Proof. exact C107_enough_example. Qed.
