(** What the degree check is about: commitments to the values of a polynomial. *)
From Coq Require Import ZArith List.
From Verif Require Import PrimeL Bytes Sodium ToprfSpec.
Import ListNotations.
Open Scope Z_scope.

(** the commitment g^f(x) * h^r(x), written additively *)
Definition commitment (R : ristretto) (h : rG R) (f r : list Z) (x : Z) : rG R :=
  radd R (rsmul R (poly f x mod L) (rbase R)) (rsmul R (poly r x mod L) h).

(** the array of commitments at 1, 2, ..., n *)
Definition commitments (R : ristretto) (h : rG R) (f r : list Z) (n : nat) : list bytes :=
  map (fun i => renc R (commitment R h f r (Z.of_nat i))) (seq 1 n).
