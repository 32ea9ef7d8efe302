(** Vocabulary of C84 *)
From Coq Require Import ZArith List.
From Coq.Strings Require Import Byte.
From Verif Require Import PrimeL Fq Bytes Sodium.
Import ListNotations.
Open Scope list_scope.
Open Scope Z_scope.

(** the point the shares of zero are multiplied with: ssid and alpha hashed to the group *)
Definition mask (R : ristretto) (H : hashes) (ssid alpha : bytes) : rG R := rmap R (blake2b H 64 (ssid ++ alpha)).
