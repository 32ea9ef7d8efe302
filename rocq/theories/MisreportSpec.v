(** Vocabulary of C110: after a key update one server reports a wrong share of delta. *)
From Coq Require Import ZArith List.
From Verif Require Import PrimeL Bytes Res Sodium ToprfModel ToprfSpec.
Import ListNotations.
Open Scope list_scope.
Open Scope Z_scope.

(** what arrives instead of the shares [qs], if the server [j] adds [e] to its share (docs/tp-update.txt 39: the shares
    of delta are sent to the party that puts them together, dkg_reconstruct, src/dkg.c 177-193) *)
Definition misreported (j e : Z) (qs : list share) : list share :=
  map (fun s => if s_index s =? j then mkShare (s_index s) ((s_value s + e) mod L) else s) qs.
