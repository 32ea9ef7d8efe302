(** Vocabulary of C109: in a key update one dealer sends something else to one of the new servers. *)
From Coq Require Import ZArith List.
From Verif Require Import PrimeL Bytes Res Sodium ToprfModel ToprfSpec DkgModel MpmultModel MulSpec UpdateSpec.
Import ListNotations.
Open Scope list_scope.
Open Scope Z_scope.

(** what is received from the [dealers], with [e] added to what the dealer [z] sent *)
Definition altered (z e : Z) (dealers : list Z) (recv : list share) : list share :=
  map (fun '(i, s) => if i =? z then mkShare (s_index s) ((s_value s + e) mod L) else s) (combine dealers recv).

(** An update as in UpdateSpec.v, but the dealer [z] adds [e] to the share that it sends to the new server [j]
    (docs/tp-update.txt; src/mpmult.c 155-173, 175-200). *)
Definition selective (z j e : Z) (d : deployment) (dshares : list share) (d' : deployment) : Prop :=
  exists dealers dealt, NoDup dealers /\ In z dealers /\ 2 * d_t d - 1 <= Z.of_nat (length dealers) /\ 1 <= d_n d' <= 254 /\
    dealt_products (d_shares d) dshares (d_n d') (d_t d') dealers dealt /\
    Forall2 (fun i s => exists recv junk, collected (d_n d') dealt i recv /\
        s = mpc_mul_finish dealers i (if i =? j then altered z e dealers recv else recv) junk)
      (zrange 1 (Z.to_nat (d_n d'))) (d_shares d').
