(** Vocabulary of C108: a key update in which one dealer deals something else. *)
From Coq Require Import ZArith List.
From Verif Require Import PrimeL Bytes Res Sodium ToprfModel ToprfSpec DkgModel MpmultModel MulSpec UpdateSpec.
Import ListNotations.
Open Scope list_scope.
Open Scope Z_scope.

(** An update as in UpdateSpec.v, but the dealer with the number [z] deals shares of the product of its two
    shares plus [e] (docs/tp-update.txt; src/mpmult.c 155-173, 175-200: the caller of toprf_mpc_mul_finish cannot tell). *)
Definition tampered (z e : Z) (dealers : list Z) (d : deployment) (dshares : list share) (d' : deployment) : Prop :=
  exists dealt, NoDup dealers /\ 2 * d_t d - 1 <= Z.of_nat (length dealers) /\ 1 <= d_n d' <= 254 /\ 1 <= d_t d' <= d_n d' /\
    Forall2 (fun i shs => exists sa sb r buf, In sa (d_shares d) /\ In sb dshares /\ s_index sa = i /\ s_index sb = i /\
        Z.of_nat (length r) = d_t d' - 1 /\ Z.of_nat (length buf) = d_n d' /\
        if i =? z then create_shares ((s_value sa * s_value sb + e) mod L) (d_n d') (d_t d') r buf = Ok shs
        else mpc_mul_start sa sb (d_n d') (d_t d') r buf = Ok (0, shs)) dealers dealt /\
    Forall2 (fun j s => exists recv junk, collected (d_n d') dealt j recv /\ s = mpc_mul_finish dealers j recv junk)
      (zrange 1 (Z.to_nat (d_n d'))) (d_shares d').
