(** Vocabulary of C107: a key update by any dealers, few or many. *)
From Coq Require Import ZArith List.
From Verif Require Import PrimeL Bytes Res Sodium OprfSpec ToprfModel ToprfSpec DkgModel MpmultModel MulSpec UpdateSpec.
Import ListNotations.
Open Scope list_scope.
Open Scope Z_scope.

(** an update as in UpdateSpec.v, without a condition on the number of dealers *)
Definition update_by (dealers : list Z) (d : deployment) (dshares : list share) (d' : deployment) : Prop :=
  exists dealt, NoDup dealers /\ 1 <= d_n d' <= 254 /\
    dealt_products (d_shares d) dshares (d_n d') (d_t d') dealers dealt /\
    Forall2 (fun j s => exists recv junk, collected (d_n d') dealt j recv /\ s = mpc_mul_finish dealers j recv junk)
      (zrange 1 (Z.to_nat (d_n d'))) (d_shares d').

(** shares of [K] as toprf_create_shares makes them from the coefficients it draws, which are not 0 *)
Definition drawn_key (K : Z) (d : deployment) : Prop :=
  exists a buf, Forall random_scalar a /\ sharing_params K (d_n d) (d_t d) a buf /\ create_shares K (d_n d) (d_t d) a buf = Ok (d_shares d).
