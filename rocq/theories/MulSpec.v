(** Vocabulary of C90: two shared keys are multiplied (src/mpmult.c). *)
From Coq Require Import ZArith List.
From Verif Require Import PrimeL Bytes Res Sodium ToprfModel ToprfSpec DkgModel MpmultModel.
Import ListNotations.
Open Scope list_scope.
Open Scope Z_scope.

(** Each of the [dealers] (given by their numbers) holds a share of both keys and calls toprf_mpc_mul_start
    for [n] recipients and the threshold [t]; [dealt] is what the calls return, in the order of the dealers. *)
Definition dealt_products (ashares bshares : list share) (n t : Z) (dealers : list Z) (dealt : list (list share)) : Prop :=
  Forall2 (fun d shs => exists sa sb r buf, In sa ashares /\ In sb bshares /\ s_index sa = d /\ s_index sb = d /\
     Z.of_nat (length r) = t - 1 /\ Z.of_nat (length buf) = n /\
     mpc_mul_start sa sb n t r buf = Ok (0, shs)) dealers dealt.

(** Recipient [j] has got its share from every dealer. *)
Definition collected (n : Z) (dealt : list (list share)) (j : Z) (recv : list share) : Prop :=
  1 <= j <= n /\ Forall2 (fun shs s => nth_error shs (Z.to_nat (j - 1)) = Some s) dealt recv.
