(** Specification vocabulary for threshold sharing: plain integer arithmetic modulo the
    group order L, independent of the model. *)
From Coq Require Import ZArith List.
From Verif Require Import PrimeL Bytes Sodium ToprfModel.
Import ListNotations.
Open Scope Z_scope.

(** c0 + c1*x + c2*x^2 + ... over the integers *)
Fixpoint poly (cs : list Z) (x : Z) : Z :=
  match cs with
  | [] => 0
  | c :: cs' => c + x * poly cs' x
  end.

Definition zprod (l : list Z) : Z := fold_right Z.mul 1 l.
Definition zsum (l : list Z) : Z := fold_right Z.add 0 l.

(** a value a uint8_t can hold, and a valid participant index *)
Definition u8 (i : Z) : Prop := 0 <= i <= 255.
Definition index_ok (i : Z) : Prop := 1 <= i <= 255.

(** the shares of the polynomial cs at 1..n *)
Definition shares_of (cs : list Z) (n : Z) : list share :=
  map (fun i => mkShare i (poly cs i mod L)) (map Z.of_nat (seq 1 (Z.to_nat n))).

(** a quorum: distinct shares out of [all], at least t of them, in any order *)
Definition quorum (t : Z) (all qs : list share) : Prop :=
  NoDup qs /\ incl qs all /\ t <= Z.of_nat (length qs).

(** usable parameters of create_shares: a canonical secret, n and t the code supports (see
    C15 for the rest), t-1 coefficients drawn, an array of n shares *)
Definition sharing_params (secret n t : Z) (a : list Z) (buf : list share) : Prop :=
  0 <= secret < L /\ 1 <= n <= 254 /\ 1 <= t <= 255 /\
  Z.of_nat (length a) = t - 1 /\ Z.of_nat (length buf) = n.
