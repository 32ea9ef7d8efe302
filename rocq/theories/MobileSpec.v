(** Vocabulary of C106: somebody who gets hold of servers, of other ones after each update of the key. *)
From Coq Require Import ZArith List Bool.
From Verif Require Import PrimeL Bytes Res Sodium ToprfModel ToprfSpec DkgModel MpmultModel MulSpec UpdateSpec.
Import ListNotations.
Open Scope list_scope.
Open Scope Z_scope.

(** One update in all detail: the shares of delta, the dealers, what each of them dealt (in that order),
    the new deployment, and the numbers of the servers of the new deployment that the adversary gets hold of. *)
Record epoch := mkEpoch { e_dshares : list share; e_dealers : list Z; e_dealt : list (list share); e_new : deployment; e_taken : list Z }.

(** it is an update (as in UpdateSpec.v) of the deployment [d] *)
Definition updates (d : deployment) (e : epoch) : Prop :=
  (exists delta, shares_key delta (mkDep (d_n d) (d_t d) (e_dshares e))) /\
  NoDup (e_dealers e) /\ 2 * d_t d - 1 <= Z.of_nat (length (e_dealers e)) /\ 1 <= d_n (e_new e) <= 254 /\
  dealt_products (d_shares d) (e_dshares e) (d_n (e_new e)) (d_t (e_new e)) (e_dealers e) (e_dealt e) /\
  Forall2 (fun j s => exists recv junk, collected (d_n (e_new e)) (e_dealt e) j recv /\ s = mpc_mul_finish (e_dealers e) j recv junk)
    (zrange 1 (Z.to_nat (d_n (e_new e)))) (d_shares (e_new e)).

Fixpoint all_updates (d : deployment) (es : list epoch) : Prop :=
  match es with [] => True | e :: rest => updates d e /\ all_updates (e_new e) rest end.

(** one server less than are needed, of each deployment *)
Definition one_short (taken : list Z) (d : deployment) : Prop :=
  NoDup taken /\ Forall (fun i => 1 <= i <= d_n d) taken /\ Z.of_nat (length taken) = d_t d - 1.

Definition mine (taken : list Z) (s : share) : bool := existsb (Z.eqb (s_index s)) taken.

(** What is seen of a deployment: its sizes and the shares of the servers taken. *)
Definition sees_shares (taken : list Z) (d : deployment) : Z * Z * list share := (d_n d, d_t d, filter (mine taken) (d_shares d)).

(** What is seen of an update: all shares of delta (they are reported, and nothing is lost if they all are);
    who deals; all that the dealers that are taken deal; what every dealer sends to the servers that
    will be taken after the update; and the new shares of those. *)
Definition sees_update (taken : list Z) (e : epoch) :=
  (e_dshares e, e_dealers e,
   map (fun p => if existsb (Z.eqb (fst p)) taken then Some (snd p) else None) (combine (e_dealers e) (e_dealt e)),
   map (filter (mine (e_taken e))) (e_dealt e), e_taken e, sees_shares (e_taken e) (e_new e)).

Fixpoint sees_updates (taken : list Z) (es : list epoch) :=
  match es with [] => [] | e :: rest => sees_update taken e :: sees_updates (e_taken e) rest end.
