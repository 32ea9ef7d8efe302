(** Vocabulary of C81: the servers that hold [qs] compute the OPRF with key [K]. *)
From Coq Require Import ZArith List Permutation.
From Coq.Strings Require Import Byte.
From Verif Require Import PrimeL Bytes Res Sodium OprfModel OprfSpec ToprfModel ToprfSpec.
Import ListNotations.
Open Scope list_scope.
Open Scope Z_scope.

(** RFC 9497, OPRF(ristretto255, SHA-512): the value of the function with key [K] at [x] *)
Definition oprf_value (R : ristretto) (H : hashes) (K : Z) (x : bytes) : bytes :=
  sha512 H (rfc_hashInput x (renc R (rsmul R K (HashToGroup R H x)))).

(** what a client with input [x] and blind [r] gets out of the combined answer [beta] *)
Definition client_gets (R : ristretto) (H : hashes) (x : bytes) (r : Z) (beta v : bytes) : Prop :=
  exists N, oprf_Unblind R true r beta = (0, Some N) /\ oprf_Finalize H true x (Z.of_nat (length x)) N = Ok (0, Some v).

(** The answers of the servers, in the order of [qs].  [with_mult]: each server multiplies, the client
    combines (oprf_Evaluate / toprf_thresholdmult).  [with_combine]: the servers know who takes part
    (toprf_Evaluate / toprf_thresholdcombine).  [with_3hashtdh]: with a sharing of 0 as well. *)
Definition with_mult (R : ristretto) (alpha : bytes) (qs : list share) (parts : list part) : Prop :=
  Forall2 (fun s p => p_index p = s_index s /\ oprf_Evaluate R (s_value s) alpha = (0, Some (p_value p))) qs parts.
Definition with_combine (R : ristretto) (alpha : bytes) (qs : list share) (parts : list part) : Prop :=
  Forall2 (fun s p => exists idx, Permutation idx (map s_index qs) /\ toprf_Evaluate R s alpha (s_index s) idx = (0, Some (p_value p))) qs parts.
Definition with_3hashtdh (R : ristretto) (H : hashes) (zshares : list share) (ssid alpha : bytes) (qs : list share) (parts : list part) : Prop :=
  Forall2 (fun s p => exists zs, In zs zshares /\ s_index zs = s_index s /\
    toprf_3hashtdh R H true s zs alpha ssid = Ok (0, (p_index p, Some (p_value p))) /\ p_value p <> zeros 32) qs parts.

(** Whatever the input (one that does not hash to the identity) and the blind: blinding succeeds, every
    server can answer, and the client ends with the value of the OPRF with key [K], in all three ways. *)
Definition serves (R : ristretto) (H : hashes) (n t K : Z) (qs : list share) : Prop :=
  forall x r, (length x <= 255)%nat -> HashToGroup R H x <> rzero R -> random_scalar r ->
  exists alpha, oprf_Blind R H true true x (Z.of_nat (length x)) r = Ok (0, Some r, Some alpha) /\
    (forall s, In s qs -> s_value s <> 0 -> exists v w, oprf_Evaluate R (s_value s) alpha = (0, Some v) /\
       toprf_Evaluate R s alpha (s_index s) (map s_index qs) = (0, Some w)) /\
    (forall parts junk, with_mult R alpha qs parts -> length junk = length parts ->
       exists beta, thresholdmult R parts junk = Ok (0, beta) /\ client_gets R H x r beta (oprf_value R H K x)) /\
    (forall parts r0, with_combine R alpha qs parts ->
       exists beta, thresholdcombine R parts r0 = Ok (0, beta) /\ client_gets R H x r beta (oprf_value R H K x)) /\
    (forall z buf zshares ssid parts junk, sharing_params 0 n t z buf -> create_shares 0 n t z buf = Ok zshares ->
       with_3hashtdh R H zshares ssid alpha qs parts -> length junk = length parts ->
       exists beta, thresholdmult R parts junk = Ok (0, beta) /\ client_gets R H x r beta (oprf_value R H K x)).
