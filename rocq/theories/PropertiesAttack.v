(** C83: misc/attack.c, a server that answers with a key everybody knows. *)
From Coq Require Import ZArith List Bool.
From Coq.Strings Require Import Byte.
From Verif Require Import PrimeL Bytes Res Sodium OprfModel OprfSpec AttackModel Attack AttackExamples.
Import ListNotations.
Open Scope list_scope.
Open Scope Z_scope.

(** The client of a tampering server finishes, for every input and blind, with an output that the
    input explains without any key; and nothing else explains it, unless the two strings hashed are
    a SHA-512 collision. *)
Theorem C83_tampered : forall R H, ristretto_ok R -> hashes_ok H -> forall x r,
  (length x <= 255)%nat -> HashToGroup R H x <> rzero R -> random_scalar r ->
  exists rwd, attack_test R H x (Z.of_nat (length x)) r = Ok (Some rwd) /\
    attack_guess R H true true rwd x (Z.of_nat (length x)) = Ok 0 /\
    forall pwd, (length pwd <= 255)%nat -> attack_guess R H true true rwd pwd (Z.of_nat (length pwd)) = Ok 0 ->
      pwd = x \/
      (let m1 := rfc_hashInput x (renc R (HashToGroup R H x)) in let m2 := rfc_hashInput pwd (renc R (HashToGroup R H pwd)) in m1 <> m2 /\ sha512 H m1 = sha512 H m2).
Proof. exact tampered. Qed.
Print Assumptions C83_tampered.

(** What a guess says: 0 exactly if the output is the hash of the guess and of the guess mapped to the
    group, -1 otherwise. *)
Theorem C83_guess : forall R H, ristretto_ok R -> hashes_ok H -> forall rwd pwd, (length pwd <= 255)%nat ->
  let out := attack_guess R H true true rwd pwd (Z.of_nat (length pwd)) in
  (out = Ok 0 <-> rwd = sha512 H (rfc_hashInput pwd (renc R (HashToGroup R H pwd)))) /\ (out = Ok 0 \/ out = Ok (-1)).
Proof. exact guess_exact. Qed.
Print Assumptions C83_guess.

(** If the server uses a key other than 1 (and 0, which fails), no guess without the key succeeds, the
    right one included, unless the two strings hashed are a SHA-512 collision. *)
Theorem C83_other_key : forall R H, ristretto_ok R -> hashes_ok H -> forall x r k b z N rwd pwd,
  (length x <= 255)%nat -> HashToGroup R H x <> rzero R -> random_scalar r -> scalar_buf k ->
  (k mod 2 ^ 255) mod L <> 0 -> (k mod 2 ^ 255) mod L <> 1 -> (length pwd <= 255)%nat ->
  oprf_Blind R H true true x (Z.of_nat (length x)) r = Ok (0, Some r, Some b) -> oprf_Evaluate R k b = (0, Some z) ->
  oprf_Unblind R true r z = (0, Some N) -> oprf_Finalize H true x (Z.of_nat (length x)) N = Ok (0, Some rwd) ->
  attack_guess R H true true rwd pwd (Z.of_nat (length pwd)) = Ok 0 ->
  let m1 := rfc_hashInput x N in let m2 := rfc_hashInput pwd (renc R (HashToGroup R H pwd)) in m1 <> m2 /\ sha512 H m1 = sha512 H m2.
Proof. exact other_key. Qed.
Print Assumptions C83_other_key.

Example C83_nonvacuous : exists R H x r k b z N rwd, ristretto_ok R /\ hashes_ok H /\
  (length x <= 255)%nat /\ HashToGroup R H x <> rzero R /\ random_scalar r /\ scalar_buf k /\
  (k mod 2 ^ 255) mod L <> 0 /\ (k mod 2 ^ 255) mod L <> 1 /\
  oprf_Blind R H true true x (Z.of_nat (length x)) r = Ok (0, Some r, Some b) /\ oprf_Evaluate R k b = (0, Some z) /\
  oprf_Unblind R true r z = (0, Some N) /\ oprf_Finalize H true x (Z.of_nat (length x)) N = Ok (0, Some rwd) /\
  attack_guess R H true true rwd x (Z.of_nat (length x)) = Ok (-1).
Proof. exact C83_example. Qed.
