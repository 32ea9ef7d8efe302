(** Property theorems C112: masked answers of different sessions.
    Vocabulary: MixSpec.v, SecrecySpec.v, UpdateSpec.v, ToprfSpec.v. *)
From Coq Require Import ZArith Lia List Bool.
From Verif Require Import PrimeL Bytes Res Sodium OprfModel OprfSpec ToprfModel ToprfSpec SecrecySpec UseSpec UpdateSpec MixSpec.
From Verif Require Import Mix MixExamples.
Import ListNotations.
Open Scope list_scope.
Open Scope Z_scope.

(** C112.  A quorum of servers answers with toprf_3hashtdh, all for one session but one of them for another.  The
    client, which combines the answers with toprf_thresholdmult, is told of success, and what it gets is the evaluation
    under the shared key exactly if that server is not among those asked or the two sessions have the same mask. *)
Theorem C112_mixed_sessions : forall R H K d zsh alpha P ssid j ssid' qs parts (junk : list Z), ristretto_ok R -> hashes_ok H -> shares_key K d -> shares_key 0 (mkDep (d_n d) (d_t d) zsh) -> quorum (d_t d) (d_shares d) qs ->
  rdec R alpha = Some P -> answers_mixed R H zsh alpha ssid j ssid' qs parts -> length junk = length parts ->
  exists beta, thresholdmult R parts junk = Ok (0, beta) /\ (beta = renc R (rsmul R K P) <-> (~ In j (map s_index qs) \/ mask_point R H ssid alpha = mask_point R H ssid' alpha)).
Proof. exact mixed. Qed.
Print Assumptions C112_mixed_sessions.

(** So answers of different sessions give a wrong result unless one of the two hashes collides on the two inputs named. *)
Theorem C112_sessions_apart : forall R H K d zsh alpha P ssid j ssid' qs parts (junk : list Z), ristretto_ok R -> hashes_ok H -> shares_key K d -> shares_key 0 (mkDep (d_n d) (d_t d) zsh) -> quorum (d_t d) (d_shares d) qs ->
  rdec R alpha = Some P -> answers_mixed R H zsh alpha ssid j ssid' qs parts -> length junk = length parts ->
  Z.of_nat (length ssid) < 2 ^ 16 -> Z.of_nat (length ssid') < 2 ^ 16 -> ssid <> ssid' -> In j (map s_index qs) ->
  (blake2b H 64 (mask_input ssid alpha) = blake2b H 64 (mask_input ssid' alpha) -> mask_input ssid alpha = mask_input ssid' alpha) ->
  (HashToGroup R H (blake2b H 64 (mask_input ssid alpha)) = HashToGroup R H (blake2b H 64 (mask_input ssid' alpha)) -> blake2b H 64 (mask_input ssid alpha) = blake2b H 64 (mask_input ssid' alpha)) ->
  exists beta, thresholdmult R parts junk = Ok (0, beta) /\ beta <> renc R (rsmul R K P).
Proof. exact sessions_apart. Qed.
Print Assumptions C112_sessions_apart.

Example C112_nonvacuous : exists R H K d zsh alpha P ssid j ssid' qs parts (junk : list Z), ristretto_ok R /\ hashes_ok H /\ shares_key K d /\ shares_key 0 (mkDep (d_n d) (d_t d) zsh) /\ quorum (d_t d) (d_shares d) qs /\
  rdec R alpha = Some P /\ answers_mixed R H zsh alpha ssid j ssid' qs parts /\ length junk = length parts /\
  Z.of_nat (length ssid) < 2 ^ 16 /\ Z.of_nat (length ssid') < 2 ^ 16 /\ ssid <> ssid' /\ In j (map s_index qs) /\
  blake2b H 64 (mask_input ssid alpha) <> blake2b H 64 (mask_input ssid' alpha) /\
  HashToGroup R H (blake2b H 64 (mask_input ssid alpha)) <> HashToGroup R H (blake2b H 64 (mask_input ssid' alpha)) /\ K = 42 /\ d_n d = 5 /\ d_t d = 3.
Proof. exact C112_example. Qed.
