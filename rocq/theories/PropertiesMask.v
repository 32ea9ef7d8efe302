(** Property theorems C113: masked answers, whatever shares and masks the servers hold.
    Vocabulary: MaskSpec.v, AskSpec.v, MisreportSpec.v, SecrecySpec.v, UpdateSpec.v, ToprfSpec.v. *)
From Coq Require Import ZArith Lia List Bool.
From Verif Require Import PrimeL Bytes Res Sodium OprfModel OprfSpec ToprfModel ToprfSpec DkgModel SecrecySpec UseSpec UpdateSpec MisreportSpec AskSpec MaskSpec.
From Verif Require Import Mask MaskExamples.
Import ListNotations.
Open Scope list_scope.
Open Scope Z_scope.

(** C113.  Whatever shares of the key and of 0 the asked servers hold, toprf_thresholdmult of their masked answers gives
    the evaluation under the key put together from the first, plus the mask of the session times what is put together
    from the second. *)
Theorem C113_two_keys : forall R H servers alpha P ssid parts (junk : list Z), ristretto_ok R -> hashes_ok H -> any_servers servers -> rdec R alpha = Some P -> masked_answers R H alpha ssid servers parts -> length junk = length parts ->
  thresholdmult R parts junk = Ok (0, renc R (radd R (rsmul R (dkg_reconstruct (map fst servers)) P) (rsmul R (dkg_reconstruct (map snd servers)) (mask_point R H ssid alpha)))).
Proof. exact two_keys. Qed.
Print Assumptions C113_two_keys.

(** So the masks disappear exactly if 0 is put together from them (or the mask of the session is the identity). *)
Theorem C113_right_masks : forall R H servers alpha P ssid parts (junk : list Z), ristretto_ok R -> hashes_ok H -> any_servers servers -> rdec R alpha = Some P -> masked_answers R H alpha ssid servers parts -> length junk = length parts ->
  thresholdmult R parts junk = Ok (0, renc R (rsmul R (dkg_reconstruct (map fst servers)) P)) <-> (dkg_reconstruct (map snd servers) = 0 \/ mask_point R H ssid alpha = rzero R).
Proof. exact right_masks. Qed.
Print Assumptions C113_right_masks.

Example C113_nonvacuous : exists R H servers alpha P ssid parts (junk : list Z), ristretto_ok R /\ hashes_ok H /\ any_servers servers /\ rdec R alpha = Some P /\ masked_answers R H alpha ssid servers parts /\ length junk = length parts /\
  dkg_reconstruct (map snd servers) <> 0 /\ mask_point R H ssid alpha <> rzero R /\ length servers = 3%nat.
Proof. exact C113_example. Qed.

(** And one server with a wrong share of 0 spoils the result, however many others are asked with it. *)
Theorem C113_one_wrong_mask : forall R H K d dz zq j e servers alpha P ssid parts (junk : list Z), ristretto_ok R -> hashes_ok H -> shares_key K d -> quorum (d_t d) (d_shares d) (map fst servers) ->
  shares_key 0 dz -> quorum (d_t dz) (d_shares dz) zq -> map snd servers = misreported j e zq -> 0 <= e < L -> Forall (fun kz => s_index (snd kz) = s_index (fst kz)) servers ->
  rdec R alpha = Some P -> masked_answers R H alpha ssid servers parts -> length junk = length parts ->
  thresholdmult R parts junk = Ok (0, renc R (rsmul R K P)) <-> (~ In j (map s_index (map fst servers)) \/ e = 0 \/ mask_point R H ssid alpha = rzero R).
Proof. exact one_wrong_mask. Qed.
Print Assumptions C113_one_wrong_mask.

Example C113_wrong_nonvacuous : exists R H K d dz zq j e servers alpha P ssid parts (junk : list Z), ristretto_ok R /\ hashes_ok H /\ shares_key K d /\ quorum (d_t d) (d_shares d) (map fst servers) /\
  shares_key 0 dz /\ quorum (d_t dz) (d_shares dz) zq /\ map snd servers = misreported j e zq /\ 0 < e < L /\ Forall (fun kz => s_index (snd kz) = s_index (fst kz)) servers /\
  rdec R alpha = Some P /\ masked_answers R H alpha ssid servers parts /\ length junk = length parts /\ In j (map s_index (map fst servers)) /\ mask_point R H ssid alpha <> rzero R /\ K = 42 /\ d_n d = 5 /\ d_t d = 3.
Proof. exact C113_wrong_example. Qed.
