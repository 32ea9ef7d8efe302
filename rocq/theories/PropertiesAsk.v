(** Property theorems C111: what a client computes, whatever shares the servers hold.
    Vocabulary: AskSpec.v, MisreportSpec.v, UseSpec.v, UpdateSpec.v, ToprfSpec.v, OprfSpec.v. *)
From Coq Require Import ZArith Lia List Bool.
From Verif Require Import PrimeL Bytes Res Sodium OprfModel OprfSpec ToprfModel ToprfSpec DkgModel UseSpec UpdateSpec MisreportSpec AskSpec.
From Verif Require Import Ask AskExamples.
Import ListNotations.
Open Scope list_scope.
Open Scope Z_scope.

(** C111.  Whatever shares the asked servers hold (of one sharing, of several, out of date, or no shares at all), and in
    whichever of the three ways they are asked: if the client gets a result, it is the OPRF with the key that
    dkg_reconstruct puts together from just these shares, and this is not 0. *)
Theorem C111_key_put_together : forall R H n t qs x r N, ristretto_ok R -> hashes_ok H -> any_shares qs -> (length x <= 255)%nat -> HashToGroup R H x <> rzero R -> random_scalar r -> asks R H n t qs x r N ->
  dkg_reconstruct qs <> 0 /\ N = renc R (rsmul R (dkg_reconstruct qs) (HashToGroup R H x)) /\
  oprf_Finalize H true x (Z.of_nat (length x)) N = Ok (0, Some (oprf_value R H (dkg_reconstruct qs) x)).
Proof. exact put_together. Qed.
Print Assumptions C111_key_put_together.

Example C111_nonvacuous : exists R H n t qs x r N, ristretto_ok R /\ hashes_ok H /\ any_shares qs /\ (length x <= 255)%nat /\ HashToGroup R H x <> rzero R /\ random_scalar r /\ asks R H n t qs x r N /\
  qs = [mkShare 200 40407; mkShare 3 22; mkShare 7 70] /\ dkg_reconstruct qs = 7.
Proof. exact C111_example. Qed.

(** It gets one if no share is 0 and neither is that key. *)
Theorem C111_goes_through : forall R H n t qs x r, ristretto_ok R -> hashes_ok H -> any_shares qs -> Forall (fun s => s_value s <> 0) qs -> dkg_reconstruct qs <> 0 ->
  (length x <= 255)%nat -> HashToGroup R H x <> rzero R -> random_scalar r -> exists N, asks R H n t qs x r N.
Proof. exact can_ask_any. Qed.
Print Assumptions C111_goes_through.

(** So one server with a wrong or an out-of-date share spoils the result, however many others are asked with it. *)
Theorem C111_one_wrong_share : forall R H K d qs j e n t x r N, ristretto_ok R -> hashes_ok H -> shares_key K d -> quorum (d_t d) (d_shares d) qs -> 0 <= e < L -> (length x <= 255)%nat -> HashToGroup R H x <> rzero R ->
  random_scalar r -> asks R H n t (misreported j e qs) x r N -> N = renc R (rsmul R K (HashToGroup R H x)) <-> (~ In j (map s_index qs) \/ e = 0).
Proof. exact one_wrong_share. Qed.
Print Assumptions C111_one_wrong_share.

Example C111_wrong_nonvacuous : exists R H K d qs j e n t x r N, ristretto_ok R /\ hashes_ok H /\ shares_key K d /\ quorum (d_t d) (d_shares d) qs /\ 0 < e < L /\ (length x <= 255)%nat /\ HashToGroup R H x <> rzero R /\
  random_scalar r /\ asks R H n t (misreported j e qs) x r N /\ In j (map s_index qs) /\ K = 5 /\ d_n d = 5 /\ d_t d = 3 /\ j = 4.
Proof. exact C111_wrong_example. Qed.
