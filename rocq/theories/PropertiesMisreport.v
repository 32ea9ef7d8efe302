(** Property theorems C110: a wrong share of delta is reported after a key update.
    Vocabulary: MisreportSpec.v, UpdateSpec.v, ToprfSpec.v, OprfSpec.v. *)
From Coq Require Import ZArith Lia List Bool.
From Verif Require Import PrimeL Bytes Res Sodium OprfModel OprfSpec ToprfModel ToprfSpec ToprfExamples DkgModel MpmultModel MulSpec UpdateSpec MisreportSpec.
From Verif Require Import Misreport MisreportExamples.
Import ListNotations.
Open Scope list_scope.
Open Scope Z_scope.

(** C110.  Full statement: if one server reports a wrong share of delta, a client that brings up to date what it kept
    still gets what the servers now give, or an error.  False: any set of shares gives some delta. *)
Theorem C110_noticed_refuted : ~ (forall R H K delta d dshares d' qs j e x N N', ristretto_ok R -> hashes_ok H -> shares_key K d -> K <> 0 -> delta <> 0 ->
  shares_key delta (mkDep (d_n d) (d_t d) dshares) -> update d dshares d' ->
  quorum (d_t d) dshares qs -> 0 <= e < L -> (length x <= 255)%nat -> HashToGroup R H x <> rzero R -> keeps R H d x N -> keeps R H d' x N' ->
  bring_up_to_date R [dkg_reconstruct (misreported j e qs)] N = Some N' \/ bring_up_to_date R [dkg_reconstruct (misreported j e qs)] N = None).
Proof. exact C110_refutation. Qed.
Print Assumptions C110_noticed_refuted.

(** The delta put together is right exactly if no reported share is wrong, however many right ones there are. *)
Theorem C110_delta_partial : forall delta d qs j e, shares_key delta d -> quorum (d_t d) (d_shares d) qs -> 0 <= e < L ->
  dkg_reconstruct (misreported j e qs) = delta <-> (~ In j (map s_index qs) \/ e = 0).
Proof. exact misreported_iff. Qed.
Print Assumptions C110_delta_partial.

(** A client then never gets what the servers now give, whichever input it asked about. *)
Theorem C110_clients_partial : forall R H K delta d dshares d' qs j e x N N', ristretto_ok R -> hashes_ok H -> shares_key K d -> K <> 0 -> delta <> 0 ->
  shares_key delta (mkDep (d_n d) (d_t d) dshares) -> update d dshares d' ->
  quorum (d_t d) dshares qs -> 0 <= e < L -> (length x <= 255)%nat -> HashToGroup R H x <> rzero R -> keeps R H d x N -> keeps R H d' x N' ->
  bring_up_to_date R [dkg_reconstruct (misreported j e qs)] N = Some N' <-> (~ In j (map s_index qs) \/ e = 0).
Proof. exact client_lost. Qed.
Print Assumptions C110_clients_partial.

(** The server chooses by how much delta is off, knowing the numbers of the reporting servers and no other share. *)
Theorem C110_server_chooses : forall idx j, NoDup idx -> Forall (fun i => 1 <= i <= 254) idx -> In j idx -> forall c, 0 <= c < L -> exists e, 0 <= e < L /\
  forall delta d qs, shares_key delta d -> quorum (d_t d) (d_shares d) qs -> map s_index qs = idx -> dkg_reconstruct (misreported j e qs) = (delta + c) mod L.
Proof. exact misreport_chosen. Qed.
Print Assumptions C110_server_chooses.

Example C110_nonvacuous : exists K delta d dshares d' qs j x N N', shares_key K d /\ K = 5 /\ delta = 7 /\ d_n d = 5 /\ d_t d = 3 /\ shares_key delta (mkDep (d_n d) (d_t d) dshares) /\ update d dshares d' /\
  d_n d' = 4 /\ d_t d' = 1 /\ quorum (d_t d) dshares qs /\ j = 4 /\ In j (map s_index qs) /\ (length x <= 255)%nat /\ HashToGroup toyR toyH x <> rzero toyR /\
  keeps toyR toyH d x N /\ keeps toyR toyH d' x N' /\ ristretto_ok toyR /\ hashes_ok toyH.
Proof. exact C110_example. Qed.
