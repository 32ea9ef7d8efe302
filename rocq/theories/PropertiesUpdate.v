(** Property theorems C105: a shared key is changed, any number of times.
    Vocabulary: UpdateSpec.v, MulSpec.v, UseSpec.v, ToprfSpec.v, OprfSpec.v. *)
From Coq Require Import ZArith Lia List Bool.
From Coq.Strings Require Import Byte.
From Verif Require Import PrimeL Bytes Res Sodium OprfModel OprfSpec ToprfModel ToprfSpec DkgModel DkgSpec MpmultModel MulSpec UseSpec UpdateSpec.
From Verif Require Import Update UpdateExamples.
Import ListNotations.
Open Scope list_scope.
Open Scope Z_scope.

(** C105.  After any history of updates the servers hold shares of the old key times all the deltas,
    as toprf_create_shares would make them for the present number of servers and threshold. *)
Theorem C105_shares : forall k d0 deltas d, shares_key k d0 -> history d0 deltas d -> shares_key (new_key k deltas) d.
Proof. exact history_key. Qed.
Print Assumptions C105_shares.

(** Any quorum of them computes the OPRF with that key. *)
Theorem C105_serves : forall R H k d0 deltas d qs, ristretto_ok R -> hashes_ok H -> shares_key k d0 -> history d0 deltas d ->
  new_key k deltas <> 0 -> quorum (d_t d) (d_shares d) qs -> serves R H (d_n d) (d_t d) (new_key k deltas) qs.
Proof. exact history_serves. Qed.
Print Assumptions C105_serves.

(** A client that asked before the updates and multiplies what it kept by the deltas it is told has what a
    client gets that asks after the updates, whichever quorums they asked, in whichever way, with whichever blinds. *)
Theorem C105_old_results : forall R H k d0 deltas d x N N', ristretto_ok R -> hashes_ok H -> shares_key k d0 -> k <> 0 -> history d0 deltas d ->
  Forall (fun delta => delta <> 0) deltas -> (length x <= 255)%nat -> HashToGroup R H x <> rzero R ->
  keeps R H d0 x N -> keeps R H d x N' -> bring_up_to_date R deltas N = Some N'.
Proof. exact history_kept. Qed.
Print Assumptions C105_old_results.

(** It can always do so, without asking again, and oprf_Finalize then gives the value with the new key. *)
Theorem C105_old_values : forall R H k d0 deltas d x N, ristretto_ok R -> hashes_ok H -> shares_key k d0 -> k <> 0 -> history d0 deltas d ->
  Forall (fun delta => delta <> 0) deltas -> (length x <= 255)%nat -> HashToGroup R H x <> rzero R -> keeps R H d0 x N ->
  new_key k deltas <> 0 /\ exists N', bring_up_to_date R deltas N = Some N' /\
    oprf_Finalize H true x (Z.of_nat (length x)) N' = Ok (0, Some (oprf_value R H (new_key k deltas) x)).
Proof. exact history_value. Qed.
Print Assumptions C105_old_values.

Example C105_nonvacuous : exists k d0 deltas d x N N', shares_key k d0 /\ k = 5 /\ d_n d0 = 5 /\ d_t d0 = 3 /\ history d0 deltas d /\ deltas = [7; 9] /\ d_n d = 4 /\ d_t d = 1 /\
  new_key k deltas = 315 /\ (length x <= 255)%nat /\ HashToGroup toyR toyH x <> rzero toyR /\ keeps toyR toyH d0 x N /\ keeps toyR toyH d x N' /\ ristretto_ok toyR /\ hashes_ok toyH.
Proof. exact C105_example. Qed.

(** An update goes through, to any new number of servers and threshold, if 2t-1 of the old servers take part. *)
Theorem C105_goes_through : forall K delta d dshares n t dealers, shares_key K d -> shares_key delta (mkDep (d_n d) (d_t d) dshares) ->
  1 <= t <= n -> n <= 254 -> NoDup dealers -> Forall (fun i => 1 <= i <= d_n d) dealers -> 2 * d_t d - 1 <= Z.of_nat (length dealers) ->
  exists d', d_n d' = n /\ d_t d' = t /\ update d dshares d'.
Proof. exact can_update. Qed.
Print Assumptions C105_goes_through.

(** What the memory held that toprf_mpc_mul_finish uses makes no difference. *)
Theorem C105_memory : forall indexes peer recv junk1 junk2, NoDup indexes -> Forall (fun i => 0 <= i <= 255) indexes ->
  mpc_mul_finish indexes peer recv junk1 = mpc_mul_finish indexes peer recv junk2.
Proof. exact finish_memory. Qed.
Print Assumptions C105_memory.
