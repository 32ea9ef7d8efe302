(** Property theorems C106: taking other servers after each update does not help.
    Vocabulary: MobileSpec.v, UpdateSpec.v, MulSpec.v, ToprfSpec.v. *)
From Coq Require Import ZArith Lia List Bool.
From Verif Require Import PrimeL Bytes Res Sodium ToprfModel ToprfSpec DkgModel MpmultModel MulSpec UpdateSpec MobileSpec.
From Verif Require Import Mobile MobileExamples.
Import ListNotations.
Open Scope list_scope.
Open Scope Z_scope.

(** C106.  Whatever is seen over any number of updates from t-1 servers of each deployment (other ones each
    time, all shares of all deltas included) would also be seen with any other key [k']. *)
Theorem C106_mobile_adversary : forall k k' d taken es, shares_key k d -> 0 <= k' < L -> one_short taken d ->
  all_updates d es -> Forall (fun e => one_short (e_taken e) (e_new e)) es ->
  exists d' es', shares_key k' d' /\ all_updates d' es' /\
    sees_shares taken d' = sees_shares taken d /\ sees_updates taken es' = sees_updates taken es.
Proof. exact mobile. Qed.
Print Assumptions C106_mobile_adversary.

Example C106_nonvacuous : exists k k' d taken es, shares_key k d /\ 0 <= k' < L /\ k' <> k /\ one_short taken d /\ all_updates d es /\ Forall (fun e => one_short (e_taken e) (e_new e)) es /\
  d_n d = 5 /\ d_t d = 3 /\ taken = [5; 2] /\ map (fun e => (d_n (e_new e), d_t (e_new e), e_taken e)) es = [(6, 2, [4]); (4, 2, [1])].
Proof. exact C106_example. Qed.
