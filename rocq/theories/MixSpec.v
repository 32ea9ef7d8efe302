(** Vocabulary of C112: masked answers of different sessions. *)
From Coq Require Import ZArith List.
From Verif Require Import PrimeL Bytes Res Sodium OprfModel ToprfModel.
Import ListNotations.
Open Scope list_scope.
Open Scope Z_scope.

(** The servers that hold the shares [qs] (and the shares [zshares] of 0) answer [alpha] with toprf_3hashtdh (src/toprf.c
    195-235) for the session [ssid], but the server with the number [j] does so for the session [ssid']. *)
Definition answers_mixed (R : ristretto) (H : hashes) (zshares : list share) (alpha ssid : bytes) (j : Z) (ssid' : bytes) (qs : list share) (parts : list part) : Prop :=
  Forall2 (fun s p => exists zs, In zs zshares /\ s_index zs = s_index s /\
    toprf_3hashtdh R H true s zs alpha (if s_index s =? j then ssid' else ssid) = Ok (0, (p_index p, Some (p_value p))) /\ p_value p <> zeros 32) qs parts.
