(** Vocabulary of C113: masked answers of servers that hold any shares and any masks. *)
From Coq Require Import ZArith List.
From Verif Require Import PrimeL Bytes Res Sodium OprfModel ToprfModel ToprfSpec AskSpec.
Import ListNotations.
Open Scope list_scope.
Open Scope Z_scope.

(** Servers with different numbers, each with a scalar as its share of the key and another as its share of 0 (its mask);
    nothing else is known about these. *)
Definition any_servers (servers : list (share * share)) : Prop :=
  any_shares (map fst servers) /\ any_shares (map snd servers) /\ Forall (fun kz => s_index (snd kz) = s_index (fst kz)) servers.

(** they answer [alpha] with toprf_3hashtdh (src/toprf.c 195-235) for the session [ssid], none with the identity *)
Definition masked_answers (R : ristretto) (H : hashes) (alpha ssid : bytes) (servers : list (share * share)) (parts : list part) : Prop :=
  Forall2 (fun kz p => toprf_3hashtdh R H true (fst kz) (snd kz) alpha ssid = Ok (0, (p_index p, Some (p_value p))) /\ p_value p <> zeros 32) servers parts.
