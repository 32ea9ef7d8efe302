(** Vocabulary of C111: a client asks servers that hold any shares. *)
From Coq Require Import ZArith List.
From Verif Require Import PrimeL Bytes Res Sodium OprfModel OprfSpec ToprfModel ToprfSpec UseSpec UpdateSpec.
Import ListNotations.
Open Scope list_scope.
Open Scope Z_scope.

(** servers with different numbers, each with a scalar, and nothing else is known about them *)
Definition any_shares (qs : list share) : Prop :=
  NoDup (map s_index qs) /\ Forall (fun s => 1 <= s_index s <= 255 /\ 0 <= s_value s < L) qs.

(** The client blinds [x] with [r], asks the servers that hold [qs] in one of the three ways (oprf_Evaluate and
    toprf_thresholdmult; toprf_Evaluate and toprf_thresholdcombine; toprf_3hashtdh and toprf_thresholdmult, with
    shares of 0 for [n] servers and the threshold [t]) and unblinds to [N]. *)
Definition asks (R : ristretto) (H : hashes) (n t : Z) (qs : list share) (x : bytes) (r : Z) (N : bytes) : Prop :=
  exists alpha parts beta, oprf_Blind R H true true x (Z.of_nat (length x)) r = Ok (0, Some r, Some alpha) /\ oprf_Unblind R true r beta = (0, Some N) /\
    ((exists junk, with_mult R alpha qs parts /\ length junk = length parts /\ thresholdmult R parts junk = Ok (0, beta)) \/
     (exists r0, with_combine R alpha qs parts /\ thresholdcombine R parts r0 = Ok (0, beta)) \/
     (exists zshares ssid junk, shares_key 0 (mkDep n t zshares) /\ t <= Z.of_nat (length qs) /\ with_3hashtdh R H zshares ssid alpha qs parts /\
        length junk = length parts /\ thresholdmult R parts junk = Ok (0, beta))).
