(** Vocabulary of C105: the key of a deployment is changed (docs/tp-update.txt). *)
From Coq Require Import ZArith List.
From Coq.Strings Require Import Byte.
From Verif Require Import PrimeL Bytes Res Sodium OprfModel OprfSpec ToprfModel ToprfSpec DkgModel MpmultModel MulSpec UseSpec.
Import ListNotations.
Open Scope list_scope.
Open Scope Z_scope.

(** [n] servers with their shares, [t] of which are needed *)
Record deployment := mkDep { d_n : Z; d_t : Z; d_shares : list share }.

(** the shares are what toprf_create_shares returns for [K] (so are those of a key generation, see C81) *)
Definition shares_key (K : Z) (d : deployment) : Prop :=
  exists a buf, sharing_params K (d_n d) (d_t d) a buf /\ create_shares K (d_n d) (d_t d) a buf = Ok (d_shares d).

(** One update, with [dshares] the shares of delta: at least 2t-1 servers multiply their two shares and deal
    the product, and every server of the new deployment adds up what it got.  The sizes may change.  [junk]
    is what the memory of the matrix held before. *)
Definition update (d : deployment) (dshares : list share) (d' : deployment) : Prop :=
  exists dealers dealt, NoDup dealers /\ 2 * d_t d - 1 <= Z.of_nat (length dealers) /\ 1 <= d_n d' <= 254 /\
    dealt_products (d_shares d) dshares (d_n d') (d_t d') dealers dealt /\
    Forall2 (fun j s => exists recv junk, collected (d_n d') dealt j recv /\ s = mpc_mul_finish dealers j recv junk)
      (zrange 1 (Z.to_nat (d_n d'))) (d_shares d').

(** Any number of updates.  [deltas], oldest first, are what the clients are told: each is put together by
    dkg_reconstruct from the shares of delta that a quorum reports. *)
Inductive history (d0 : deployment) : list Z -> deployment -> Prop :=
| h_start : history d0 [] d0
| h_update deltas d delta dshares reported d' : history d0 deltas d ->
    shares_key delta (mkDep (d_n d) (d_t d) dshares) -> quorum (d_t d) dshares reported ->
    update d dshares d' -> history d0 (deltas ++ [dkg_reconstruct reported]) d'.

(** the key after the updates *)
Definition new_key (k : Z) (deltas : list Z) : Z := fold_left (fun key delta => (key * delta) mod L) deltas k.

(** What a client holds after it asked a quorum of the deployment about [x]: the unblinded result, which it
    keeps, and from which oprf_Finalize makes the value. *)
Definition keeps (R : ristretto) (H : hashes) (d : deployment) (x N : bytes) : Prop :=
  exists r alpha qs parts beta, random_scalar r /\ oprf_Blind R H true true x (Z.of_nat (length x)) r = Ok (0, Some r, Some alpha) /\
    quorum (d_t d) (d_shares d) qs /\ oprf_Unblind R true r beta = (0, Some N) /\
    ((exists junk, with_mult R alpha qs parts /\ length junk = length parts /\ thresholdmult R parts junk = Ok (0, beta)) \/
     (exists r0, with_combine R alpha qs parts /\ thresholdcombine R parts r0 = Ok (0, beta)) \/
     (exists zshares ssid junk, shares_key 0 (mkDep (d_n d) (d_t d) zshares) /\ with_3hashtdh R H zshares ssid alpha qs parts /\
        length junk = length parts /\ thresholdmult R parts junk = Ok (0, beta))).

(** The client multiplies what it kept by each delta in turn (crypto_scalarmult_ristretto255). *)
Fixpoint bring_up_to_date (R : ristretto) (deltas : list Z) (N : bytes) : option bytes :=
  match deltas with
  | [] => Some N
  | delta :: rest => match scalarmult R delta N with (0, Some N') => bring_up_to_date R rest N' | _ => None end
  end.
