(** Vocabulary of C86 and C87: what the answers of a masked evaluation and the shares handed out
    tell about the secrets. *)
From Coq Require Import ZArith List.
From Coq.Strings Require Import Byte.
From Verif Require Import PrimeL Bytes Sodium OprfSpec ToprfModel ToprfSpec.
Import ListNotations.
Open Scope list_scope.
Open Scope Z_scope.

(** the string from which the mask of a session is derived: the session id with its length in front,
    then the blinded element *)
Definition mask_input (ssid alpha : bytes) : bytes := I2OSP (Z.of_nat (length ssid)) 2 ++ ssid ++ alpha.
(** the point a server multiplies with its share of zero *)
Definition mask_point (R : ristretto) (H : hashes) (ssid alpha : bytes) : rG R := HashToGroup R H (blake2b H 64 (mask_input ssid alpha)).

(** the answer of the server with the share [k] of the key and the share [z] of zero, for the blinded
    element [P] and the mask point [h] *)
Definition masked (R : ristretto) (P h : rG R) (k z : share) : rG R := radd R (rsmul R (s_value k) P) (rsmul R (s_value z) h).
(** the answers of all servers *)
Definition masked_answers (R : ristretto) (P h : rG R) (ks zs : list share) : list (Z * bytes) :=
  map (fun kz => (s_index (fst kz), renc R (masked R P h (fst kz) (snd kz)))) (combine ks zs).

(** a list of [k] numbers below the group order *)
Definition scalars (k : Z) (a : list Z) : Prop := Z.of_nat (length a) = k /\ Forall (fun x => 0 <= x < L) a.
