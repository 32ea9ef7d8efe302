(** Property theorems C80: a key generation that ends well, with arbitrary other peers.
    Vocabulary: GoodSpec.v, DkgSpec.v, TpSpec.v, SafeSpec.v. *)
From Coq Require Import ZArith Lia List Bool.
From Coq.Strings Require Import Byte.
From Verif Require Import PrimeL Bytes Res Mem Sodium ToprfModel ToprfSpec DkgModel DkgSpec WireModel WireSpec TpCrypto TpModel PeerModel TpSpec SafeSpec GoodSpec.
From Verif Require Import Good GoodExamples.
Import ListNotations.
Open Scope list_scope.
Open Scope Z_scope.

(** C80.  Full statement: if all calls of the trusted party return 0, any two sets of at least t peers
    that followed the protocol and whose calls all returned 0 hold shares of the same key.  False:
    a dealer that publishes the identity as a commitment stops the verification in every peer, and
    nobody complains about the inconsistent shares it sent. *)
Theorem C80_one_key_refuted : exists C c calls outs (q q' : list (party C)), crypto_ok C /\ done_well C c calls outs /\
  Forall (honest C c calls outs) q /\ Forall (honest C c calls outs) q' /\ Forall (fun x => plain_shares (received_by x)) (q ++ q') /\
  NoDup (map number q) /\ NoDup (map number q') /\ t_t c <= Z.of_nat (length q) /\ t_t c <= Z.of_nat (length q') /\
  dkg_reconstruct (map share_of_party q) <> dkg_reconstruct (map share_of_party q').
Proof. exact C80_commitments_refutation. Qed.
Print Assumptions C80_one_key_refuted.

(** Also false with sound commitments: a dealer sets bit 255 of one share. *)
Theorem C80_one_key_bit255_refuted : exists C c calls outs (q q' : list (party C)), crypto_ok C /\ done_well C c calls outs /\ sound_commitments C (published c outs) /\
  Forall (honest C c calls outs) q /\ Forall (honest C c calls outs) q' /\
  NoDup (map number q) /\ NoDup (map number q') /\ t_t c <= Z.of_nat (length q) /\ t_t c <= Z.of_nat (length q') /\
  dkg_reconstruct (map share_of_party q) <> dkg_reconstruct (map share_of_party q').
Proof. exact C80_bit255_refutation. Qed.
Print Assumptions C80_one_key_bit255_refuted.

(** True without the two: the published commitments belong to n polynomials, and every peer that
    followed the protocol holds the value at its number of their sum; its own polynomial is one of them. *)
Theorem C80_one_polynomial_partial : forall C, crypto_ok C -> forall c calls outs parties,
  done_well C c calls outs -> sound_commitments C (published c outs) ->
  Forall (honest C c calls outs) parties -> Forall (fun x => plain_shares (received_by x)) parties -> parties <> [] ->
  exists A, dealers C c (published c outs) A /\
    Forall (fun x => share_of_party x = mkShare (number x + 1) (zsum (map (fun a => poly a (number x + 1)) A) mod L)) parties /\
    Forall (fun x => forall e inp o, nth_error (snd (fst x)) 3 = Some (e, inp, o) -> nth_error A (Z.to_nat (number x)) = Some (pe_a e)) parties.
Proof. exact one_polynomial. Qed.
Print Assumptions C80_one_polynomial_partial.

(** Hence t of them reconstruct the sum of the secrets, the same for every such set. *)
Theorem C80_one_key_partial : forall C, crypto_ok C -> forall c calls outs parties,
  done_well C c calls outs -> sound_commitments C (published c outs) ->
  Forall (honest C c calls outs) parties -> Forall (fun x => plain_shares (received_by x)) parties ->
  NoDup (map number parties) -> t_t c <= Z.of_nat (length parties) ->
  exists A, dealers C c (published c outs) A /\ dkg_reconstruct (map share_of_party parties) = zsum (map (hd 0) A) mod L.
Proof. exact one_key. Qed.
Print Assumptions C80_one_key_partial.

Theorem C80_quorums_agree_partial : forall C, crypto_ok C -> forall c calls outs q q',
  done_well C c calls outs -> sound_commitments C (published c outs) ->
  Forall (honest C c calls outs) q -> Forall (honest C c calls outs) q' -> Forall (fun x => plain_shares (received_by x)) (q ++ q') ->
  NoDup (map number q) -> NoDup (map number q') -> t_t c <= Z.of_nat (length q) -> t_t c <= Z.of_nat (length q') ->
  dkg_reconstruct (map share_of_party q) = dkg_reconstruct (map share_of_party q').
Proof. exact quorums_agree. Qed.
Print Assumptions C80_quorums_agree_partial.

(** Without any condition on the others: the polynomial of a peer that followed the protocol is among
    the dealt ones, unchanged, and so is the share it dealt to itself. *)
Theorem C80_contribution : forall C, crypto_ok C -> forall c calls outs x,
  done_well C c calls outs -> honest C c calls outs x ->
  exists e inp o, nth_error (snd (fst x)) 3 = Some (e, inp, o) /\
    getz (received_by x) (number x) = Ok (mkShare (number x + 1) (poly (pe_a e) (number x + 1) mod L)) /\
    getz (published c outs) (number x) = Ok (commitments_of (cR C) (pe_a e)).
Proof. exact honest_own. Qed.
Print Assumptions C80_contribution.

Example C80_nonvacuous : exists C c calls outs (parties : list (party C)), crypto_ok C /\ done_well C c calls outs /\ sound_commitments C (published c outs) /\
  Forall (honest C c calls outs) parties /\ Forall (fun x => plain_shares (received_by x)) parties /\ NoDup (map number parties) /\ t_t c <= Z.of_nat (length parties) /\
  t_n c = 4 /\ map share_of_party parties = [mkShare 1 84; mkShare 2 134; mkShare 3 184].
Proof. exact C80_example. Qed.
