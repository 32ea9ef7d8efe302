(** Property theorems C99: key generation over a hostile network.
    Vocabulary: NetSpec.v, GoodSpec.v, DkgSpec.v, TpSpec.v, SafeSpec.v. *)
From Coq Require Import ZArith Lia List Bool.
From Coq.Strings Require Import Byte.
From Verif Require Import PrimeL Bytes Res Mem Sodium ToprfModel ToprfSpec DkgModel DkgSpec WireModel WireSpec TpCrypto TpModel PeerModel TpSpec SafeSpec GoodSpec NetSpec.
From Verif Require Import Net NetExamples.
Import ListNotations.
Open Scope list_scope.
Open Scope Z_scope.

(** C99.  Full statement: the network may drop, repeat, reorder and replace messages, but it forges no
    signature of the trusted party or of an honest peer; if nevertheless all calls return 0, any two
    quorums of honest peers hold shares of the same key.  False, even with sound commitments and plain
    shares: the signatures cover the headers only, so the network can empty the lists of complaints
    about a dealer of inconsistent shares. *)
Theorem C99_hostile_network_refuted : exists C c calls outs (q q' : list (party C)), crypto_ok C /\ done_well C c calls outs /\ sound_commitments C (published c outs) /\
  Forall (survived C head c calls outs) q /\ Forall (survived C head c calls outs) q' /\ Forall (fun x => plain_shares (received_by x)) (q ++ q') /\
  NoDup (map number q) /\ NoDup (map number q') /\ t_t c <= Z.of_nat (length q) /\ t_t c <= Z.of_nat (length q') /\
  dkg_reconstruct (map share_of_party q) <> dkg_reconstruct (map share_of_party q').
Proof. exact C99_refutation. Qed.
Print Assumptions C99_hostile_network_refuted.

(** True if the signed messages of the trusted party and of these peers arrive unaltered or not at all;
    everything else may be replaced, repeated, delayed or misdirected. *)
Theorem C99_one_polynomial_partial : forall C, crypto_ok C -> forall c calls outs parties,
  done_well C c calls outs -> sound_commitments C (published c outs) ->
  Forall (survived C whole c calls outs) parties -> Forall (fun x => plain_shares (received_by x)) parties -> parties <> [] ->
  exists A, dealers C c (published c outs) A /\
    Forall (fun x => share_of_party x = mkShare (number x + 1) (zsum (map (fun a => poly a (number x + 1)) A) mod L)) parties /\
    Forall (fun x => forall e inp o, nth_error (snd (fst x)) 3 = Some (e, inp, o) -> nth_error A (Z.to_nat (number x)) = Some (pe_a e)) parties.
Proof. exact net_one_polynomial. Qed.
Print Assumptions C99_one_polynomial_partial.

Theorem C99_one_key_partial : forall C, crypto_ok C -> forall c calls outs parties,
  done_well C c calls outs -> sound_commitments C (published c outs) ->
  Forall (survived C whole c calls outs) parties -> Forall (fun x => plain_shares (received_by x)) parties ->
  NoDup (map number parties) -> t_t c <= Z.of_nat (length parties) ->
  exists A, dealers C c (published c outs) A /\ dkg_reconstruct (map share_of_party parties) = zsum (map (hd 0) A) mod L.
Proof. exact net_one_key. Qed.
Print Assumptions C99_one_key_partial.

Theorem C99_quorums_agree_partial : forall C, crypto_ok C -> forall c calls outs q q',
  done_well C c calls outs -> sound_commitments C (published c outs) ->
  Forall (survived C whole c calls outs) q -> Forall (survived C whole c calls outs) q' -> Forall (fun x => plain_shares (received_by x)) (q ++ q') ->
  NoDup (map number q) -> NoDup (map number q') -> t_t c <= Z.of_nat (length q) -> t_t c <= Z.of_nat (length q') ->
  dkg_reconstruct (map share_of_party q) = dkg_reconstruct (map share_of_party q').
Proof. exact net_quorums_agree. Qed.
Print Assumptions C99_quorums_agree_partial.

Example C99_nonvacuous : exists C c calls outs (parties : list (party C)), crypto_ok C /\ done_well C c calls outs /\ sound_commitments C (published c outs) /\
  Forall (survived C whole c calls outs) parties /\ Forall (fun x => plain_shares (received_by x)) parties /\ NoDup (map number parties) /\ t_t c <= Z.of_nat (length parties) /\
  t_n c = 4 /\ map share_of_party parties = [mkShare 1 84; mkShare 2 134; mkShare 3 184].
Proof. exact C99_example. Qed.
