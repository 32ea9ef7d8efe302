(** C100.  Keys in the key broadcast.  Statements only; the vocabulary is in MitmSpec.v. *)
From Coq Require Import ZArith List.
From Verif Require Import PrimeL Bytes Res Mem Sodium ToprfModel ToprfSpec DkgModel DkgSpec WireModel WireSpec TpCrypto TpModel PeerModel TpRun TpSpec SafeSpec MitmSpec Mitm TpExamples TpRunExamples MitmExamples.
Import ListNotations.
Open Scope Z_scope.

(** C100 as one would like it: the trusted party answered the peers' keys with a broadcast [out'], and a
    peer that knows the trusted party's key accepts a message [heard] in its place, as long and with the
    same signed header; then the keys it holds are the trusted party's.  This is not so. *)
Theorem C100_keys_authentic_refuted : ~ forall C e c input out c' out' pe p heard pout p' pout',
  crypto_ok C -> tp_wf c -> is_u64 (e_s e 0) -> t_step c = 1 -> tp_next C e c input out = Ok (0, c', out') ->
  peer_wf C p -> p_step C p = 1 -> p_n C p = t_n c -> p_sid C p = t_sid c -> p_tp_pk C p = sig_pk (cS C) (t_sk c) ->
  zlen heard = zlen out' -> slice 0 111 heard = slice 0 111 out' ->
  peer_next C pe p heard pout = Ok (0, p', pout') -> p_pks C p' = t_pks c'.
Proof. exact keys_authentic_refuted. Qed.
Print Assumptions C100_keys_authentic_refuted.

(** What does hold: if the broadcast arrives as the trusted party wrote it, every session key and every
    Noise key the peer holds is in a message that verifies under that peer's registered long-term key. *)
Theorem C100_keys_authentic_partial : forall C e c input out c' out' pe (p : peer C) pout p' pout',
  crypto_ok C -> tp_wf c -> is_u64 (e_s e 0) -> t_step c = 1 -> tp_next C e c input out = Ok (0, c', out') ->
  p_step C p = 1 -> p_n C p = t_n c -> peer_next C pe p out' pout = Ok (0, p', pout') ->
  forall j, 0 <= j < t_n c -> exists m ltsig lt pk npk,
    rd input (j * 239) 175 = Ok m /\ rd input (j * 239 + 175) 64 = Ok ltsig /\ getz (t_lt c) j = Ok lt /\ sig_verify (cS C) lt m ltsig = true /\
    rd m 111 32 = Ok pk /\ rd m 143 32 = Ok npk /\ getz (p_pks C p') j = Ok pk /\ getz (p_npks C p') j = Ok npk.
Proof. exact keys_authentic. Qed.
Print Assumptions C100_keys_authentic_partial.

(** How far it fails: whatever broadcast a peer accepts, it accepts as well with the keys of any set of
    peers replaced by those of somebody who holds none of the participants' secrets, and then holds
    exactly these in their places. *)
Theorem C100_keys_substituted : forall C, crypto_ok C -> forall e c input out c' out' who sk npk,
  peer_wf C c -> p_step C c = 1 -> (forall j, zlen (npk j) = 32) ->
  peer_next C e c input out = Ok (0, c', out') ->
  exists c2 out2, peer_next C e c (forged C who sk npk (p_n C c) input) out = Ok (0, c2, out2) /\
    forall j, 0 <= j < p_n C c -> getz (p_pks C c2) j = (if who j then Ok (sig_pk (cS C) (sk j)) else getz (p_pks C c') j) /\
      getz (p_npks C c2) j = (if who j then Ok (npk j) else getz (p_npks C c') j).
Proof. exact keys_substituted. Qed.
Print Assumptions C100_keys_substituted.

(** Who sits in the place of peer [j] that way reads the share the peer deals to [j]. *)
Theorem C100_shares_overheard : forall C, crypto_ok C -> forall p calls outs a j d rand s hs2,
  dealt C p calls outs a -> between C p calls outs j d rand s hs2 ->
  overheard C outs j s = Some (share_bytes (mkShare (j + 1) (poly a (j + 1) mod L))).
Proof. exact share_overheard. Qed.
Print Assumptions C100_shares_overheard.

(** Who sits in the places of threshold many peers computes the peer's contribution to the key. *)
Theorem C100_secret_overheard : forall C, crypto_ok C -> forall p calls outs a (taps : list (Z * nz_sess (cN C))),
  dealt C p calls outs a ->
  Forall (fun t => exists d rand hs2, between C p calls outs (fst t) d rand (snd t) hs2) taps ->
  NoDup (map fst taps) -> p_t C p <= Z.of_nat (length taps) ->
  dkg_reconstruct (map (fun t => match overheard C outs (fst t) (snd t) with Some b => share_of b | None => mkShare 0 0 end) taps) = hd 0 a.
Proof. exact secret_overheard. Qed.
Print Assumptions C100_secret_overheard.

(** Four peers, threshold 2: somebody in the places of peers 2 and 3 towards peer 1. *)
Example C100_nonvacuous : exists C p calls outs a (taps : list (Z * nz_sess (cN C))), crypto_ok C /\ dealt C p calls outs a /\
  Forall (fun t => exists d rand hs2, between C p calls outs (fst t) d rand (snd t) hs2) taps /\ NoDup (map fst taps) /\ p_t C p <= Z.of_nat (length taps) /\
  map fst taps = [1; 2] /\ a = [7; 11].
Proof. exact C100_example. Qed.
(** The hypotheses of the refuted statement are met, and those of the partial and of the substitution. *)
Example C100_substituted_nonvacuous : exists C e c input out c' out' pe p heard pout p' pout', crypto_ok C /\ tp_wf c /\ is_u64 (e_s e 0) /\ t_step c = 1 /\
  tp_next C e c input out = Ok (0, c', out') /\ peer_wf C p /\ p_step C p = 1 /\ p_n C p = t_n c /\ p_sid C p = t_sid c /\ p_tp_pk C p = sig_pk (cS C) (t_sk c) /\
  zlen heard = zlen out' /\ slice 0 111 heard = slice 0 111 out' /\ peer_next C pe p heard pout = Ok (0, p', pout') /\ p_pks C p' <> t_pks c'.
Proof. exact C100_refutation. Qed.
Example C100_partial_nonvacuous : exists c input out c' out' (p : peer toyC) pout p' pout', crypto_ok toyC /\ tp_wf c /\ is_u64 (e_s (d_env_ 1) 0) /\ t_step c = 1 /\
  tp_next toyC (d_env_ 1) c input out = Ok (0, c', out') /\ p_step toyC p = 1 /\ p_n toyC p = t_n c /\ zlen (p_pks toyC p) = t_n c /\
  peer_next toyC (d_penv 1 1) p out' pout = Ok (0, p', pout').
Proof. exact C52_example. Qed.
