(** Property C73: the DKG runs over the Noise XK library that is shipped with it. *)
From Coq Require Import ZArith List Bool.
From Coq.Strings Require Import Byte.
From Verif Require Import PrimeL Bytes Res Mem Sodium ToprfModel ToprfSpec DkgModel WireModel WireSpec TpCrypto TpModel PeerModel TpRun TpSpec RunSpec XkModel XkNoise XkNoiseExamples.
Import ListNotations.
Open Scope list_scope.
Open Scope Z_scope.

(** [xkN X] makes the calls that tp-dkg.c makes, on the model of the library, over the libsodium
    functions X; [noise_ok] are the laws that all theorems about tp-dkg.c assume of its channels
    (they are not assumptions about unmodelled code any more, but consequences of laws of X25519,
    ChaCha20-Poly1305 and BLAKE2b). *)
Theorem C73_channel_laws : forall X, xprims_ok X -> noise_ok (xkN X).
Proof. exact xk_noise_ok. Qed.
Print Assumptions C73_channel_laws.

(** The whole protocol, with trusted party, peers and Noise library together: a session of honest
    parties ends, as in C44, with everybody done, no cheaters, no complaints, nothing left to
    deliver, and shares of which any t reconstruct the sum of the peers' secrets. *)
Theorem C73_honest_run : forall R H S X auth, ristretto_ok R -> hashes_ok H -> sigs_ok S -> xprims_ok X -> (forall k m, zlen (auth k m) = 32) ->
  let C := mkCrypto R H S (xkN X) auth in forall x w, honest C x w -> exists r0 r,
  begin C x = Ok (Some r0) /\ rounds C w 10 r0 = Ok (Some r) /\
  tp_not_done (r_tp C r) = false /\ t_cheaters (r_tp C r) = [] /\ t_complaints (r_tp C r) = [] /\ r_net C r = [] /\
  zlen (r_peers C r) = h_n C x /\
  (forall i, 0 <= i < h_n C x -> exists p, nth_error (r_peers C r) (Z.to_nat i) = Some p /\ peer_not_done C p = false /\ s_index (p_share C p) = i + 1 /\
     p_complaints C p = [] /\ p_n C p = h_n C x /\ p_t C p = h_t C x) /\
  forall qs, quorum (h_t C x) (map (p_share C) (r_peers C r)) qs ->
    dkg_reconstruct qs = zsum (map (fun i => hd 0 (pe_a (s_peer w i 3))) (zrange 0 (Z.to_nat (h_n C x)))) mod L.
Proof. exact run_over_library. Qed.
Print Assumptions C73_honest_run.

Example C73_nonvacuous : exists R H S X auth x w, ristretto_ok R /\ hashes_ok H /\ sigs_ok S /\ xprims_ok X /\ (forall k m, zlen (auth k m) = 32) /\
  honest (mkCrypto R H S (xkN X) auth) x w /\ h_n _ x = 3 /\ h_t _ x = 2.
Proof. exact C73_example. Qed.
