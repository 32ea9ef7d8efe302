(** Property theorems C81: keys from the key generation, used.
    Vocabulary: UseSpec.v, GoodSpec.v, RunSpec.v, ToprfSpec.v. *)
From Coq Require Import ZArith Lia List Bool.
From Coq.Strings Require Import Byte.
From Verif Require Import PrimeL Bytes Res Mem Sodium OprfModel OprfSpec ToprfModel ToprfSpec DkgModel DkgSpec WireModel WireSpec TpCrypto TpModel PeerModel TpRun TpSpec SafeSpec RunSpec GoodSpec UseSpec.
From Verif Require Import GoodUse UseExamples.
Import ListNotations.
Open Scope list_scope.
Open Scope Z_scope.

(** C81.  In a session where all follow the protocol (the conditions of C44) the shares the peers end
    with are exactly what toprf_create_shares returns for the sum of the secrets and some coefficients. *)
Theorem C81_honest_shares : forall C, crypto_ok C -> forall x w, RunSpec.honest C x w -> forall buf, Z.of_nat (length buf) = h_n C x ->
  let K := zsum (map (fun i => hd 0 (pe_a (s_peer w i 3))) (zrange 0 (Z.to_nat (h_n C x)))) mod L in
  exists r0 r a, begin C x = Ok (Some r0) /\ rounds C w 10 r0 = Ok (Some r) /\
    sharing_params K (h_n C x) (h_t C x) a buf /\ create_shares K (h_n C x) (h_t C x) a buf = Ok (map (p_share C) (r_peers C r)).
Proof. exact honest_created. Qed.
Print Assumptions C81_honest_shares.

(** Any t of them compute the OPRF with that key. *)
Theorem C81_honest_oprf : forall C, crypto_ok C -> forall x w, RunSpec.honest C x w -> forall H qs r0 r, hashes_ok H ->
  begin C x = Ok (Some r0) -> rounds C w 10 r0 = Ok (Some r) -> quorum (h_t C x) (map (p_share C) (r_peers C r)) qs ->
  let K := zsum (map (fun i => hd 0 (pe_a (s_peer w i 3))) (zrange 0 (Z.to_nat (h_n C x)))) mod L in
  K <> 0 -> serves (cR C) H (h_n C x) (h_t C x) K qs.
Proof. exact honest_serves. Qed.
Print Assumptions C81_honest_oprf.

Example C81_honest_nonvacuous : exists C x w r0 r H qs, crypto_ok C /\ RunSpec.honest C x w /\ hashes_ok H /\ begin C x = Ok (Some r0) /\ rounds C w 10 r0 = Ok (Some r) /\
  quorum (h_t C x) (map (p_share C) (r_peers C r)) qs /\ qs <> map (p_share C) (r_peers C r) /\ zsum (map (fun i => hd 0 (pe_a (s_peer w i 3))) (zrange 0 (Z.to_nat (h_n C x)))) mod L = 24.
Proof. exact C81_honest_example. Qed.

(** The same with other peers that do what they like, under the conditions of C80 (which gives the
    dealers' polynomials [A]): the peers that followed the protocol hold shares of one sharing. *)
Theorem C81_shares : forall C, crypto_ok C -> forall c calls outs parties A buf,
  done_well C c calls outs -> sound_commitments C (published c outs) ->
  Forall (GoodSpec.honest C c calls outs) parties -> Forall (fun x => plain_shares (received_by x)) parties ->
  dealers C c (published c outs) A -> Z.of_nat (length buf) = t_n c ->
  let K := zsum (map (hd 0) A) mod L in
  exists a shares, sharing_params K (t_n c) (t_t c) a buf /\ create_shares K (t_n c) (t_t c) a buf = Ok shares /\
    Forall (fun x => nth_error shares (Z.to_nat (number x)) = Some (share_of_party x)) parties.
Proof. exact generated. Qed.
Print Assumptions C81_shares.

(** t of them compute the OPRF with the key. *)
Theorem C81_oprf : forall C, crypto_ok C -> forall c calls outs parties A H,
  done_well C c calls outs -> sound_commitments C (published c outs) ->
  Forall (GoodSpec.honest C c calls outs) parties -> Forall (fun x => plain_shares (received_by x)) parties ->
  dealers C c (published c outs) A -> NoDup (map number parties) -> t_t c <= Z.of_nat (length parties) -> hashes_ok H ->
  let K := zsum (map (hd 0) A) mod L in K <> 0 -> serves (cR C) H (t_n c) (t_t c) K (map share_of_party parties).
Proof. exact generated_serves. Qed.
Print Assumptions C81_oprf.

Example C81_nonvacuous : exists C c calls outs (parties : list (party C)) A H x r, crypto_ok C /\ done_well C c calls outs /\ sound_commitments C (published c outs) /\
  Forall (GoodSpec.honest C c calls outs) parties /\ Forall (fun x => plain_shares (received_by x)) parties /\ dealers C c (published c outs) A /\ NoDup (map number parties) /\ t_t c <= Z.of_nat (length parties) /\
  hashes_ok H /\ zsum (map (hd 0) A) mod L = 34 /\ (length x <= 255)%nat /\ HashToGroup (cR C) H x <> rzero (cR C) /\ random_scalar r /\ t_n c = 4 /\ length parties = 3%nat.
Proof. exact C81_generated_example. Qed.
