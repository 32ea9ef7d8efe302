(** Property theorems C90: the product of two shared keys is a shared key.
    Vocabulary: MulSpec.v, UseSpec.v, GoodSpec.v, RunSpec.v, ToprfSpec.v. *)
From Coq Require Import ZArith Lia List Bool.
From Coq.Strings Require Import Byte.
From Verif Require Import PrimeL Bytes Res Mem Sodium OprfModel OprfSpec ToprfModel ToprfSpec DkgModel DkgSpec MpmultModel WireModel WireSpec TpCrypto TpModel PeerModel TpRun TpSpec SafeSpec RunSpec GoodSpec UseSpec MulSpec.
From Verif Require Import MulUse MulUseExamples.
Import ListNotations.
Open Scope list_scope.
Open Scope Z_scope.

(** C90.  What the recipients end with is what toprf_create_shares returns for the product and some
    coefficients, so it can be used (and multiplied again) like any other sharing. *)
Theorem C90_product_sharing : forall secA secB nA tA n t rA rB bufA bufB ashares bshares dealers dealt junk,
  sharing_params secA nA tA rA bufA -> sharing_params secB nA tA rB bufB ->
  create_shares secA nA tA rA bufA = Ok ashares -> create_shares secB nA tA rB bufB = Ok bshares ->
  NoDup dealers -> 2 * tA - 1 <= Z.of_nat (length dealers) -> 1 <= n <= 254 ->
  dealt_products ashares bshares n t dealers dealt ->
  forall buf, Z.of_nat (length buf) = n ->
  let K := (secA * secB) mod L in
  exists a shares, sharing_params K n t a buf /\ create_shares K n t a buf = Ok shares /\
    forall j recv, collected n dealt j recv -> nth_error shares (Z.to_nat (j - 1)) = Some (mpc_mul_finish dealers j recv junk).
Proof. exact product_sharing. Qed.
Print Assumptions C90_product_sharing.

(** Any t recipients compute the OPRF with the product as the key. *)
Theorem C90_product_oprf : forall secA secB nA tA n t rA rB bufA bufB ashares bshares dealers dealt junk,
  sharing_params secA nA tA rA bufA -> sharing_params secB nA tA rB bufB ->
  create_shares secA nA tA rA bufA = Ok ashares -> create_shares secB nA tA rB bufB = Ok bshares ->
  NoDup dealers -> 2 * tA - 1 <= Z.of_nat (length dealers) -> 1 <= n <= 254 ->
  dealt_products ashares bshares n t dealers dealt ->
  forall R H parties, ristretto_ok R -> hashes_ok H ->
  Forall (fun p => collected n dealt (fst p) (snd p)) parties -> NoDup (map fst parties) -> t <= Z.of_nat (length parties) ->
  let K := (secA * secB) mod L in K <> 0 -> serves R H n t K (map (fun p => mpc_mul_finish dealers (fst p) (snd p) junk) parties).
Proof. exact product_serves. Qed.
Print Assumptions C90_product_oprf.

Example C90_nonvacuous : exists secA secB nA tA n t rA rB bufA bufB ashares bshares dealers dealt parties,
  sharing_params secA nA tA rA bufA /\ sharing_params secB nA tA rB bufB /\
  create_shares secA nA tA rA bufA = Ok ashares /\ create_shares secB nA tA rB bufB = Ok bshares /\
  NoDup dealers /\ 2 * tA - 1 <= Z.of_nat (length dealers) /\ 1 <= n <= 254 /\
  dealt_products ashares bshares n t dealers dealt /\
  Forall (fun p => collected n dealt (fst p) (snd p)) parties /\ NoDup (map fst parties) /\ t <= Z.of_nat (length parties) /\
  (secA * secB) mod L = 35 /\ tA = 3 /\ n = 6 /\ t = 2 /\ dealers = [5; 1; 2; 4; 3] /\ ristretto_ok toyR /\ hashes_ok toyH.
Proof. exact C90_example. Qed.

(** Keys of two key generations with a trusted party, where all follow the protocol (C44): *)
Theorem C90_generated_keys : forall C, crypto_ok C -> forall x1 w1 r1 s1 x2 w2 r2 s2 n t dealers dealt junk buf,
  RunSpec.honest C x1 w1 -> RunSpec.honest C x2 w2 -> h_n C x2 = h_n C x1 -> h_t C x2 = h_t C x1 ->
  begin C x1 = Ok (Some r1) -> rounds C w1 10 r1 = Ok (Some s1) -> begin C x2 = Ok (Some r2) -> rounds C w2 10 r2 = Ok (Some s2) ->
  NoDup dealers -> 2 * h_t C x1 - 1 <= Z.of_nat (length dealers) -> 1 <= n <= 254 -> Z.of_nat (length buf) = n ->
  dealt_products (map (p_share C) (r_peers C s1)) (map (p_share C) (r_peers C s2)) n t dealers dealt ->
  let key x w := zsum (map (fun i => hd 0 (pe_a (s_peer w i 3))) (zrange 0 (Z.to_nat (h_n C x)))) in
  let K := (key x1 w1 * key x2 w2) mod L in
  exists a shares, sharing_params K n t a buf /\ create_shares K n t a buf = Ok shares /\
    forall j recv, collected n dealt j recv -> nth_error shares (Z.to_nat (j - 1)) = Some (mpc_mul_finish dealers j recv junk).
Proof. exact honest_product. Qed.
Print Assumptions C90_generated_keys.

Example C90_generated_keys_nonvacuous : exists C x w r s n t dealers dealt, crypto_ok C /\ RunSpec.honest C x w /\ begin C x = Ok (Some r) /\ rounds C w 10 r = Ok (Some s) /\
  NoDup dealers /\ 2 * h_t C x - 1 <= Z.of_nat (length dealers) /\ 1 <= n <= 254 /\
  dealt_products (map (p_share C) (r_peers C s)) (map (p_share C) (r_peers C s)) n t dealers dealt /\ n = 7 /\ t = 4 /\ dealers = [2; 3; 1].
Proof. exact C90_honest_example. Qed.

(** The same for the peers that followed the protocol in two sessions where others did what they liked
    (the conditions of C80): *)
Theorem C90_generated_keys_others_malicious : forall C, crypto_ok C -> forall c1 calls1 outs1 ps1 A1 c2 calls2 outs2 ps2 A2 n t dealers dealt junk buf,
  done_well C c1 calls1 outs1 -> sound_commitments C (published c1 outs1) -> Forall (GoodSpec.honest C c1 calls1 outs1) ps1 -> Forall (fun x => plain_shares (received_by x)) ps1 ->
  GoodSpec.dealers C c1 (published c1 outs1) A1 ->
  done_well C c2 calls2 outs2 -> sound_commitments C (published c2 outs2) -> Forall (GoodSpec.honest C c2 calls2 outs2) ps2 -> Forall (fun x => plain_shares (received_by x)) ps2 ->
  GoodSpec.dealers C c2 (published c2 outs2) A2 ->
  t_n c2 = t_n c1 -> t_t c2 = t_t c1 ->
  NoDup dealers -> 2 * t_t c1 - 1 <= Z.of_nat (length dealers) -> 1 <= n <= 254 -> Z.of_nat (length buf) = n ->
  dealt_products (map share_of_party ps1) (map share_of_party ps2) n t dealers dealt ->
  let K := (zsum (map (hd 0) A1) * zsum (map (hd 0) A2)) mod L in
  exists a shares, sharing_params K n t a buf /\ create_shares K n t a buf = Ok shares /\
    forall j recv, collected n dealt j recv -> nth_error shares (Z.to_nat (j - 1)) = Some (mpc_mul_finish dealers j recv junk).
Proof. exact generated_product. Qed.
Print Assumptions C90_generated_keys_others_malicious.

Example C90_others_malicious_nonvacuous : exists C c calls outs (ps : list (party C)) A n t dealers dealt, crypto_ok C /\ done_well C c calls outs /\ sound_commitments C (published c outs) /\
  Forall (GoodSpec.honest C c calls outs) ps /\ Forall (fun x => plain_shares (received_by x)) ps /\ GoodSpec.dealers C c (published c outs) A /\
  NoDup dealers /\ 2 * t_t c - 1 <= Z.of_nat (length dealers) /\ 1 <= n <= 254 /\
  dealt_products (map share_of_party ps) (map share_of_party ps) n t dealers dealt /\ t_n c = 4 /\ length ps = 3%nat /\ n = 5 /\ t = 2.
Proof. exact C90_generated_example. Qed.
