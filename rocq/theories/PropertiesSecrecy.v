(** Property theorems C86 and C87: what masked answers and shares handed out reveal (src/toprf.c,
    src/dkg.c, src/mpmult.c).  Vocabulary: SecrecySpec.v, ToprfSpec.v, OprfSpec.v. *)
From Coq Require Import ZArith Lia List Bool.
From Coq.Strings Require Import Byte.
From Verif Require Import PrimeL Bytes Res Sodium OprfModel OprfSpec ToprfModel ToprfSpec DkgModel MpmultModel SecrecySpec.
From Verif Require Import Secrecy SecrecyExamples.
Import ListNotations.
Open Scope list_scope.
Open Scope Z_scope.

(** C86.  What a server answers: *)
Theorem C86_answer : forall R H, ristretto_ok R -> hashes_ok H -> forall k z alpha P ssid v,
  rdec R alpha = Some P -> 0 <= s_value k < 2 ^ 255 -> 0 <= s_value z < 2 ^ 255 ->
  (toprf_3hashtdh R H true k z alpha ssid = Ok (0, (s_index k, Some v)) <->
   v = renc R (masked R P (mask_point R H ssid alpha) k z) /\ rsmul R (s_value k) P <> rzero R /\ rsmul R (s_value z) (mask_point R H ssid alpha) <> rzero R).
Proof. exact answer. Qed.
Print Assumptions C86_answer.

(** the mask belongs to one session id and one blinded element, short of a collision of one of the two
    hashes on the strings named: *)
Theorem C86_mask_bound : forall R H ssid alpha ssid' alpha', Z.of_nat (length ssid) < 2 ^ 16 -> Z.of_nat (length ssid') < 2 ^ 16 ->
  mask_point R H ssid alpha = mask_point R H ssid' alpha' ->
  (ssid = ssid' /\ alpha = alpha') \/
  (mask_input ssid alpha <> mask_input ssid' alpha' /\ blake2b H 64 (mask_input ssid alpha) = blake2b H 64 (mask_input ssid' alpha')) \/
  (blake2b H 64 (mask_input ssid alpha) <> blake2b H 64 (mask_input ssid' alpha') /\
   HashToGroup R H (blake2b H 64 (mask_input ssid alpha)) = HashToGroup R H (blake2b H 64 (mask_input ssid' alpha'))).
Proof. exact mask_bound. Qed.
Print Assumptions C86_mask_bound.

(** the answers of all servers fit every sharing of the key equally well: for every other sharing
    there is exactly one sharing of zero that gives the same answers. *)
Theorem C86_answers_hide : forall R, ristretto_ok R -> forall secret n t a z a' buf buf' kshares zshares kshares' P h,
  sharing_params secret n t a buf -> create_shares secret n t a buf = Ok kshares ->
  sharing_params 0 n t z buf' -> create_shares 0 n t z buf' = Ok zshares ->
  sharing_params secret n t a' buf -> create_shares secret n t a' buf = Ok kshares' ->
  t - 1 <= n -> h <> rzero R ->
  exists! z', scalars (t - 1) z' /\ exists zshares', create_shares 0 n t z' buf' = Ok zshares' /\
    masked_answers R P h kshares' zshares' = masked_answers R P h kshares zshares.
Proof. exact answers_hide. Qed.
Print Assumptions C86_answers_hide.

Example C86_answer_nonvacuous : exists k z alpha P ssid v, ristretto_ok toyR /\ hashes_ok toyH /\ rdec toyR alpha = Some P /\
  0 <= s_value k < 2 ^ 255 /\ 0 <= s_value z < 2 ^ 255 /\ length ssid = 7%nat /\ toprf_3hashtdh toyR toyH true k z alpha ssid = Ok (0, (s_index k, Some v)).
Proof. exact C86_answer_example. Qed.

Example C86_mask_nonvacuous : exists ssid alpha ssid' alpha' : bytes, Z.of_nat (length ssid) < 2 ^ 16 /\ Z.of_nat (length ssid') < 2 ^ 16 /\
  ssid ++ alpha = ssid' ++ alpha' /\ ssid <> ssid' /\ length alpha = 32%nat.
Proof. exact C86_mask_example. Qed.

Example C86_hide_nonvacuous : exists secret n t a z a' buf buf' kshares zshares kshares' P h,
  ristretto_ok toyR /\ sharing_params secret n t a buf /\ create_shares secret n t a buf = Ok kshares /\
  sharing_params 0 n t z buf' /\ create_shares 0 n t z buf' = Ok zshares /\
  sharing_params secret n t a' buf /\ create_shares secret n t a' buf = Ok kshares' /\ t - 1 <= n /\ h <> rzero toyR /\
  P <> h /\ a <> a' /\ n = 5 /\ t = 3.
Proof. exact C86_hide_example. Qed.

(** C87.  The shares a dealer of a key generation sends to any t-1 peers fit every secret: exactly one
    polynomial with that secret gives them. *)
Theorem C87_dealer_shares_hide : forall R secret n t cbuf sbuf known,
  0 <= secret < L -> 1 <= n <= 254 -> 1 <= t <= 255 -> Z.of_nat (length cbuf) = t -> Z.of_nat (length sbuf) = n ->
  NoDup (map s_index known) -> Forall (fun s => 1 <= s_index s <= n /\ 0 <= s_value s < L) known -> Z.of_nat (length known) = t - 1 ->
  exists! a, scalars t a /\ nth_error a 0 = Some secret /\ exists cs shares, dkg_start R true n t a cbuf sbuf = Ok (0, cs, shares) /\ incl known shares.
Proof. exact dealer_secrecy. Qed.
Print Assumptions C87_dealer_shares_hide.

(** the commitments fix the polynomial: two polynomials with the same commitments are the same. *)
Theorem C87_commitments_bind : forall R, ristretto_ok R -> forall n t a a' cbuf sbuf cs sh sh',
  1 <= n <= 254 -> 1 <= t <= 255 -> scalars t a -> scalars t a' -> Z.of_nat (length cbuf) = t -> Z.of_nat (length sbuf) = n ->
  dkg_start R true n t a cbuf sbuf = Ok (0, cs, sh) -> dkg_start R true n t a' cbuf sbuf = Ok (0, cs, sh') -> a = a'.
Proof. exact commitments_bind. Qed.
Print Assumptions C87_commitments_bind.

(** the shares a party of the multiplication sends to any t-1 others fit every pair of factors. *)
Theorem C87_product_shares_hide : forall a b peers t buf known,
  s_index a = s_index b -> 1 <= t <= peers -> peers <= 254 -> Z.of_nat (length buf) = peers ->
  NoDup (map s_index known) -> Forall (fun s => 1 <= s_index s <= peers /\ 0 <= s_value s < L) known -> Z.of_nat (length known) = t - 1 ->
  exists! r, scalars (t - 1) r /\ exists shares, mpc_mul_start a b peers t r buf = Ok (0, shares) /\ incl known shares.
Proof. exact product_secrecy. Qed.
Print Assumptions C87_product_shares_hide.

Example C87_dealer_nonvacuous : exists secret n t (cbuf : list bytes) (sbuf known : list share),
  0 <= secret < L /\ 1 <= n <= 254 /\ 1 <= t <= 255 /\ Z.of_nat (length cbuf) = t /\ Z.of_nat (length sbuf) = n /\
  NoDup (map s_index known) /\ Forall (fun s => 1 <= s_index s <= n /\ 0 <= s_value s < L) known /\ Z.of_nat (length known) = t - 1 /\ t = 3.
Proof. exact C87_dealer_example. Qed.

Example C87_bind_nonvacuous : exists n t a a' (cbuf : list bytes) (sbuf : list share) cs sh,
  ristretto_ok toyR /\ 1 <= n <= 254 /\ 1 <= t <= 255 /\ scalars t a /\ scalars t a' /\ Z.of_nat (length cbuf) = t /\ Z.of_nat (length sbuf) = n /\
  dkg_start toyR true n t a cbuf sbuf = Ok (0, cs, sh) /\ a <> a' /\ t = 3.
Proof. exact C87_bind_example. Qed.

Example C87_product_nonvacuous : exists a b peers t (buf known : list share),
  s_index a = s_index b /\ 1 <= t <= peers /\ peers <= 254 /\ Z.of_nat (length buf) = peers /\
  NoDup (map s_index known) /\ Forall (fun s => 1 <= s_index s <= peers /\ 0 <= s_value s < L) known /\ Z.of_nat (length known) = t - 1 /\ t = 3.
Proof. exact C87_product_example. Qed.
