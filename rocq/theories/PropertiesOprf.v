(** Property theorems C01-C06: the basic OPRF (src/oprf.c).
    [R], [H] are the external group and hash functions; [ristretto_ok]/[hashes_ok] are the
    laws assumed of libsodium (Sodium.v).  The specification side is OprfSpec.v. *)
From Coq Require Import String.
From Coq Require Import ZArith Lia List Bool.
From Coq.Strings Require Import Byte.
From Verif Require Import PrimeL Fq Bytes Res Sodium OprfModel OprfSpec OprfProofs.
Import ListNotations.
Open Scope list_scope.
Open Scope Z_scope.

(** C01.  The blind [r] does not occur in the final result. *)
Theorem C01_oprf_round_trip : forall R H, ristretto_ok R -> hashes_ok H ->
  forall x k r,
  (length x <= 255)%nat -> HashToGroup R H x <> rzero R ->
  scalar_buf k -> (k mod 2 ^ 255) mod L <> 0 -> random_scalar r ->
  exists blinded Zb N,
    oprf_Blind R H true true x (Z.of_nat (length x)) r = Ok (0, Some r, Some blinded) /\
    oprf_Evaluate R k blinded = (0, Some Zb) /\
    oprf_Unblind R true r Zb = (0, Some N) /\
    N = renc R (rsmul R (k mod 2 ^ 255) (HashToGroup R H x)) /\
    oprf_Finalize H true x (Z.of_nat (length x)) N = Ok (0, Some (sha512 H (rfc_hashInput x N))).
Proof. exact oprf_roundtrip. Qed.
Print Assumptions C01_oprf_round_trip.

Example C01_nonvacuous : exists x k r,
  (length x <= 255)%nat /\ HashToGroup toyR toyH x <> rzero toyR /\
  scalar_buf k /\ (k mod 2 ^ 255) mod L <> 0 /\ random_scalar r /\ ristretto_ok toyR /\ hashes_ok toyH.
Proof. exact C01_example. Qed.

(** C02. *)
Theorem C02_blinding_hides_input : forall R H, ristretto_ok R -> hashes_ok H ->
  forall x1 x2 r1 b,
  (length x1 <= 255)%nat -> (length x2 <= 255)%nat ->
  HashToGroup R H x1 <> rzero R -> HashToGroup R H x2 <> rzero R -> random_scalar r1 ->
  oprf_Blind R H true true x1 (Z.of_nat (length x1)) r1 = Ok (0, Some r1, Some b) ->
  exists! r2, random_scalar r2 /\
    oprf_Blind R H true true x2 (Z.of_nat (length x2)) r2 = Ok (0, Some r2, Some b).
Proof. exact blind_hiding'. Qed.
Print Assumptions C02_blinding_hides_input.

Example C02_nonvacuous : exists x1 x2 r1,
  x1 <> x2 /\ (length x1 <= 255)%nat /\ (length x2 <= 255)%nat /\
  HashToGroup toyR toyH x1 <> rzero toyR /\ HashToGroup toyR toyH x2 <> rzero toyR /\ random_scalar r1.
Proof. exact C02_example. Qed.

(** C03.  Result: return code and exactly the bytes written to the output buffer. *)
Theorem C03_expand_message_xmd_rfc9380 : forall H, hashes_ok H ->
  forall msg dst len, 0 <= len <= 255 -> (length msg <= 255)%nat ->
  ((length dst <= 254)%nat ->
     expand_message_xmd H msg dst len = Ok (0, rfc_expand_message_xmd (sha512 H) msg dst len) /\
     length (rfc_expand_message_xmd (sha512 H) msg dst len) = Z.to_nat len) /\
  (length dst = 255%nat -> expand_message_xmd H msg dst len = Ok (-1, [])).
Proof. exact xmd_all. Qed.
Print Assumptions C03_expand_message_xmd_rfc9380.

(** the tag the code uses is the one of RFC 9497 *)
Theorem C03_tag : htg_dst = rfc_dst.
Proof. exact htg_dst_rfc. Qed.
Print Assumptions C03_tag.

Example C03_nonvacuous : exists (msg dst : bytes) (len : Z),
  0 <= len <= 255 /\ (length msg <= 255)%nat /\ (length dst <= 254)%nat /\ len = 255 /\ length dst = 40%nat.
Proof. exact C03_example. Qed.

(** C04.  Equal outputs mean equal arguments, unless the two strings Finalize hashes are a
    SHA-512 collision. *)
Theorem C04_finalize_unambiguous : forall H x1 N1 x2 N2,
  Z.of_nat (length x1) < 2 ^ 16 -> Z.of_nat (length x2) < 2 ^ 16 ->
  length N1 = 32%nat -> length N2 = 32%nat ->
  oprf_Finalize H true x1 (Z.of_nat (length x1)) N1 =
  oprf_Finalize H true x2 (Z.of_nat (length x2)) N2 ->
  (x1 = x2 /\ N1 = N2) \/
  (let m1 := rfc_hashInput x1 N1 in let m2 := rfc_hashInput x2 N2 in m1 <> m2 /\ sha512 H m1 = sha512 H m2).
Proof. exact finalize_injective. Qed.
Print Assumptions C04_finalize_unambiguous.

(** C04, the encoding itself: what Finalize hashes is [rfc_hashInput x N], and that is injective. *)
Theorem C04_finalize_encoding : forall H x N,
  Z.of_nat (length x) < 2 ^ 16 -> length N = 32%nat ->
  oprf_Finalize H true x (Z.of_nat (length x)) N = Ok (0, Some (sha512 H (rfc_hashInput x N))) /\
  forall x' N', Z.of_nat (length x') < 2 ^ 16 -> length N' = 32%nat ->
    rfc_hashInput x N = rfc_hashInput x' N' -> x = x' /\ N = N'.
Proof. exact finalize_encoding. Qed.
Print Assumptions C04_finalize_encoding.

Example C04_nonvacuous : exists x1 N1 x2 N2,
  Z.of_nat (length x1) < 2 ^ 16 /\ Z.of_nat (length x2) < 2 ^ 16 /\
  length N1 = 32%nat /\ length N2 = 32%nat /\ (x1, N1) <> (x2, N2) /\
  oprf_Finalize toyH true x1 (Z.of_nat (length x1)) N1 <>
  oprf_Finalize toyH true x2 (Z.of_nat (length x2)) N2.
Proof. exact C04_example. Qed.

(** C05.  Full statement: for every x (of any length) and r,
      oprf_Blind x |x| r = Ok (0, Some r, Some (renc (r * HashToGroup x))).
    It is false of the code: the length parameter is uint8_t. *)
Theorem C05_every_byte_counts_refuted :
  exists R H x r, ristretto_ok R /\ hashes_ok H /\ random_scalar r /\
    HashToGroup R H x <> rzero R /\
    exists b, oprf_Blind R H true true x (Z.of_nat (length x)) r = Ok (0, Some r, Some b) /\
              b <> renc R (rsmul R r (HashToGroup R H x)).
Proof. exact C05_witness. Qed.
Print Assumptions C05_every_byte_counts_refuted.

(** C05, exact behaviour: only the first [|x| mod 256] bytes count, for every x. *)
Theorem C05_only_length_mod_256_counts : forall R H, ristretto_ok R -> hashes_ok H ->
  forall x r, random_scalar r ->
  let x' := firstn (length x mod 256) x in
  HashToGroup R H x' <> rzero R ->
  oprf_Blind R H true true x (Z.of_nat (length x)) r =
    Ok (0, Some r, Some (renc R (rsmul R r (HashToGroup R H x')))).
Proof. exact blind_truncates. Qed.
Print Assumptions C05_only_length_mod_256_counts.

(** C05 restricted to inputs of at most 255 bytes (the full statement fails above that). *)
Theorem C05_every_byte_counts_partial : forall R H, ristretto_ok R -> hashes_ok H ->
  forall x r, (length x <= 255)%nat -> random_scalar r -> HashToGroup R H x <> rzero R ->
  oprf_Blind R H true true x (Z.of_nat (length x)) r =
    Ok (0, Some r, Some (renc R (rsmul R r (HashToGroup R H x)))).
Proof. exact blind_short. Qed.
Print Assumptions C05_every_byte_counts_partial.

Example C05_nonvacuous : exists x r, (length x <= 255)%nat /\ random_scalar r /\ HashToGroup toyR toyH x <> rzero toyR.
Proof. exact C05_example. Qed.

(** C06. *)
Theorem C06_unblind_accepts_exactly : forall R, ristretto_ok R ->
  forall r Zb, scalar_buf r ->
  (fst (oprf_Unblind R true r Zb) = 0 <->
     (exists P, rdec R Zb = Some P /\ P <> rzero R) /\ r mod L <> 0) /\
  (forall N, oprf_Unblind R true r Zb = (0, Some N) ->
     exists P Q, rdec R Zb = Some P /\ rdec R N = Some Q /\ rsmul R r Q = P /\
       (forall Q', rsmul R r Q' = P -> Q' = Q)) /\
  (fst (oprf_Unblind R true r Zb) = 0 -> exists N, oprf_Unblind R true r Zb = (0, Some N)).
Proof. exact unblind_all. Qed.
Print Assumptions C06_unblind_accepts_exactly.

Example C06_nonvacuous : exists r Zb N, scalar_buf r /\ oprf_Unblind toyR true r Zb = (0, Some N).
Proof. exact C06_example. Qed.
