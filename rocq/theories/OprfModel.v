(** Model of /repo/src/oprf.c, function by function.
    Conventions: [res] separates defined results from undefined behaviour; a C function
    returning int is modelled as the pair (return code, written outputs).  sodium_mlock
    may fail at run time: each call site is a boolean argument ([true] = lock obtained).
    Trace output (TRACE) and the CFRG_TEST_VEC build are not modelled; sodium_munlock and
    sodium_memzero have no observable effect here. *)
From Coq Require Import String.
From Coq Require Import ZArith Lia List Bool.
From Coq.Strings Require Import Byte.
From Verif Require Import PrimeL Fq Bytes Res Sodium.
Import ListNotations.
Open Scope list_scope.
Open Scope Z_scope.

Definition ascii (s : string) : bytes := list_byte_of_string s.

(** src/oprf.c:94  DST[]="Finalize" *)
Definition finalize_dst : bytes := ascii "Finalize".
(** src/oprf.c:35,254  dst[] = "HashToGroup-OPRFV1-\x00-ristretto255-SHA512" *)
Definition htg_dst : bytes := ascii "HashToGroup-OPRFV1-" ++ [x00] ++ ascii "-ristretto255-SHA512".

(** src/oprf.c:81-98: the byte string absorbed by the hash state in oprf_Finalize;
    [htons] is [be_bytes 2] because the two bytes are hashed in memory order. *)
Definition finalize_input (x N : bytes) : bytes :=
  be_bytes 2 (Z.of_nat (length x)) ++ x ++ be_bytes 2 32 ++ N ++ finalize_dst.

(** src/oprf.c:70-104 oprf_Finalize.  [x] is the caller's buffer and [len] the length the
    caller passes; the parameter is uint16_t, so [len mod 2^16] bytes are read. *)
Definition oprf_Finalize (H : hashes) (lk : bool) (x : bytes) (len : Z) (N : bytes)
  : res (Z * option bytes) :=
  if lk then
    do m <- of_opt (sub x 0 (Z.to_nat (len mod 2 ^ 16))) ;;
    Ok (0, Some (sha512 H (finalize_input m N)))
  else Ok (-1, None).

(** src/oprf.c:112 *)
Definition xor_byte (a b : byte) : byte := zb (Z.lxor (bz a) (bz b)).
Fixpoint xor_bytes (a b : bytes) : bytes :=
  match a, b with
  | x :: a', y :: b' => xor_byte x y :: xor_bytes a' b'
  | _, _ => []
  end.

(** src/oprf.c:109-121 expand_loop; [i] is uint8_t *)
Definition expand_loop (H : hashes) (b_0 b_i : bytes) (i : Z) (dst_prime : bytes) : bytes :=
  sha512 H (xor_bytes b_0 b_i ++ [zb i] ++ dst_prime).

(** src/oprf.c:231-234 and 237-240: clen = min(64, rest); memcpy(out, b, clen) *)
Definition emit (out : bytes) (rest : Z) (b : bytes) : bytes * Z :=
  let clen := if rest >? 64 then 64 else rest in
  (out ++ firstn (Z.to_nat clen) b, rest - clen).

(** src/oprf.c:226-241, the unrolled loop.  [i] is uint8_t and wraps; [fuel] only makes the
    function structurally recursive: running out of it is reported as UB (endless loop). *)
Fixpoint expand_rounds (fuel : nat) (H : hashes) (ell : Z) (b_0 : bytes) (dst_prime : bytes)
    (i : Z) (b_i : bytes) (out : bytes) (rest : Z) : res bytes :=
  match fuel with
  | O => UB
  | S fuel' =>
      if i <=? ell then
        let b_ii := expand_loop H b_0 b_i i dst_prime in
        let '(out1, rest1) := emit out rest b_ii in
        let b_i' := expand_loop H b_0 b_ii (i + 1) dst_prime in
        let '(out2, rest2) := emit out1 rest1 b_i' in
        expand_rounds fuel' H ell b_0 dst_prime ((i + 2) mod 256) b_i' out2 rest2
      else Ok out
  end.

(** src/oprf.c:186-196 msg_prime *)
Definition msg_prime (msg dst_prime : bytes) (len_in_bytes : Z) : bytes :=
  zeros 128 ++ msg ++ be_bytes 2 len_in_bytes ++ [x00] ++ dst_prime.

(** src/oprf.c:157-243 expand_message_xmd.  [msg] and [dst] are the buffers with their
    uint8_t lengths (at most 255 bytes each); [len_in_bytes] is in 0..255.  The result is
    the sequence of bytes written to uniform_bytes. *)
Definition expand_message_xmd (H : hashes) (msg dst : bytes) (len_in_bytes : Z) : res (Z * bytes) :=
  let ell := (len_in_bytes + 64 - 1) / 64 in
  if ell >? 255 then Ok (-1, []) else
  if Z.of_nat (length dst) =? 255 then Ok (-1, []) else
  let dst_prime := dst ++ [zb (Z.of_nat (length dst))] in
  let b_0 := sha512 H (msg_prime msg dst_prime len_in_bytes) in
  let b_i := sha512 H (b_0 ++ [x01] ++ dst_prime) in
  let '(out, rest) := emit [] len_in_bytes b_i in
  do out' <- expand_rounds 256 H ell b_0 dst_prime 2 b_i out rest ;;
  Ok (0, out').

(** src/oprf.c:253-273 voprf_hash_to_group *)
Definition voprf_hash_to_group (R : ristretto) (H : hashes) (lk : bool) (msg : bytes)
  : res (Z * option bytes) :=
  if lk then
    do (ret, uniform_bytes) <- expand_message_xmd H msg htg_dst 64 ;;
    if ret =? 0 then Ok (0, Some (from_hash R uniform_bytes)) else Ok (-1, None)
  else Ok (-1, None).

(** src/oprf.c:289-328 oprf_Blind.  [x] is the caller's buffer, [len] the length the caller
    passes (the parameter is uint8_t: [len mod 2^8] bytes are read), [r] the scalar drawn by
    crypto_core_ristretto255_scalar_random.  Result: return code, the value written to r,
    the bytes written to blinded. *)
Definition oprf_Blind (R : ristretto) (H : hashes) (lk1 lk2 : bool) (x : bytes) (len : Z) (r : Z)
  : res (Z * option Z * option bytes) :=
  if lk1 then
    do m <- of_opt (sub x 0 (Z.to_nat (len mod 2 ^ 8))) ;;
    do (ret, p) <- voprf_hash_to_group R H lk2 m ;;
    match p with
    | Some H0 =>
        if ret =? 0 then
          let '(sret, q) := scalarmult R r H0 in
          if sret =? 0 then Ok (0, Some r, q) else Ok (-1, Some r, q)
        else Ok (-1, None, None)
    | None => Ok (-1, None, None)
    end
  else Ok (-1, None, None).

(** src/oprf.c:345-349 oprf_Evaluate *)
Definition oprf_Evaluate (R : ristretto) (k : Z) (blinded : bytes) : Z * option bytes :=
  scalarmult R k blinded.

(** src/oprf.c:363-398 oprf_Unblind *)
Definition oprf_Unblind (R : ristretto) (lk : bool) (r : Z) (Zb : bytes) : Z * option bytes :=
  if is_valid_point R Zb then
    if lk then
      let '(iret, ir) := scalar_invert r in
      if iret =? 0 then
        let '(sret, q) := scalarmult R ir Zb in
        if sret =? 0 then (0, q) else (-1, q)
      else (-1, None)
    else (-1, None)
  else (-1, None).
