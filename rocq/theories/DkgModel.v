(** Model of /repo/src/dkg.c, function by function (debug output left out; the UNIT_TEST
    random generator is not modelled). *)
From Coq Require Import ZArith Lia List Bool.
From Coq.Strings Require Import Byte.
From Verif Require Import PrimeL Fq Bytes Res Sodium OprfModel ToprfModel.
Import ListNotations.
Open Scope list_scope.
Open Scope Z_scope.

(** src/dkg.c:36-59 polynom *)
Definition polynom (j threshold : Z) (a : list Z) : res share :=
  do a0 <- getz a 0 ;;
  do v <- foldM (fun t acc =>
                   let tmp := mul_times (Z.to_nat t) 1 j in
                   do at_ <- getz a t ;;
                   let tmp := scalar_mul at_ tmp in
                   Ok (scalar_add acc tmp))
                (zrange 1 (Z.to_nat (threshold - 1))) a0 ;;
  Ok (mkShare j v).

(** src/dkg.c:61-93 dkg_start: (return code, commitments, shares); [a] are the scalars drawn,
    [cbuf], [sbuf] the caller's arrays, [lk] the outcome of sodium_mlock *)
Definition dkg_start (R : ristretto) (lk : bool) (n threshold : Z) (a : list Z)
    (cbuf : list bytes) (sbuf : list share) : res (Z * list bytes * list share) :=
  if negb lk then Ok (-1, cbuf, sbuf) else
  do commitments <- foldM (fun k cs => do ak <- getz a k ;;
                                       updz cs k (snd (scalarmult_base R ak)))
                          (zrange 0 (Z.to_nat threshold)) cbuf ;;
  do shares <- loop_u8_le 257 1 n
                 (fun j ss => do s <- polynom j threshold a ;; updz ss (j - 1) s) sbuf ;;
  Ok (0, commitments, shares).

(** src/dkg.c:118-130: [None] = the early return -1; the return value of
    crypto_core_ristretto255_add is ignored *)
Fixpoint verify_loop (R : ristretto) (j : Z) (k : nat) (commitments : list bytes) (v1 : bytes) : option bytes :=
  match commitments with
  | [] => Some v1
  | C :: commitments' =>
      let tmp := mul_times (k - 1) j j in
      let '(ret, tmP) := scalarmult R tmp C in
      if ret =? 0 then
        match tmP with
        | Some P => verify_loop R j (S k) commitments'
                      (match core_add R v1 P with Some r => r | None => v1 end)
        | None => None (* unreachable *)
        end
      else None
  end.

(** src/dkg.c:95-140 dkg_verify_commitment: the return code.  The commitments array holds
    [threshold] entries; the loop at 118 counts with uint8_t up to threshold <= 255 and
    therefore ends. An empty array (threshold 0) makes line 116 read out of bounds. *)
Definition dkg_verify_commitment (R : ristretto) (self i : Z) (commitments : list bytes) (s : share) : res Z :=
  if i =? self then Ok 0 else
  let v0 := snd (scalarmult_base R (s_value s)) in
  do C0 <- getz commitments 0 ;;
  match verify_loop R self 1 (tl commitments) C0 with
  | None => Ok (-1)
  | Some v1 => if bytes_eqb v0 v1 then Ok 0 else Ok 1
  end.

(** src/dkg.c:149-159: the loop with its early return; i is uint8_t and wraps, out of fuel
    means the loop does not end *)
Fixpoint verify_all (fuel : nat) (R : ristretto) (n self : Z)
    (commitments : list (list bytes)) (shares : list share) (i : Z) (fails : list Z) (fails_len : Z)
  : res (Z * list Z * Z) :=
  match fuel with
  | O => UB
  | S fuel' =>
      if i <=? n then
        let next := verify_all fuel' R n self commitments shares ((i + 1) mod 256) in
        if i =? self then next fails fails_len else
        do cs <- getz commitments (i - 1) ;;
        do s <- getz shares (i - 1) ;;
        do ret <- dkg_verify_commitment R self i cs s ;;
        if ret =? -1 then Ok (ret, fails, fails_len)
        else if ret =? 0 then next fails fails_len
        else do fails' <- updz fails fails_len i ;; next fails' (fails_len + 1)
      else Ok ((if fails_len =? 0 then 0 else 1), fails, fails_len)
  end.

(** src/dkg.c:142-160 dkg_verify_commitments: (return code, fails array, fails_len) *)
Definition dkg_verify_commitments (R : ristretto) (n self : Z)
    (commitments : list (list bytes)) (shares : list share) (fails : list Z) : res (Z * list Z * Z) :=
  verify_all 257 R n self commitments shares 1 fails 0.

(** src/dkg.c:162-175 dkg_finish: the value written to xi (xi->index is not written); a share
    with a foreign index is only logged *)
Definition dkg_finish (shares : list share) : Z :=
  fold_left (fun acc s => scalar_add acc (s_value s)) shares 0.

(** src/dkg.c:177-193 dkg_reconstruct *)
Definition dkg_reconstruct (responses : list share) : Z :=
  let indexes := map s_index responses in
  fold_left (fun result r =>
               let lpoly := coeff (s_index r) indexes in
               let tmp := scalar_mul (s_value r) lpoly in
               scalar_add result tmp) responses 0.
