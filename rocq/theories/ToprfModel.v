(** Model of /repo/src/toprf.c, function by function.
    Scalars are the integers their 32 little endian bytes denote (0 <= x < 2^256), points
    are byte strings, uint8_t values are integers in 0..255.  Zero-length variable length
    arrays are taken as empty (GNU C), negative sizes are UB. *)
From Coq Require Import ZArith Lia List Bool.
From Coq.Strings Require Import Byte.
From Verif Require Import PrimeL Fq Bytes Res Sodium OprfModel.
Import ListNotations.
Open Scope list_scope.
Open Scope Z_scope.

(** src/toprf.c:46-49, toprf.h TOPRF_Share *)
Record share : Type := mkShare { s_index : Z; s_value : Z }.
(** src/toprf.c:51-54 TOPRF_Part *)
Record part : Type := mkPart { p_index : Z; p_value : bytes }.

(** src/toprf.c:67-76: the loop body of coeff; state = (divident, divisor) *)
Definition coeff_step (index : Z) (st : Z * Z) (p : Z) : Z * Z :=
  let '(divident, divisor) := st in
  if p =? index then (divident, divisor)
  else (scalar_mul divident p, scalar_mul divisor (scalar_sub p index)).

(** src/toprf.c:56-79 coeff *)
Definition coeff (index : Z) (peers : list Z) : Z :=
  let '(divident, divisor) := fold_left (coeff_step index) peers (1, 1) in
  let divisor_inv := snd (scalar_invert divisor) in
  scalar_mul divisor_inv divident.

(** src/toprf.c:102-104: [k] further multiplications by x *)
Fixpoint mul_times (k : nat) (tmp x : Z) : Z :=
  match k with O => tmp | S k' => mul_times k' (scalar_mul tmp x) x end.

(** src/toprf.c:98-106: the value of the share at x; [a] holds the threshold-1 random scalars *)
Definition share_value (secret : Z) (threshold : Z) (a : list Z) (x : Z) : res Z :=
  foldM (fun j acc =>
           do aj <- getz a j ;;
           let tmp := mul_times (Z.to_nat j) (scalar_mul aj x) x in
           Ok (scalar_add acc tmp))
        (zrange 0 (Z.to_nat (threshold - 1))) secret.

(** src/toprf.c:81-108 toprf_create_shares.  [a] are the scalars drawn in the loop at 89-91
    (threshold-1 of them), [buf] the caller's array of n shares.  The outer loop counter is
    uint8_t. *)
Definition create_shares (secret n threshold : Z) (a : list Z) (buf : list share) : res (list share) :=
  if threshold - 1 <? 0 then UB else
  loop_u8_le 257 1 n
    (fun i shares =>
       do v <- share_value secret threshold a i ;;
       updz shares (i - 1) (mkShare i v))
    buf.

(** src/toprf.c:120-125: swap positions d and d-1 of an array *)
Definition swap_down {A} (l : list A) (d : nat) : res (list A) :=
  do x <- of_opt (nth_error l d) ;;
  do y <- of_opt (nth_error l (d - 1)) ;;
  do l1 <- of_opt (upd l d y) ;;
  of_opt (upd l1 (d - 1) x).

(** src/toprf.c:119-127: the while loop of the insertion sort *)
Fixpoint sift (d : nat) (arr : list Z) (idx : list nat) : res (list Z * list nat) :=
  match d with
  | O => Ok (arr, idx)
  | S d' =>
      do x <- of_opt (nth_error arr d) ;;
      do y <- of_opt (nth_error arr d') ;;
      if x <? y then
        do arr' <- swap_down arr d ;;
        do idx' <- swap_down idx d ;;
        sift d' arr' idx'
      else Ok (arr, idx)
  end.

(** src/toprf.c:110-129 sort_parts: the array indexes[] it fills (n <= 255) *)
Definition sort_parts (parts : list part) : res (list nat) :=
  let n := length parts in
  do (arr, idx) <- foldM (fun c '(arr, idx) => sift c arr idx)
                         (seq 1 (n - 1)) (map p_index parts, seq 0 n) ;;
  Ok idx.

(** src/toprf.c:148-156: the accumulation loop of toprf_thresholdmult; the return value of
    crypto_core_ristretto255_add is ignored.  [indexes] is the index array of line 144. *)
Fixpoint mult_loop (R : ristretto) (parts : list part) (indexes : list Z) (order : list nat)
    (result : bytes) : res (Z * bytes) :=
  match order with
  | [] => Ok (0, result)
  | i :: order' =>
      do p <- of_opt (nth_error parts i) ;;
      let lpoly := coeff (p_index p) indexes in
      let '(ret, gki) := scalarmult R lpoly (p_value p) in
      if ret =? 0 then
        match gki with
        | Some g =>
            let result' := match core_add R result g with Some r => r | None => result end in
            mult_loop R parts indexes order' result'
        | None => UB (* unreachable: a zero return code always comes with an output *)
        end
      else Ok (1, result)
  end.

(** src/toprf.c:131-158 toprf_thresholdmult: (return code, contents of result).
    [junk] is the initial contents of the stack array indexes[] (same length). *)
Definition thresholdmult (R : ristretto) (parts : list part) (junk : list Z) : res (Z * bytes) :=
  if Z.of_nat (length parts) >? 255 then Ok (1, zeros 32) else
  do indexed_indexes <- sort_parts parts ;;
  do indexes <- foldM (fun k idxs =>
                         do p <- of_opt (nth_error parts k) ;;
                         of_opt (upd idxs k (p_index p)))
                      indexed_indexes junk ;;
  mult_loop R parts indexes indexed_indexes (zeros 32).

(** src/toprf.c:160-176 toprf_Evaluate: (return code, what is written to Z->value);
    Z->index is not written *)
Definition toprf_Evaluate (R : ristretto) (k : share) (blinded : bytes) (self : Z) (indexes : list Z)
  : Z * option bytes :=
  let lpoly := coeff self indexes in
  let kl := scalar_mul (s_value k) lpoly in
  let '(ret, z) := oprf_Evaluate R kl blinded in
  if ret =? 0 then (0, z) else (1, z).

(** src/toprf.c:188-190 *)
Fixpoint combine_loop (R : ristretto) (parts : list part) (order : list nat) (result : bytes) : res bytes :=
  match order with
  | [] => Ok result
  | i :: order' =>
      do p <- of_opt (nth_error parts i) ;;
      let result' := match core_add R result (p_value p) with Some r => r | None => result end in
      combine_loop R parts order' result'
  end.

(** src/toprf.c:178-192 toprf_thresholdcombine; [result0] is the caller's buffer, left alone
    when more than 255 responses are given *)
Definition thresholdcombine (R : ristretto) (parts : list part) (result0 : bytes) : res (Z * bytes) :=
  if Z.of_nat (length parts) >? 255 then Ok (1, result0) else
  do order <- sort_parts parts ;;
  do result <- combine_loop R parts order (zeros 32) ;;
  Ok (0, result).

(** src/toprf.c:214-222: the 64-byte hash of (session id, alpha) *)
Definition tdh_hash (H : hashes) (ssid alpha : bytes) : bytes :=
  blake2b H 64 (be_bytes 2 (Z.of_nat (length ssid)) ++ ssid ++ alpha).

(** src/toprf.c:195-235 toprf_3hashtdh: (return code, what is written to beta).  [lk] is the
    outcome of the sodium_mlock inside voprf_hash_to_group; ssid has at most 2^16-1 bytes. *)
Definition toprf_3hashtdh (R : ristretto) (H : hashes) (lk : bool) (k z : share) (alpha ssid : bytes)
  : res (Z * (Z * option bytes)) :=
  let '(r1, b1) := oprf_Evaluate R (s_value k) alpha in
  if negb (r1 =? 0) then Ok (1, (s_index k, b1)) else
  do (r2, point) <- voprf_hash_to_group R H lk (tdh_hash H ssid alpha) ;;
  match point with
  | None => Ok (-1, (s_index k, b1))
  | Some pt =>
      if negb (r2 =? 0) then Ok (-1, (s_index k, b1)) else
      let '(r3, h2) := oprf_Evaluate R (s_value z) pt in
      if negb (r3 =? 0) then Ok (1, (s_index k, b1)) else
      match b1, h2 with
      | Some b, Some h =>
          Ok (0, (s_index k, Some match core_add R b h with Some r => r | None => b end))
      | _, _ => UB (* unreachable *)
      end
  end.
