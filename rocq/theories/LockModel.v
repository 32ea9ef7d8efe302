(** The temporaries of /repo/src/oprf.c, dkg.c and toprf.c that hold secrets, and how they are locked
    and wiped.  For every function: the events at its temporaries in the order in which they happen,
    and its result.  Only temporaries of the library are listed; what libsodium keeps on its own stack
    is not, nor are copies the compiler may make.  The hash state of oprf_Finalize is represented by
    the bytes it has absorbed. *)
From Coq Require Import ZArith Lia List Bool.
From Coq.Strings Require Import Byte.
From Verif Require Import PrimeL Fq Bytes Res Sodium OprfModel ToprfModel DkgModel.
Import ListNotations.
Open Scope list_scope.
Open Scope Z_scope.

(** oprf.c:77 state; :256 uniform_bytes; :186 msg_prime; :202 b_0; :207 b_i; :225 b_ii; :110 xored;
    :295 H0; :376 ir; dkg.c:66 a; toprf.c:87 a *)
Inductive temp : Type := t_state | t_uniform | t_msg_prime | t_b_0 | t_b_i | t_b_ii | t_xored | t_H0 | t_ir | t_poly | t_coeff.

(** [Lock t]: sodium_mlock succeeded; [LockFails t]: it failed; [Holds t c]: the secret bytes c have been
    written to t; [Unlock t]: sodium_munlock, which fills t with zeros and unlocks its memory *)
Inductive event : Type := Lock (t : temp) | LockFails (t : temp) | Holds (t : temp) (c : bytes) | Unlock (t : temp).

(** src/oprf.c:70-104 oprf_Finalize *)
Definition Finalize_run (H : hashes) (lk : bool) (x : bytes) (len : Z) (N : bytes) : list event * res (Z * option bytes) :=
  if lk then
    match sub x 0 (Z.to_nat (len mod 2 ^ 16)) with
    | Some m => ([Lock t_state; Holds t_state (finalize_input m N); Unlock t_state], Ok (0, Some (sha512 H (finalize_input m N))))
    | None => ([Lock t_state], UB)
    end
  else ([LockFails t_state], Ok (-1, None)).

(** src/oprf.c:109-121 expand_loop: the result is written to [t] *)
Definition loop_run (H : hashes) (b_0 b_i : bytes) (i : Z) (dst_prime : bytes) (t : temp) : list event * bytes :=
  let b := expand_loop H b_0 b_i i dst_prime in ([Holds t_xored (xor_bytes b_0 b_i); Holds t b], b).

(** src/oprf.c:226-241 *)
Fixpoint rounds_run (fuel : nat) (H : hashes) (ell : Z) (b_0 : bytes) (dst_prime : bytes)
    (i : Z) (b_i : bytes) (out : bytes) (rest : Z) : list event * res bytes :=
  match fuel with
  | O => ([], UB)
  | S fuel' =>
      if i <=? ell then
        let '(ev1, b_ii) := loop_run H b_0 b_i i dst_prime t_b_ii in
        let '(out1, rest1) := emit out rest b_ii in
        let '(ev2, b_i') := loop_run H b_0 b_ii (i + 1) dst_prime t_b_i in
        let '(out2, rest2) := emit out1 rest1 b_i' in
        let '(ev, r) := rounds_run fuel' H ell b_0 dst_prime ((i + 2) mod 256) b_i' out2 rest2 in
        (ev1 ++ ev2 ++ ev, r)
      else ([], Ok out)
  end.

(** src/oprf.c:157-243 expand_message_xmd; [t] is uniform_bytes *)
Definition expand_run (H : hashes) (msg dst : bytes) (len_in_bytes : Z) (t : temp) : list event * res (Z * bytes) :=
  let ell := (len_in_bytes + 64 - 1) / 64 in
  if ell >? 255 then ([], Ok (-1, [])) else
  if Z.of_nat (length dst) =? 255 then ([], Ok (-1, [])) else
  let dst_prime := dst ++ [zb (Z.of_nat (length dst))] in
  let mp := msg_prime msg dst_prime len_in_bytes in
  let b_0 := sha512 H mp in
  let b_i := sha512 H (b_0 ++ [x01] ++ dst_prime) in
  let '(out, rest) := emit [] len_in_bytes b_i in
  let '(ev, r) := rounds_run 256 H ell b_0 dst_prime 2 b_i out rest in
  ([Holds t_msg_prime mp; Holds t_b_0 b_0; Holds t_b_i b_i; Holds t out] ++ ev ++ match r with Ok o => [Holds t o] | UB => [] end,
   do out' <- r ;; Ok (0, out')).

(** src/oprf.c:253-273 voprf_hash_to_group; [p]: the caller's buffer, if it is a temporary of the library *)
Definition hash_to_group_run (R : ristretto) (H : hashes) (lk : bool) (msg : bytes) (p : option temp) : list event * res (Z * option bytes) :=
  if lk then
    let '(ev, r) := expand_run H msg htg_dst 64 t_uniform in
    match r with
    | UB => (Lock t_uniform :: ev, UB)
    | Ok (ret, ub) =>
        if ret =? 0 then
          (Lock t_uniform :: ev ++ match p with Some t => [Holds t (from_hash R ub)] | None => [] end ++ [Unlock t_uniform], Ok (0, Some (from_hash R ub)))
        else (Lock t_uniform :: ev ++ [Unlock t_uniform], Ok (-1, None))
    end
  else ([LockFails t_uniform], Ok (-1, None)).

(** src/oprf.c:289-328 oprf_Blind *)
Definition Blind_run (R : ristretto) (H : hashes) (lk1 lk2 : bool) (x : bytes) (len : Z) (r : Z) : list event * res (Z * option Z * option bytes) :=
  if lk1 then
    match sub x 0 (Z.to_nat (len mod 2 ^ 8)) with
    | None => ([Lock t_H0], UB)
    | Some m =>
        let '(ev, res) := hash_to_group_run R H lk2 m (Some t_H0) in
        match res with
        | UB => (Lock t_H0 :: ev, UB)
        | Ok (ret, Some H0) =>
            if ret =? 0 then
              let '(sret, q) := scalarmult R r H0 in
              (Lock t_H0 :: ev ++ [Unlock t_H0], if sret =? 0 then Ok (0, Some r, q) else Ok (-1, Some r, q))
            else (Lock t_H0 :: ev, Ok (-1, None, None))
        | Ok (ret, None) => (Lock t_H0 :: ev, Ok (-1, None, None))
        end
    end
  else ([LockFails t_H0], Ok (-1, None, None)).

(** src/oprf.c:363-398 oprf_Unblind *)
Definition Unblind_run (R : ristretto) (lk : bool) (r : Z) (Zb : bytes) : list event * (Z * option bytes) :=
  if is_valid_point R Zb then
    if lk then
      let '(iret, ir) := scalar_invert r in
      ([Lock t_ir; Holds t_ir (le_bytes 32 ir); Unlock t_ir],
       if iret =? 0 then let '(sret, q) := scalarmult R ir Zb in if sret =? 0 then (0, q) else (-1, q) else (-1, None))
    else ([LockFails t_ir], (-1, None))
  else ([], (-1, None)).

(** src/dkg.c:61-93 dkg_start *)
Definition start_run (R : ristretto) (lk : bool) (n threshold : Z) (a : list Z) (cbuf : list bytes) (sbuf : list share)
    : list event * res (Z * list bytes * list share) :=
  if negb lk then ([LockFails t_poly], Ok (-1, cbuf, sbuf)) else
  let r := dkg_start R true n threshold a cbuf sbuf in
  (Lock t_poly :: map (fun k => Holds t_poly (concat (map (le_bytes 32) (firstn (S k) a)))) (seq 0 (Z.to_nat threshold)) ++
   match r with Ok _ => [Unlock t_poly] | UB => [] end, r).

(** src/toprf.c:81-108 toprf_create_shares: no temporary is locked or wiped *)
Definition create_shares_run (secret : Z) (n threshold : Z) (a : list Z) (buf : list share) : list event * res (list share) :=
  (map (fun k => Holds t_coeff (concat (map (le_bytes 32) (firstn (S k) a)))) (seq 0 (Z.to_nat (threshold - 1))),
   create_shares secret n threshold a buf).
