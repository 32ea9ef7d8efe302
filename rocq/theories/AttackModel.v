(** Model of /repo/misc/attack.c: a server that answers with a key everybody knows.  Printing is left out.
    [lk], [lk1], [lk2]: whether memory can be locked, as in OprfModel.v. *)
From Coq Require Import ZArith List Bool.
From Coq.Strings Require Import Byte.
From Verif Require Import Bytes Res Sodium OprfModel.
Import ListNotations.
Open Scope list_scope.
Open Scope Z_scope.

(** misc/attack.c:16 *)
Definition attack_k : Z := 1.

(** misc/attack.c:35-44 tamper: return code, and what is written to beta *)
Definition attack_tamper (R : ristretto) (alpha : bytes) : Z * option bytes :=
  let '(ret, beta) := scalarmult R attack_k alpha in
  if negb (ret =? 0) then (1, beta) else (0, beta).

(** misc/attack.c:46-65 guess.  [len]: the length passed (voprf_hash_to_group takes it as uint8_t,
    oprf_Finalize as uint16_t). *)
Definition attack_guess (R : ristretto) (H : hashes) (lk1 lk2 : bool) (rwd pwd : bytes) (len : Z) : res Z :=
  do m <- of_opt (sub pwd 0 (Z.to_nat (len mod 2 ^ 8))) ;;
  do (ret, w) <- voprf_hash_to_group R H lk1 m ;;
  if negb (ret =? 0) then Ok 1 else
  let h0pwd := match w with Some b => b | None => zeros 32 end in
  do (ret, w) <- oprf_Finalize H lk2 pwd len h0pwd ;;
  if negb (ret =? 0) then Ok 1 else
  do rwd_ <- of_opt w ;;
  if negb (bytes_eqb rwd rwd_) then Ok (-1) else Ok 0.

(** misc/attack.c:67-103 test: the client's output (None: one of its calls failed).  [len]: the length
    passed with the input, [r]: the blind drawn.  The result of tamper is not looked at; if it fails,
    beta stays zero. *)
Definition attack_test (R : ristretto) (H : hashes) (password : bytes) (len r : Z) : res (option bytes) :=
  do (ret, wr, walpha) <- oprf_Blind R H true true password len r ;;
  if negb (ret =? 0) then Ok None else
  let alpha := match walpha with Some b => b | None => zeros 32 end in
  let r' := match wr with Some v => v | None => 0 end in
  let beta := match snd (attack_tamper R alpha) with Some b => b | None => zeros 32 end in
  let '(x, wN) := oprf_Unblind R true r' beta in
  if negb (x =? 0) then Ok None else
  let N := match wN with Some b => b | None => zeros 32 end in
  do (ret, w) <- oprf_Finalize H true password len N ;;
  if negb (ret =? 0) then Ok None else Ok w.
