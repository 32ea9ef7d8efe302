(** C84: the example program python/examples/3hashtdh.py. *)
From Coq Require Import ZArith List Bool.
From Coq.Strings Require Import Byte.
From Verif Require Import PrimeL Bytes Res Mem Sodium OprfModel OprfSpec ToprfModel ToprfSpec PyModel PyTdhModel PyTdhSpec PyTdh PyTdhExamples.
Import ListNotations.
Open Scope list_scope.
Open Scope Z_scope.

(** The assertion at the end of the program never fails: whenever it is reached, for any number of servers
    and threshold, whatever was drawn, the two results are the same. *)
Theorem C84_assertion : forall R H, ristretto_ok R -> forall al reg reg' k a z r x ssid n t junk N0 N1,
  random_scalar k -> zlen a = t - 1 -> zlen z = t - 1 -> n <= 254 -> zlen junk = t ->
  tdh_program R H al reg reg' k a z r x ssid n t junk = Ret (N0, N1) -> N0 = N1.
Proof. exact program_agrees. Qed.
Print Assumptions C84_assertion.

Example C84_nonvacuous : exists R H al k a z r x ssid n t junk N0 N1, ristretto_ok R /\ hashes_ok H /\
  random_scalar k /\ zlen a = t - 1 /\ zlen z = t - 1 /\ n <= 254 /\ zlen junk = t /\
  tdh_program R H al 0 0 k a z r x ssid n t junk = Ret (N0, N1) /\ n = 5 /\ t = 3 /\ N0 <> zeros 32.
Proof. exact C84_example. Qed.

(** It is reached unless a share, a mask or an answer is zero; and the result is that of the key applied to
    the hashed input. *)
Theorem C84_returns : forall R H, ristretto_ok R -> hashes_ok H -> forall al k a z r x ssid n t junk, (forall m, al m = true) ->
  random_scalar k -> random_scalar r -> zlen a = t - 1 -> zlen z = t - 1 -> 2 <= t <= n -> n <= 254 -> zlen junk = t -> zlen x <= 255 -> HashToGroup R H x <> rzero R ->
  let P := rsmul R r (HashToGroup R H x) in
  let h := mask R H ssid (renc R P) in
  h <> rzero R ->
  (forall i, 1 <= i <= n -> poly (k :: a) i mod L <> 0 /\ poly (0 :: z) i mod L <> 0) ->
  (forall i, 1 <= i <= t -> radd R (rsmul R (poly (k :: a) i mod L) P) (rsmul R (poly (0 :: z) i mod L) h) <> rzero R) ->
  let N := renc R (rsmul R k (HashToGroup R H x)) in
  tdh_program R H al 0 0 k a z r x ssid n t junk = Ret (N, N).
Proof. exact program_returns. Qed.
Print Assumptions C84_returns.

Example C84_returns_nonvacuous : exists R H al k a z r x ssid n t (junk : list Z), ristretto_ok R /\ hashes_ok H /\ (forall m : Z, al m = true) /\
  random_scalar k /\ random_scalar r /\ zlen a = t - 1 /\ zlen z = t - 1 /\ 2 <= t <= n /\ n <= 254 /\ zlen junk = t /\ zlen x <= 255 /\ HashToGroup R H x <> rzero R /\
  let P := rsmul R r (HashToGroup R H x) in
  let h := mask R H ssid (renc R P) in
  h <> rzero R /\
  (forall i, 1 <= i <= n -> poly (k :: a) i mod L <> 0 /\ poly (0 :: z) i mod L <> 0) /\
  (forall i, 1 <= i <= t -> radd R (rsmul R (poly (k :: a) i mod L) P) (rsmul R (poly (0 :: z) i mod L) h) <> rzero R) /\ n = 5 /\ t = 3.
Proof. exact C84_returns_example. Qed.

(** Any t or more of the n answers, in any order, give what the key itself gives; if one of them is the
    identity the combination raises instead. *)
Theorem C84_any_quorum : forall R H, ristretto_ok R -> forall al reg reg' k a z r x ssid n t key rb alpha betas b,
  random_scalar k -> zlen a = t - 1 -> zlen z = t - 1 -> n <= 254 ->
  tdh_begin R H al reg reg' k a z r x ssid n t = Ret (key, rb, alpha, betas) -> py_evaluate R key alpha = Ret b ->
  2 <= t <= n /\ zlen betas = n /\ key = le_bytes 32 k /\ py_blind R H true true r x = Ret (rb, alpha) /\ NoDup betas /\
  forall ps junk, NoDup ps -> incl ps betas -> t <= zlen ps -> length junk = length ps ->
    (Forall (fun p => skipn 1 p <> zeros 32) ps -> py_thresholdmult R junk ps = Ret b) /\
    (Exists (fun p => skipn 1 p = zeros 32) ps -> py_thresholdmult R junk ps = Raise).
Proof. exact begin_inv. Qed.
Print Assumptions C84_any_quorum.

Example C84_quorum_nonvacuous : exists R H al k a z r x ssid n t key rb alpha betas b ps (junk : list Z), ristretto_ok R /\ hashes_ok H /\
  random_scalar k /\ zlen a = t - 1 /\ zlen z = t - 1 /\ n <= 254 /\
  tdh_begin R H al 0 0 k a z r x ssid n t = Ret (key, rb, alpha, betas) /\ py_evaluate R key alpha = Ret b /\
  NoDup ps /\ incl ps betas /\ t <= zlen ps /\ length junk = length ps /\ Forall (fun p => skipn 1 p <> zeros 32) ps /\
  map (fun p => bz (hd x00 p)) ps = [5; 1; 4; 2].
Proof. exact C84_quorum_example. Qed.
