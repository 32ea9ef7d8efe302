(** Property theorems C54-C57 and C61-C63: the Python bindings (python/pyoprf/__init__.py).
    Vocabulary: PySpec.v, ToprfSpec.v, DkgSpec.v.  [al] says which allocations succeed, [a] are the
    coefficients drawn by the C code, [Bad] is undefined behaviour, [Raise] an exception. *)
From Coq Require Import ZArith Lia List Bool Permutation.
From Coq.Strings Require Import Byte.
From Verif Require Import PrimeL Bytes Res Mem Sodium OprfModel OprfSpec ToprfModel ToprfSpec DkgModel DkgSpec WireModel WireSpec TpModel PyModel PySpec.
From Verif Require Import PyProofs PyThreshold PyDkg PyExamples.
Import ListNotations.
Open Scope list_scope.
Open Scope Z_scope.

(** C54.  Full statement: for every n and t create_shares returns, and any t of the shares reconstruct
    the secret.  False: n and t are passed as bytes without a check. *)
Theorem C54_python_shares_refuted : exists al reg a secret n t l qs,
  py_create_shares al reg a secret n t = Ret l /\ of_le secret < L /\ Forall random_scalar a /\ zlen a = t - 1 /\
  zlen l = n /\ NoDup qs /\ incl qs l /\ t <= zlen qs /\
  exists other, py_dkg_reconstruct qs = Ret other /\ other <> secret.
Proof. exact C54_witness. Qed.
Print Assumptions C54_python_shares_refuted.

Theorem C54_python_shares_undefined : forall al reg a secret n t,
  zlen secret = 32 -> 2 <= t <= n -> n < 2 ^ 64 -> al (n * 33) = true ->
  n mod 256 = 255 \/ t mod 256 = 0 -> py_create_shares al reg a secret n t = Bad.
Proof. exact py_create_bad. Qed.
Print Assumptions C54_python_shares_undefined.

(** True up to 254 shares. *)
Theorem C54_python_shares_partial : forall al reg a secret n t l,
  py_create_shares al reg a secret n t = Ret l -> of_le secret < L -> n <= 254 -> zlen a = t - 1 ->
  zlen l = n /\ forall qs, NoDup qs -> incl qs l -> t <= zlen qs -> py_dkg_reconstruct qs = Ret secret.
Proof. exact py_shares_reconstruct. Qed.
Print Assumptions C54_python_shares_partial.

(** whether it returns depends on the register in which a C function without result leaves nothing *)
Theorem C54_python_shares_return : forall al a secret n t,
  zlen secret = 32 -> of_le secret < L -> 2 <= t <= n -> n <= 254 -> zlen a = t - 1 -> al (n * 33) = true ->
  (exists l, py_create_shares al 0 a secret n t = Ret l) /\
  (forall reg, reg <> 0 -> py_create_shares al reg a secret n t = Raise).
Proof. exact py_create_returns. Qed.
Print Assumptions C54_python_shares_return.

Example C54_nonvacuous : exists al reg a secret n t l qs,
  py_create_shares al reg a secret n t = Ret l /\ of_le secret < L /\ n <= 254 /\ zlen a = t - 1 /\
  NoDup qs /\ incl qs l /\ t <= zlen qs /\ zlen qs < n /\ t = 3 /\ al (n * 33) = true.
Proof. exact C54_example. Qed.
Example C54_undefined_nonvacuous : exists al (secret : bytes) n t,
  zlen secret = 32 /\ 2 <= t <= n /\ n < 2 ^ 64 /\ al (n * 33) = true /\ n = 255.
Proof. exact C54_bad_example. Qed.

(** C55.  Full statement: for every input the four calls compute the output of RFC 9497.  False: inputs
    that differ get the same results, whatever the key and the randomness. *)
Theorem C55_python_oprf_refuted : forall R H x, 65536 <= zlen x ->
  exists x', x' <> x /\ zlen x' = zlen x mod 65536 /\
    (forall lk1 lk2 r, py_blind R H lk1 lk2 r x = py_blind R H lk1 lk2 r x') /\
    (forall lk N, py_finalize H lk x N = py_finalize H lk x' N).
Proof. exact py_long_input. Qed.
Print Assumptions C55_python_oprf_refuted.

Theorem C55_python_blind_prefix : forall R H lk1 lk2 r x,
  py_blind R H lk1 lk2 r x = py_blind R H lk1 lk2 r (firstn (Z.to_nat (zlen x mod 256)) x).
Proof. exact py_blind_prefix. Qed.
Print Assumptions C55_python_blind_prefix.

(** True up to 255 bytes. *)
Theorem C55_python_oprf_partial : forall R H, ristretto_ok R -> hashes_ok H -> forall x k r,
  zlen x <= 255 -> HashToGroup R H x <> rzero R -> zlen k = 32 -> (of_le k mod 2 ^ 255) mod L <> 0 -> random_scalar r ->
  exists rb blinded beta N,
    py_blind R H true true r x = Ret (rb, blinded) /\ py_evaluate R k blinded = Ret beta /\ py_unblind R true rb beta = Ret N /\
    N = renc R (rsmul R (of_le k mod 2 ^ 255) (HashToGroup R H x)) /\
    py_finalize H true x N = Ret (sha512 H (rfc_hashInput x N)) /\
    py_unblind_finalize R H true true rb beta x = Ret (sha512 H (rfc_hashInput x N)).
Proof. exact py_round_trip. Qed.
Print Assumptions C55_python_oprf_partial.

Example C55_nonvacuous : exists x k r,
  zlen x <= 255 /\ HashToGroup toyR toyH x <> rzero toyR /\ zlen k = 32 /\ (of_le k mod 2 ^ 255) mod L <> 0 /\
  random_scalar r /\ ristretto_ok toyR /\ hashes_ok toyH.
Proof. exact C55_example. Qed.
Example C55_refuted_nonvacuous : exists x : bytes, 65536 <= zlen x.
Proof. exact C55_long_example. Qed.

(** C56.  Full statement: no call is undefined.  False for 255 shares or dealers, *)
Theorem C56_start_refuted : forall R al a t, 2 <= t <= 255 -> al (255 * 33) = true -> al (t * 32) = true ->
  py_dkg_start R al true a 255 t = Bad.
Proof. exact py_start_255. Qed.
Print Assumptions C56_start_refuted.
Theorem C56_verify_refuted : forall R, ristretto_ok R -> forall al t self coms ss,
  2 <= t <= 255 -> 1 <= self <= 255 -> zlen coms = 255 -> com_rows t coms ->
  zlen ss = 255 -> Forall plain ss -> al 255 = true -> Forall (usable R) coms ->
  py_dkg_verify_commitments R al 255 t self (concat (map (@concat byte) coms)) (map share_bytes ss) = Bad.
Proof. exact py_verify_255. Qed.
Print Assumptions C56_verify_refuted.
(** and for responses that are together too short. *)
Theorem C56_reconstruct_exact : forall responses,
  py_dkg_reconstruct responses = Bad <-> zlen (concat responses) + 1 < 33 * zlen responses.
Proof. exact py_reconstruct_bad. Qed.
Print Assumptions C56_reconstruct_exact.

Example C56_verify_nonvacuous : exists al t self (coms : list (list bytes)) ss,
  2 <= t <= 255 /\ 1 <= self <= 255 /\ zlen coms = 255 /\ com_rows t coms /\ zlen ss = 255 /\ Forall plain ss /\ al 255 = true /\
  Forall (usable toyR) coms /\ ristretto_ok toyR.
Proof. exact C56_verify_255_example. Qed.

(** True for all arguments of the other functions, *)
Theorem C56_oprf_safe : forall R H, ristretto_ok R -> hashes_ok H ->
  (forall lk1 lk2 r x, py_blind R H lk1 lk2 r x <> Bad) /\
  (forall k b, py_evaluate R k b <> Bad) /\
  (forall lk r z, py_unblind R lk r z <> Bad) /\
  (forall lk x N, py_finalize H lk x N <> Bad) /\
  (forall lk1 lk2 r z x, py_unblind_finalize R H lk1 lk2 r z x <> Bad) /\
  (forall (junk : list Z) parts, length junk = length parts -> py_thresholdmult R junk parts <> Bad) /\
  (forall k b self idx, py_threshold_evaluate R k b self idx <> Bad) /\
  (forall parts, py_threshold_combine R parts <> Bad) /\
  (forall lk k z alpha ssid, py_3hashtdh R H lk k z alpha ssid <> Bad) /\
  (forall n shares self, py_dkg_finish n shares self <> Bad).
Proof. exact py_safe_all. Qed.
Print Assumptions C56_oprf_safe.
(** and up to 254 parties. *)
Theorem C56_dkg_safe_partial : forall R, ristretto_ok R -> forall al n, n <= 254 ->
  (forall reg a secret t, zlen a = t - 1 -> py_create_shares al reg a secret n t <> Bad) /\
  (forall lk a t, zlen a = t -> py_dkg_start R al lk a n t <> Bad) /\
  (forall t self coms shares, py_dkg_verify_commitments R al n t self coms shares <> Bad).
Proof. exact py_dkg_safe. Qed.
Print Assumptions C56_dkg_safe_partial.

(** C57.  Full statement: dkg_verify_commitments returns the dealers that cheated.  False: *)
Theorem C57_verify_reports_refuted : exists R al n t self coms ss, ristretto_ok R /\
  2 <= t <= n /\ n <= 254 /\ 1 <= self <= n /\ zlen coms = n /\ com_rows t coms /\ zlen ss = n /\ Forall plain ss /\ al n = true /\
  cheated R self coms ss 2 /\
  py_dkg_verify_commitments R al n t self (concat (map (@concat byte) coms)) (map share_bytes ss) = Raise.
Proof. exact C57_witness. Qed.
Print Assumptions C57_verify_reports_refuted.
(** it returns the empty list or raises, and it raises exactly if somebody cheated. *)
Theorem C57_verify_outcome_partial : forall R, ristretto_ok R -> forall al n t self coms ss,
  2 <= t <= n -> n <= 254 -> 1 <= self <= n -> zlen coms = n -> com_rows t coms ->
  zlen ss = n -> Forall plain ss -> al n = true ->
  let out := py_dkg_verify_commitments R al n t self (concat (map (@concat byte) coms)) (map share_bytes ss) in
  (out = Ret [] /\ forall j, ~ cheated R self coms ss j /\ ~ unusable_dealer R self coms ss j) \/
  (out = Raise /\ exists j, cheated R self coms ss j \/ unusable_dealer R self coms ss j).
Proof. exact py_verify_outcome. Qed.
Print Assumptions C57_verify_outcome_partial.

(** the other outcome is that of the refutation *)
Example C57_nonvacuous : exists R al n t self coms ss, ristretto_ok R /\
  2 <= t <= n /\ n <= 254 /\ 1 <= self <= n /\ zlen coms = n /\ com_rows t coms /\ zlen ss = n /\ Forall plain ss /\ al n = true /\
  py_dkg_verify_commitments R al n t self (concat (map (@concat byte) coms)) (map share_bytes ss) = Ret [].
Proof. exact C57_example. Qed.

(** C61.  Full statement: the responses of any t servers combine to the evaluation under the shared key,
    fewer than two responses are refused.  False: *)
Theorem C61_too_few_refuted : exists R, ristretto_ok R /\
  (exists y, py_thresholdmult R [] [] = Ret y) /\ (exists y, py_threshold_combine R [] = Ret y).
Proof. exact C61_witness. Qed.
Print Assumptions C61_too_few_refuted.

(** True of any t servers (up to 254): servers that do not know who else answers, *)
Theorem C61_python_thresholdmult_partial : forall R, ristretto_ok R -> forall al reg a secret n t l,
  py_create_shares al reg a secret n t = Ret l -> of_le secret < L -> n <= 254 -> zlen a = t - 1 ->
  forall qs parts alpha b (junk : list Z), NoDup qs -> incl qs l -> t <= zlen qs ->
  Forall2 (fun s p => exists v, py_evaluate R (skipn 1 s) alpha = Ret v /\ p = firstn 1 s ++ v) qs parts ->
  length junk = length parts -> py_evaluate R secret alpha = Ret b -> py_thresholdmult R junk parts = Ret b.
Proof. exact py_tmult. Qed.
Print Assumptions C61_python_thresholdmult_partial.
Example C61_thresholdmult_nonvacuous : exists al reg a secret n t l qs parts alpha b (junk : list Z),
  py_create_shares al reg a secret n t = Ret l /\ of_le secret < L /\ n <= 254 /\ zlen a = t - 1 /\
  NoDup qs /\ incl qs l /\ t <= zlen qs /\
  Forall2 (fun s p => exists v, py_evaluate toyR (skipn 1 s) alpha = Ret v /\ p = firstn 1 s ++ v) qs parts /\
  length junk = length parts /\ py_evaluate toyR secret alpha = Ret b /\ zlen qs < n /\ ristretto_ok toyR.
Proof. exact C61_mult_example. Qed.

(** servers that do, *)
Theorem C61_python_combine_partial : forall R, ristretto_ok R -> forall al reg a secret n t l,
  py_create_shares al reg a secret n t = Ret l -> of_le secret < L -> n <= 254 -> zlen a = t - 1 ->
  forall qs parts alpha b, NoDup qs -> incl qs l -> t <= zlen qs ->
  Forall2 (fun s p => exists idx, Permutation idx (map (fun q => bz (hd x00 q)) qs) /\
             py_threshold_evaluate R s alpha (bz (hd x00 s)) idx = Ret p) qs parts ->
  py_evaluate R secret alpha = Ret b -> py_threshold_combine R parts = Ret b.
Proof. exact py_tcombine. Qed.
Print Assumptions C61_python_combine_partial.
Example C61_combine_nonvacuous : exists al reg a secret n t l qs parts alpha b,
  py_create_shares al reg a secret n t = Ret l /\ of_le secret < L /\ n <= 254 /\ zlen a = t - 1 /\
  NoDup qs /\ incl qs l /\ t <= zlen qs /\
  Forall2 (fun s p => exists idx, Permutation idx (map (fun q => bz (hd x00 q)) qs) /\
             py_threshold_evaluate toyR s alpha (bz (hd x00 s)) idx = Ret p) qs parts /\
  py_evaluate toyR secret alpha = Ret b /\ zlen qs < n /\ ristretto_ok toyR.
Proof. exact C61_combine_example. Qed.

(** and servers that blind their answers with shares of zero (3HashTDH). *)
Theorem C61_python_3hashtdh_partial : forall R, ristretto_ok R -> forall al reg a secret n t l,
  py_create_shares al reg a secret n t = Ret l -> of_le secret < L -> n <= 254 -> zlen a = t - 1 ->
  forall H zal zreg z zl, hashes_ok H -> py_create_shares zal zreg z (zeros 32) n t = Ret zl -> zlen z = t - 1 ->
  forall qs parts alpha ssid b (junk : list Z), NoDup qs -> incl qs l -> t <= zlen qs ->
  Forall2 (fun s p => exists zs, In zs zl /\ hd x00 zs = hd x00 s /\
             py_3hashtdh R H true s zs alpha ssid = Ret p /\ skipn 1 p <> zeros 32) qs parts ->
  length junk = length parts -> py_evaluate R secret alpha = Ret b -> py_thresholdmult R junk parts = Ret b.
Proof. exact py_tdh. Qed.
Print Assumptions C61_python_3hashtdh_partial.
Example C61_3hashtdh_nonvacuous : exists al reg a secret n t l zal zreg z zl qs parts alpha ssid b (junk : list Z),
  py_create_shares al reg a secret n t = Ret l /\ of_le secret < L /\ n <= 254 /\ zlen a = t - 1 /\
  py_create_shares zal zreg z (zeros 32) n t = Ret zl /\ zlen z = t - 1 /\
  NoDup qs /\ incl qs l /\ t <= zlen qs /\
  Forall2 (fun s p => exists zs, In zs zl /\ hd x00 zs = hd x00 s /\
             py_3hashtdh toyR toyH true s zs alpha ssid = Ret p /\ skipn 1 p <> zeros 32) qs parts /\
  length junk = length parts /\ py_evaluate toyR secret alpha = Ret b /\ zlen qs < n /\ ristretto_ok toyR /\ hashes_ok toyH.
Proof. exact C61_tdh_example. Qed.

(** the servers do answer *)
Theorem C61_python_servers_answer : forall R, ristretto_ok R -> forall al reg a secret n t l,
  py_create_shares al reg a secret n t = Ret l -> of_le secret < L -> n <= 254 -> zlen a = t - 1 ->
  forall s alpha P idx, In s l -> zlen alpha = 32 -> rdec R alpha = Some P -> P <> rzero R -> of_le (skipn 1 s) <> 0 ->
  Forall (fun i => 1 <= i <= 255) idx ->
  (exists v, py_evaluate R (skipn 1 s) alpha = Ret v) /\ (exists p, py_threshold_evaluate R s alpha (bz (hd x00 s)) idx = Ret p).
Proof. exact py_parts_exist. Qed.
Print Assumptions C61_python_servers_answer.
Example C61_servers_answer_nonvacuous : exists al reg a secret n t l s alpha P idx,
  py_create_shares al reg a secret n t = Ret l /\ of_le secret < L /\ n <= 254 /\ zlen a = t - 1 /\ In s l /\ zlen alpha = 32 /\
  rdec toyR alpha = Some P /\ P <> rzero toyR /\ of_le (skipn 1 s) <> 0 /\ Forall (fun i => 1 <= i <= 255) idx /\ zlen idx = 3 /\ ristretto_ok toyR.
Proof. exact C61_exist_example. Qed.

(** C62.  After the key is multiplied by [delta], multiplying the old unblinded result by [delta] gives
    the new one.  (Of an input of any length [blind] takes the length modulo 256, see C55.) *)
Theorem C62_key_update : forall R, ristretto_ok R -> forall H, hashes_ok H -> forall x k delta r r2,
  HashToGroup R H (firstn (Z.to_nat (zlen x mod 256)) x) <> rzero R ->
  random_scalar k -> random_scalar delta -> random_scalar r -> random_scalar r2 ->
  let k2 := le_bytes 32 (scalar_mul k delta) in
  exists key rb blinded beta N rb2 blinded2 beta2 N2,
    py_keygen k = Ret key /\
    (py_blind R H true true r x = Ret (rb, blinded) /\ py_evaluate R key blinded = Ret beta /\ py_unblind R true rb beta = Ret N) /\
    (py_blind R H true true r2 x = Ret (rb2, blinded2) /\ py_evaluate R k2 blinded2 = Ret beta2 /\ py_unblind R true rb2 beta2 = Ret N2) /\
    scalarmult R delta N = (0, Some N2).
Proof. exact py_key_update_any. Qed.
Print Assumptions C62_key_update.
Example C62_nonvacuous : exists x k delta r r2,
  zlen x = 300 /\ HashToGroup toyR toyH (firstn (Z.to_nat (zlen x mod 256)) x) <> rzero toyR /\ random_scalar k /\ random_scalar delta /\ random_scalar r /\ random_scalar r2 /\
  ristretto_ok toyR /\ hashes_ok toyH.
Proof. exact C62_example. Qed.

(** C63.  [A]: the coefficients drawn by the n parties, [outs] what their calls of dkg_start returned,
    [mail j] the shares party j was sent.  Up to 254 parties. *)
Theorem C63_python_dkg_partial : forall R, ristretto_ok R -> forall al n t A outs,
  n <= 254 -> zlen A = n -> Forall (fun a => zlen a = t /\ Forall random_scalar a) A ->
  Forall2 (fun a o => py_dkg_start R al true a n t = Ret o) A outs -> al n = true -> A <> [] ->
  let coms := concat (map fst outs) in
  let mail := fun j => map (fun o => nth (Z.to_nat (j - 1)) (snd o) []) outs in
  (forall j, 1 <= j <= n -> py_dkg_verify_commitments R al n t j coms (mail j) = Ret [] /\ exists xi, py_dkg_finish n (mail j) j = Ret xi) /\
  forall js xis, NoDup js -> Forall (fun j => 1 <= j <= n) js -> t <= zlen js ->
    Forall2 (fun j xi => py_dkg_finish n (mail j) j = Ret xi) js xis ->
    py_dkg_reconstruct xis = Ret (le_bytes 32 (zsum (map (hd 0) A) mod L)).
Proof. exact py_dkg_run. Qed.
Print Assumptions C63_python_dkg_partial.
Example C63_nonvacuous : exists al n t A outs,
  n <= 254 /\ zlen A = n /\ Forall (fun a => zlen a = t /\ Forall random_scalar a) A /\
  Forall2 (fun a o => py_dkg_start toyR al true a n t = Ret o) A outs /\ al n = true /\ A <> [] /\ t = 2 /\ n = 3 /\ ristretto_ok toyR.
Proof. exact C63_example. Qed.
