(** C82: a key generation through the Python bindings gives every peer a share of one key. *)
From Coq Require Import ZArith List Bool.
From Coq.Strings Require Import Byte.
From Verif Require Import PrimeL Bytes Res Mem Sodium ToprfModel ToprfSpec DkgModel WireModel TpCrypto TpModel PeerModel TpRun RunSpec PyModel PyRunModel PyRunSpec PyRun PyRunExamples.
Import ListNotations.
Open Scope list_scope.
Open Scope Z_scope.

(** The program (PyRunModel.v) ends without an exception, with everybody done, nobody accused and one key:
    the shares are a (n, t) sharing of the sum of the secrets drawn, any t of them reconstruct it, and the
    combinations the program compares are all its public key. *)
Theorem C82_python_keygen : forall C, crypto_ok C -> forall al, (forall k, al k = true) ->
  forall w addr n t eps name lt sid sk now now' pnow,
  honest C (py_ceremony C n t eps name lt sid sk now now' pnow) (py_sched w) ->
  (forall i, 0 <= i <= n -> (addr i + addr i mod 32) mod 32 = 0) -> 0 <= eps < 2 ^ 31 -> (forall i, 0 <= i < n -> zlen (lt i) = 64) ->
  let K := generated_key w n in exists c ps,
  py_tpdkg C al w addr n t eps name lt sid sk now now' pnow = Ret (c, ps) /\
  tp_not_done c = false /\ t_cheaters c = [] /\ zlen ps = n /\
  Forall (fun p => peer_not_done C p = false /\ p_complaints C p = [] /\ exists p', peer_free C p = Ok p') ps /\
  (exists a buf, sharing_params K n t a buf /\ create_shares K n t a buf = Ok (map (p_share C) ps)) /\
  forall qs, quorum t (map (p_share C) ps) qs ->
    py_dkg_reconstruct (map share_bytes qs) = Ret (le_bytes 32 K) /\
    (Forall (fun s => s_value s <> 0) qs -> exists l, py_commits (cR C) qs = Ret l /\
       forall junk, length junk = length qs -> py_thresholdmult (cR C) junk l = Ret (renc (cR C) (rsmul (cR C) K (rbase (cR C))))).
Proof. exact py_tpdkg_keys. Qed.
Print Assumptions C82_python_keygen.

(** It is the session of the C functions with the same parameters, clocks and random bytes: it ends in the same states. *)
Theorem C82_same_as_C : forall C, crypto_ok C -> forall al, (forall k, al k = true) ->
  forall w addr n t eps name lt sid sk now now' pnow,
  let x := py_ceremony C n t eps name lt sid sk now now' pnow in
  honest C x (py_sched w) ->
  (forall i, 0 <= i <= n -> (addr i + addr i mod 32) mod 32 = 0) -> 0 <= eps < 2 ^ 31 -> (forall i, 0 <= i < n -> zlen (lt i) = 64) ->
  exists r0 r, begin C x = Ok (Some r0) /\ rounds C (py_sched w) 10 r0 = Ok (Some r) /\
  py_tpdkg C al w addr n t eps name lt sid sk now now' pnow = Ret (r_tp C r, r_peers C r) /\
  Forall (fun p => exists p', peer_free C p = Ok p') (r_peers C r).
Proof. exact py_tpdkg_run. Qed.
Print Assumptions C82_same_as_C.

Example C82_nonvacuous : exists C (al : Z -> bool) w addr n t eps name lt sid sk now now' pnow, crypto_ok C /\ (forall k, al k = true) /\
  honest C (py_ceremony C n t eps name lt sid sk now now' pnow) (py_sched w) /\ (forall i, 0 <= i <= n -> (addr i + addr i mod 32) mod 32 = 0) /\ 0 <= eps < 2 ^ 31 /\
  (forall i, 0 <= i < n -> zlen (lt i) = 64) /\ n = 3 /\ t = 2 /\ generated_key w n = 24 /\ addr 0 mod 32 = 16.
Proof. exact C82_example. Qed.
