(** Vocabulary of C82: a key generation through the Python bindings, as a session in the sense of
    RunSpec.v. *)
From Coq Require Import ZArith List Bool.
From Coq.Strings Require Import Byte.
From Verif Require Import PrimeL Bytes Res Mem Sodium ToprfModel ToprfSpec DkgModel WireModel TpCrypto TpModel PeerModel PyModel TpRun RunSpec.
Import ListNotations.
Open Scope list_scope.
Open Scope Z_scope.

(** what the parties of such a session are given: zeroed states and the buffers the bindings allocate *)
Definition py_ceremony (C : crypto) (n t eps : Z) (name : bytes) (lt : Z -> bytes) (sid sk : bytes) (now now' : Z) (pnow : Z -> Z) : ceremony C :=
  let k := Z.to_nat n in
  mkCeremony C n t name sid sk eps (zeros 177) now tp_zero
    (repeat (repeat (zeros 32) (Z.to_nat t)) k) (zeros (Z.to_nat (n * n * 256))) (t * t - 1) (repeat (zeros 32) k) now'
    lt (fun _ => eps) pnow (fun _ => peer_zero C)
    (fun _ => mkPbufs C (repeat (zeros 32) k) (repeat (zeros 32) k) (repeat Null k) (repeat Null k)
       (repeat (mkShare 0 0) k) (repeat (mkShare 0 0) k) (repeat (repeat (zeros 32) (Z.to_nat t)) k)).

(** the output buffers are zeroed *)
Definition py_sched (w : sched) : sched := mkSched (s_tp w) (s_peer w) (fun _ _ k => zeros (Z.to_nat k)).

(** the sum of the secrets the peers draw *)
Definition generated_key (w : sched) (n : Z) : Z := zsum (map (fun i => hd 0 (pe_a (s_peer w i 3))) (zrange 0 (Z.to_nat n))) mod L.
