(** Model of /repo/python/examples/3hashtdh.py: a threshold evaluation whose answers are masked with
    shares of zero, written against the bindings (PyModel.v) and pysodium.  The program has 5 servers and
    a threshold of 3; here they are [n] and [t].  Printing is left out.  The pysodium functions raise if
    the libsodium function reports an error. *)
From Coq Require Import ZArith List Bool.
From Coq.Strings Require Import Byte.
From Verif Require Import Bytes Res Mem Sodium OprfModel ToprfModel PyModel.
Import ListNotations.
Open Scope list_scope.
Open Scope Z_scope.

(** python/examples/3hashtdh.py:16-21: one server *)
Definition tdh_server (R : ristretto) (H : hashes) (alpha ssid ki zi : bytes) : py bytes :=
  get h2 <- py_evaluate R (skipn 1 zi) (from_hash R (blake2b H 64 (ssid ++ alpha))) ;;
  get beta <- py_evaluate R (skipn 1 ki) alpha ;;
  match core_add R beta h2 with
  | Some sum => Ret (firstn 1 ki ++ sum)
  | None => Raise
  end.

(** python/examples/3hashtdh.py:14-21: the loop over zip(shares, zero_shares) *)
Fixpoint tdh_servers (R : ristretto) (H : hashes) (alpha ssid : bytes) (shares zero_shares : list bytes) : py (list bytes) :=
  match shares, zero_shares with
  | ki :: shares', zi :: zero_shares' =>
      get b <- tdh_server R H alpha ssid ki zi ;;
      get bs <- tdh_servers R H alpha ssid shares' zero_shares' ;;
      Ret (b :: bs)
  | _, _ => Ret []
  end.

(** python/examples/3hashtdh.py:6-14: the key, its shares, the shares of zero, the blind and alpha, and the
    answers.  Drawn: the key [k], the coefficients [a] and [z], the blind [r], [ssid]. *)
Definition tdh_begin (R : ristretto) (H : hashes) (al : Z -> bool) (reg reg' : Z) (k : Z) (a z : list Z) (r : Z) (x ssid : bytes) (n t : Z)
  : py (bytes * bytes * bytes * list bytes) :=
  get key <- py_keygen k ;;
  get shares <- py_create_shares al reg a key n t ;;
  get zero_shares <- py_create_shares al reg' z (zeros 32) n t ;;
  get (rb, alpha) <- py_blind R H true true r x ;;
  get betas <- tdh_servers R H alpha ssid shares zero_shares ;;
  Ret (key, rb, alpha, betas).

(** python/examples/3hashtdh.py:6-30, with the answers [betas[:t]]; the results are Nt0 and Nt1, which
    line 30 compares *)
Definition tdh_program (R : ristretto) (H : hashes) (al : Z -> bool) (reg reg' : Z) (k : Z) (a z : list Z) (r : Z) (x ssid : bytes) (n t : Z) (junk : list Z)
  : py (bytes * bytes) :=
  get (key, rb, alpha, betas) <- tdh_begin R H al reg reg' k a z r x ssid n t ;;
  get beta <- py_evaluate R key alpha ;;
  get Nt0 <- py_unblind R true rb beta ;;
  get beta' <- py_thresholdmult R junk (firstn (Z.to_nat t) betas) ;;
  get Nt1 <- py_unblind R true rb beta' ;;
  Ret (Nt0, Nt1).
