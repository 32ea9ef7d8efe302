(** Model of the main program of /repo/python/examples/tpdkg_test.py: a whole key generation through the
    Python bindings.  Conventions as in PyModel.v; what the environment supplies is a [sched] as in
    TpRun.v (the buffers are the ones the bindings allocate). *)
From Coq Require Import ZArith List Bool.
From Coq.Strings Require Import Byte.
From Verif Require Import Bytes Res Mem Sodium ToprfModel DkgModel WireModel TpCrypto TpModel PeerModel PyModel TpRun.
Import ListNotations.
Open Scope list_scope.
Open Scope Z_scope.

Section EXAMPLE.
Variable C : crypto.
Variable al : Z -> bool.
Variable w : sched.

(** python/examples/tpdkg_test.py:85-89: the message for peer [i], if the trusted party has sent anything *)
Definition py_in (c : tp) (tp_out : bytes) (i : Z) : py bytes := if 0 <? zlen tp_out then py_tp_peer_msg c tp_out i else Ret [].

(** python/examples/tpdkg_test.py:84-93: one pass over the peers, the first of which has number [i] *)
Fixpoint py_pass (c : tp) (tp_out : bytes) (i : Z) (ps : list (peer C)) : py (list (peer C) * bytes) :=
  match ps with
  | [] => Ret ([], [])
  | p :: ps' =>
      get m <- py_in c tp_out i ;;
      get (o, p') <- py_peer_next C al (s_peer w i (p_step C p)) p m ;;
      match o with
      | None => Raise
      | Some out => get (l, os) <- py_pass c tp_out (i + 1) ps' ;; Ret (p' :: l, out ++ os)
      end
  end.

(** python/examples/tpdkg_test.py:82-94: until the peers have sent something; peers[0] is asked whether
    they are done.  A peer makes at most eleven steps (C30). *)
Fixpoint py_peers (fuel : nat) (c : tp) (tp_out : bytes) (ps : list (peer C)) : py (list (peer C) * bytes) :=
  match fuel with
  | O => Ret (ps, [])
  | S fuel' =>
      match ps with
      | [] => Raise
      | p0 :: _ =>
          if negb (py_peer_not_done C p0) then Ret (ps, []) else
          get (ps', net) <- py_pass c tp_out 0 ps ;;
          if zlen net =? 0 then py_peers fuel' c [] ps' else Ret (ps', net)
      end
  end.

(** python/examples/tpdkg_test.py:65-94: the main loop.  If tpdkg_tp_next raises, the program prints the
    cheaters and raises.  The trusted party makes at most ten steps (C30). *)
Fixpoint py_loop (fuel : nat) (c : tp) (ps : list (peer C)) (net : bytes) : py (tp * list (peer C)) :=
  match fuel with
  | O => Ret (c, ps)
  | S fuel' =>
      if negb (py_tp_not_done c) then Ret (c, ps) else
      get _ <- of_res (tp_input_sizes c) ;;
      get (o, c') <- py_tp_next C al (s_tp w (t_step c)) c net ;;
      match o with
      | None => Raise
      | Some out => get (ps', net') <- py_peers 11 c' out ps ;; py_loop fuel' c' ps' net'
      end
  end.

(** python/examples/tpdkg_test.py:56-59: the peers read message 0; [addr i]: where the state of peer i
    (from 1) was allocated, [now i]: its clock *)
Fixpoint py_begin_peers (addr : Z -> Z) (eps : Z) (lt : Z -> bytes) (now : Z -> Z) (msg0 : bytes) (is : list Z) : py (list (peer C)) :=
  match is with
  | [] => Ret []
  | i :: is' =>
      get p <- py_start_peer C al (addr (i + 1)) eps (lt i) msg0 (now i) ;;
      get l <- py_begin_peers addr eps lt now msg0 is' ;; Ret (p :: l)
  end.

(** python/examples/tpdkg_test.py:29-94: [lt i]: the long-term key of peer i (from 0), of which the
    trusted party gets the public part; [name]: the bytes passed as the protocol name (the example
    passes a str, of which ctypes passes the wide characters) *)
Definition py_tpdkg (addr : Z -> Z) (n t eps : Z) (name : bytes) (lt : Z -> bytes) (sid sk : bytes) (now now' : Z) (pnow : Z -> Z)
    : py (tp * list (peer C)) :=
  get (c, msg0) <- py_start_tp C al (addr 0) n t eps name (map (fun i => sig_pk (cS C) (lt i)) (zrange 0 (Z.to_nat n))) sid sk now now' ;;
  get ps <- py_begin_peers addr eps lt pnow msg0 (zrange 0 (Z.to_nat n)) ;;
  py_loop 10 c ps [].

(** python/examples/tpdkg_test.py:102-105: the responses whose combination is compared, of the peers
    with shares [qs]; crypto_scalarmult_ristretto255_base raises for a share of 0 *)
Definition py_commit (R : ristretto) (s : share) : py bytes :=
  let '(ret, v) := scalarmult_base R (s_value s) in
  get _ <- check ret ;; Ret (zb (s_index s) :: v).
Fixpoint py_commits (R : ristretto) (qs : list share) : py (list bytes) :=
  match qs with
  | [] => Ret []
  | s :: qs' => get b <- py_commit R s ;; get l <- py_commits R qs' ;; Ret (b :: l)
  end.
End EXAMPLE.
