(** Vocabulary of the properties of the Python bindings (PropertiesPy.v) *)
From Coq Require Import ZArith List.
From Coq.Strings Require Import Byte.
From Verif Require Import Bytes Res Mem Sodium ToprfModel TpCrypto TpModel PeerModel PyModel.
Import ListNotations.
Open Scope list_scope.
Open Scope Z_scope.

(** a share with an index of one byte and a value of 32 bytes: what 33 bytes can hold *)
Definition plain (s : share) : Prop := 0 <= s_index s < 256 /\ 0 <= s_value s < 2 ^ 256.
(** rows of [t] commitments of 32 bytes each *)
Definition com_rows (t : Z) (coms : list (list bytes)) : Prop :=
  Forall (fun row => zlen row = t /\ Forall (fun b => length b = 32%nat) row) coms.

(** Histories of a session driven from Python: each call with its allocator and environment (random
    values, clock) and the message passed; the results (None: an exception) and the state afterwards.
    Bad if a call is undefined. *)
Fixpoint py_tp_run (C : crypto) (c : tp) (calls : list ((Z -> bool) * env * bytes)) : py (list (option bytes) * tp) :=
  match calls with
  | [] => Ret ([], c)
  | (al, e, msg) :: calls' =>
      get (o, c1) <- py_tp_next C al e c msg ;;
      get (os, c2) <- py_tp_run C c1 calls' ;;
      Ret (o :: os, c2)
  end.
Fixpoint py_peer_run (C : crypto) (c : peer C) (calls : list ((Z -> bool) * penv * bytes)) : py (list (option bytes) * peer C) :=
  match calls with
  | [] => Ret ([], c)
  | (al, e, msg) :: calls' =>
      get (o, c1) <- py_peer_next C al e c msg ;;
      get (os, c2) <- py_peer_run C c1 calls' ;;
      Ret (o :: os, c2)
  end.
(** no log stream: the bindings have no way to set one *)
Definition quiet (call : (Z -> bool) * env * bytes) : Prop := e_log (snd (fst call)) = false.
