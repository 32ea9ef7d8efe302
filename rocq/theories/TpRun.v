(** A whole run of the protocol: one trusted party and n peers, connected as in the main loop of
    /repo/src/tests/tp-dkg.c (there all parties live in one process; what each one sends arrives
    at the other side).  Conventions as in TpModel.v. *)
From Coq Require Import ZArith Lia List Bool.
From Coq.Strings Require Import Byte.
From Verif Require Import Bytes Res Mem Sodium ToprfModel DkgModel WireModel TpCrypto TpModel PeerModel.
Import ListNotations.
Open Scope list_scope.
Open Scope Z_scope.

(** What the environment supplies during a run: to the trusted party in each step, to peer i
    (from 0) in each step, and the contents of fresh output buffers (party, step, length). *)
Record sched : Type := mkSched {
  s_tp : Z -> env; s_peer : Z -> Z -> penv; s_buf : Z -> Z -> Z -> bytes
}.

Section RUN.
Variable C : crypto.
Variable w : sched.

(** the parties and what waits at the trusted party's side of the network *)
Record run : Type := mkRun { r_tp : tp; r_peers : list (peer C); r_net : bytes }.

(** src/tests/tp-dkg.c:500-507: the part of the trusted party's output that is sent to peer i;
    None if tpdkg_tp_peer_msg fails *)
Definition dispatch (c : tp) (out : bytes) (i : Z) : res (option bytes) :=
  match tp_peer_msg c (zlen out) i with
  | (0, Some (off, len)) => do m <- rd out off len ;; Ok (Some m)
  | (0, None) => Ok (Some [])
  | _ => Ok None
  end.

(** a list of results, None if one of them is None *)
Fixpoint dispatch_all (c : tp) (out : bytes) (is : list Z) : res (option (list bytes)) :=
  match is with
  | [] => Ok (Some [])
  | i :: is' =>
      do m <- dispatch c out i ;;
      match m with
      | None => Ok None
      | Some m => do r <- dispatch_all c out is' ;; Ok (match r with None => None | Some l => Some (m :: l) end)
      end
  end.

(** src/tests/tp-dkg.c:510-541: one pass over the peers, the first of which has number [i].
    None: one of them reported an error. *)
Fixpoint peers_turn (i : Z) (ps : list (peer C)) (ins : list bytes) : res (option (list (peer C) * bytes)) :=
  match ps, ins with
  | p :: ps', m :: ins' =>
      do (ret, p', o) <- peer_next C (s_peer w i (p_step C p)) p m (s_buf w (i + 1) (p_step C p) (peer_output_size C p)) ;;
      if negb (ret =? 0) then Ok None else
      do r <- peers_turn (i + 1) ps' ins' ;;
      Ok (match r with None => None | Some (l, os) => Some (p' :: l, o ++ os) end)
  | _, _ => Ok (Some ([], []))
  end.

(** src/tests/tp-dkg.c:509-542: the peers go on until one of them has sent something; peers[1] is
    asked whether they are done.  A peer makes at most eleven steps (C30). *)
Fixpoint peers_loop (fuel : nat) (ps : list (peer C)) (ins : list bytes) : res (option (list (peer C) * bytes)) :=
  match fuel with
  | O => Ok (Some (ps, []))
  | S fuel' =>
      do r <- peers_turn 0 ps ins ;;
      match r with
      | None => Ok None
      | Some (ps', net) =>
          do p1 <- getz ps' 1 ;;
          if (zlen net =? 0) && peer_not_done C p1 then peers_loop fuel' ps' (map (fun _ => []) ps') else Ok (Some (ps', net))
      end
  end.

(** src/tests/tp-dkg.c:467-543: one round of the main loop.  None: a party reported an error. *)
Definition round (r : run) : res (option run) :=
  let c := r_tp r in
  do (ret, c', out) <- tp_next C (s_tp w (t_step c)) c (r_net r) (s_buf w 0 (t_step c) (tp_output_size c)) ;;
  if negb (ret =? 0) then Ok None else
  do ms <- dispatch_all c' out (zrange 0 (Z.to_nat (t_n c'))) ;;
  match ms with
  | None => Ok None
  | Some ms =>
      do p1 <- getz (r_peers r) 1 ;;
      if negb (peer_not_done C p1) then Ok (Some (mkRun c' (r_peers r) [])) else
      do x <- peers_loop 11 (r_peers r) ms ;;
      Ok (match x with None => None | Some (ps', net) => Some (mkRun c' ps' net) end)
  end.

(** the main loop; the trusted party makes at most ten steps (C30) *)
Fixpoint rounds (fuel : nat) (r : run) : res (option run) :=
  match fuel with
  | O => Ok (Some r)
  | S fuel' =>
      if negb (tp_not_done (r_tp r)) then Ok (Some r) else
      do x <- round r ;;
      match x with None => Ok None | Some r' => rounds fuel' r' end
  end.
End RUN.
