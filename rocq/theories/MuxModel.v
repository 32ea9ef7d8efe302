(** Model of python/pyoprf/multiplexer.py: connections to several peers and the collection of their
    answers.

    Conventions.  What a connection delivers is a list of events: [Data b], the bytes [b] become
    available in one piece, and [Stall], a recv raises (timeout, reset); the end of the list is the end
    of the stream.  Exceptions are not distinguished.  The environment decides which connection
    attempts succeed, how many bytes pending() reports and what each call of select returns. *)
From Coq Require Import ZArith Lia List Bool.
From Coq.Strings Require Import Byte.
From Verif Require Import Bytes Res Mem.
Import ListNotations.
Open Scope list_scope.
Open Scope Z_scope.

Inductive ev := Data (b : bytes) | Stall.
(** multiplexer.py:7-9 the transport; any other string is [Other] *)
Inductive transport := SSL | TCP | Other.
(** multiplexer.py:16,42,56,69-72 self.state *)
Inductive mstate := New | Connected | Disconnected | Closed.
(** self.fd: None, an open socket, or a socket that was closed (fileno() = -1) *)
Inductive mfd := NoFd | OpenFd | ShutFd.

(** multiplexer.py:7-17 Peer.  Name, address and timeout have no influence on what is modelled.
    [m_auth] says whether the current TLS connection was made with certificate and host name
    checks; [m_in] is what the connection will deliver, [m_out] what was sent on it. *)
Record mpeer := mkMp { m_type : transport; m_cert : bool; m_state : mstate; m_fd : mfd; m_auth : bool; m_in : list ev; m_out : bytes }.
Definition new_peer (ty : transport) (cert : bool) : mpeer := mkMp ty cert New NoFd false [] [].

Definition mstate_eqb (a b : mstate) : bool :=
  match a, b with New, New | Connected, Connected | Disconnected, Disconnected | Closed, Closed => true | _, _ => false end.
Definition is_connected (p : mpeer) : bool := mstate_eqb (m_state p) Connected.

(** multiplexer.py:19-43 connect: result (false: an exception) and the peer afterwards.  [up]: the TCP
    connection and the TLS handshake succeed, for the checks asked for; [strm]: what the new connection
    delivers.  For the type TCP self.fd is never assigned: line 41 uses the previous value, None at
    first (exception); a later one cannot occur, because it is None for ever.  If the connection
    fails the new socket stays in self.fd. *)
Definition m_connect (up : bool) (strm : list ev) (p : mpeer) : bool * mpeer :=
  if is_connected p then (false, p) else
  match m_type p with
  | Other => (false, p)
  | TCP => (false, p)
  | SSL =>
      let auth := negb (m_cert p) in
      if up then (true, mkMp SSL (m_cert p) Connected OpenFd auth strm [])
      else (false, mkMp SSL (m_cert p) (m_state p) OpenFd auth [] [])
  end.

(** multiplexer.py:49-53 the loop of read: recv until [size] bytes were read or the stream ends.
    A piece longer than what is wanted stays available in part. *)
Fixpoint recv_all (size : Z) (evs : list ev) : option bytes * list ev :=
  match evs with
  | [] => (Some [], [])
  | Stall :: r => (None, r)
  | Data b :: r =>
      if size <? zlen b then (Some (firstn (Z.to_nat size) b), Data (skipn (Z.to_nat size) b) :: r)
      else if size =? zlen b then (Some b, r)
      else let '(o, e) := recv_all (size - zlen b) r in
           (match o with Some m => Some (b ++ m) | None => None end, e)
  end.

Definition set_in (p : mpeer) (s : mstate) (evs : list ev) : mpeer := mkMp (m_type p) (m_cert p) s (m_fd p) (m_auth p) evs (m_out p).

(** multiplexer.py:45-58 read: None is an exception (not connected; size 0: res[-1] of an empty list;
    recv raised) *)
Definition m_read (size : Z) (p : mpeer) : option bytes * mpeer :=
  if negb (is_connected p) then (None, p) else
  if size <=? 0 then (None, p) else
  match recv_all size (m_in p) with
  | (None, evs) => (None, set_in p Connected evs)
  | (Some b, evs) => (Some b, set_in p (if zlen b <? size then Disconnected else Connected) evs)
  end.

(** multiplexer.py:60-61 send; [up]: sendall succeeds.  The state is not looked at.  If sendall raises, how
    much was sent is unknown: modelled as nothing. *)
Definition m_send (up : bool) (msg : bytes) (p : mpeer) : bool * mpeer :=
  match m_fd p with
  | OpenFd => if up then (true, mkMp (m_type p) (m_cert p) (m_state p) OpenFd (m_auth p) (m_in p) (m_out p ++ msg)) else (false, p)
  | _ => (false, p)
  end.

(** multiplexer.py:63-72 close *)
Definition m_close (p : mpeer) : mpeer :=
  match m_state p with
  | Closed => p
  | _ => mkMp (m_type p) (m_cert p) Closed (match m_fd p with NoFd => NoFd | _ => ShutFd end) (m_auth p) [] (m_out p)
  end.

(** multiplexer.py:97-99 Multiplexer.connect: in order, until the first exception *)
Fixpoint mux_connect (env : list (bool * list ev)) (ps : list mpeer) : bool * list mpeer :=
  match ps, env with
  | p :: ps', (up, strm) :: env' =>
      let '(ok, p1) := m_connect up strm p in
      if ok then let '(ok', ps1) := mux_connect env' ps' in (ok', p1 :: ps1) else (false, p1 :: ps')
  | _, _ => (true, ps)
  end.
(** multiplexer.py:104-106 broadcast: in order, until the first exception *)
Fixpoint mux_broadcast (env : list bool) (msg : bytes) (ps : list mpeer) : bool * list mpeer :=
  match ps, env with
  | p :: ps', up :: env' =>
      let '(ok, p1) := m_send up msg p in
      if ok then let '(ok', ps1) := mux_broadcast env' msg ps' in (ok', p1 :: ps1) else (false, p1 :: ps')
  | _, _ => (true, ps)
  end.
(** multiplexer.py:155-157 close *)
Definition mux_close (ps : list mpeer) : list mpeer := map m_close ps.

Section GATHER.
(** the values proc returns (bytes if there is no proc) *)
Variable A : Type.
(** proc, [None] if it returns None.  Without a proc: [fun pkt => Some pkt].  A proc that raises is not
    modelled. *)
Variable proc : bytes -> option A.
Variable len : Z.

(** multiplexer.py:118,139 the answer that reports a failure *)
Definition fail_pkt : bytes := [x00; x04; x66; x61; x69; x6c].
Definition bytes_eqb (a b : bytes) : bool := if list_eq_dec Byte.byte_eq_dec a b then true else false.

(** a peer with its entry in responses: absent, None or a value *)
Inductive entry := Absent | Failed | Value (v : A).
Definition slot : Type := mpeer * entry.
Definition absent (s : slot) : bool := match snd s with Absent => true | _ => false end.

(** multiplexer.py:113-121 one peer in the first loop; [pend]: what pending() returns.  false: an
    exception. *)
Definition visit_pending (pend : Z) (s : slot) : bool * slot :=
  let '(p, r) := s in
  match m_fd p with
  | NoFd => (false, s)
  | _ =>
      if pend =? len then
        match m_read len p with
        | (None, p1) => (false, (p1, r))
        | (Some pkt, p1) =>
            (true, (p1, if bytes_eqb pkt fail_pkt then Failed else match proc pkt with Some v => Value v | None => Failed end))
        end
      else (true, s)
  end.
(** multiplexer.py:126-127 fds: the peers without an entry whose socket is open *)
Definition in_fds (s : slot) : bool := absent s && match m_fd (fst s) with OpenFd => true | _ => false end.
(** multiplexer.py:133-146 one peer in the second loop; [ready]: select reports it *)
Definition visit_ready (ready : bool) (s : slot) : bool * slot :=
  if negb (ready && in_fds s) then (true, s) else
  let '(p, r) := s in
  match m_read len p with
  | (None, p1) => (false, (p1, r))
  | (Some pkt, p1) =>
      (true, (p1, if bytes_eqb pkt fail_pkt then Failed else match proc pkt with Some v => Value v | None => r end))
  end.

(** the two for loops: in order, until the first exception; [env i]: what the environment reports for the
    peer with index i *)
Fixpoint walk {E} (visit : E -> slot -> bool * slot) (env : Z -> E) (i : Z) (l : list slot) : bool * list slot :=
  match l with
  | [] => (true, [])
  | s :: l' =>
      let '(ok, s1) := visit (env i) s in
      if ok then let '(ok', l1) := walk visit env (i + 1) l' in (ok', s1 :: l1) else (false, s1 :: l')
  end.

Inductive gathered := Got (out : list (option A)) | Raised | Waiting.
(** len(responses) *)
Definition answered (l : list slot) : Z := zlen (filter (fun s => negb (absent s)) l).

(** multiplexer.py:147-152 what is returned *)
Definition entry_out (e : entry) : option A := match e with Value v => Some v | _ => None end.
Definition finish (l : list slot) : gathered :=
  if (0 <? answered l) && forallb (fun s => match snd s with Value _ => false | _ => true end) l then Raised
  else Got (map (fun s => entry_out (snd s)) l).

(** multiplexer.py:125-146 the second loop.  [sched]: for each call of select, which of the peers it was
    asked about it reports; [Waiting] when it is used up. *)
Fixpoint rounds (n : Z) (sched : list (Z -> bool)) (l : list slot) : gathered * list slot :=
  if n <=? answered l then (finish l, l) else
  if negb (existsb in_fds l) then (Raised, l) else
  match sched with
  | [] => (Waiting, l)
  | r :: sched' =>
      match walk visit_ready r 0 l with
      | (true, l1) => rounds n sched' l1
      | (false, l1) => (Raised, l1)
      end
  end.

(** multiplexer.py:108-152 gather; n=None is [n = len(self.peers)] *)
Definition gather (n : Z) (pend : Z -> Z) (sched : list (Z -> bool)) (ps : list mpeer) : gathered * list mpeer :=
  match walk visit_pending pend 0 (map (fun p => (p, Absent)) ps) with
  | (false, l) => (Raised, map fst l)
  | (true, l) => let '(o, l1) := rounds n sched l in (o, map fst l1)
  end.
End GATHER.
Arguments Absent {A}. Arguments Failed {A}. Arguments Value {A} v.
Arguments Got {A} out. Arguments Raised {A}. Arguments Waiting {A}.
