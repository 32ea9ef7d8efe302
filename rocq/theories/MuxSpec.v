(** Vocabulary of the properties of the multiplexer (PropertiesMux.v) *)
From Coq Require Import ZArith List Bool.
From Coq.Strings Require Import Byte.
From Verif Require Import Bytes Res Mem MuxModel.
Import ListNotations.
Open Scope list_scope.
Open Scope Z_scope.

(** all bytes a connection still delivers *)
Definition wire (evs : list ev) : bytes := flat_map (fun e => match e with Data b => b | Stall => [] end) evs.
Definition bytes_of (p : mpeer) : bytes := wire (m_in p).

(** [reads len s ms rest]: a stream [s] is cut into the messages [ms] of [len] bytes and [rest]; a shorter
    message is cut off only at the end of the stream *)
Inductive reads (len : Z) : bytes -> list bytes -> bytes -> Prop :=
| reads_none s : reads len s [] s
| reads_full m s ms rest : zlen m = len -> reads len s ms rest -> reads len (m ++ s) (m :: ms) rest
| reads_short m : zlen m < len -> reads len m [m] [].

(** messages proc has no use for *)
Definition useless {A} (proc : bytes -> option A) (m : bytes) : Prop := m <> fail_pkt /\ proc m = None.
(** [v] is what proc makes of the first useful message of [s] *)
Definition answers {A} (proc : bytes -> option A) (len : Z) (s : bytes) (v : A) (rest : bytes) : Prop :=
  exists ms m, reads len s (ms ++ [m]) rest /\ Forall (useless proc) ms /\ m <> fail_pkt /\ proc m = Some v.
(** a message reporting a failure, or a first message proc has no use for *)
Definition reports_failure {A} (proc : bytes -> option A) (len : Z) (s : bytes) (rest : bytes) : Prop :=
  exists ms m, reads len s (ms ++ [m]) rest /\ Forall (useless proc) ms /\ (m = fail_pkt \/ ms = [] /\ proc m = None).
(** nothing useful (yet) *)
Definition silent {A} (proc : bytes -> option A) (len : Z) (s : bytes) (rest : bytes) : Prop :=
  exists ms, reads len s ms rest /\ Forall (useless proc) ms.

(** no proc: the messages themselves are the answers *)
Definition raw (pkt : bytes) : option bytes := Some pkt.

(** a peer that is connected and delivers at least one message of [len] bytes without an interruption,
    not the one that reports a failure *)
Definition delivers (len : Z) (p : mpeer) : Prop :=
  is_connected p = true /\ m_fd p = OpenFd /\
  exists m evs, recv_all len (m_in p) = (Some m, evs) /\ zlen m = len /\ m <> fail_pkt.

(** calls on one peer, with what the environment answers *)
Inductive pcall := PConnect (up : bool) (strm : list ev) | PRead (size : Z) | PSend (up : bool) (msg : bytes) | PClose.
Inductive presult := Done (ok : bool) | Bytes (b : option bytes).
Definition pdo (c : pcall) (p : mpeer) : presult * mpeer :=
  match c with
  | PConnect up strm => let '(ok, p1) := m_connect up strm p in (Done ok, p1)
  | PRead size => let '(o, p1) := m_read size p in (Bytes o, p1)
  | PSend up msg => let '(ok, p1) := m_send up msg p in (Done ok, p1)
  | PClose => (Done true, m_close p)
  end.
Fixpoint pruns (cs : list pcall) (p : mpeer) : list presult * mpeer :=
  match cs with
  | [] => ([], p)
  | c :: cs' => let '(r, p1) := pdo c p in let '(rs, p2) := pruns cs' p1 in (r :: rs, p2)
  end.

(** a sequence of calls of gather without a proc, each for its own length and number of answers, all of which
    return; the answers of each call *)
Record gcall := mkGc { g_len : Z; g_n : Z; g_pend : Z -> Z; g_sched : list (Z -> bool) }.
Inductive gathers : list gcall -> list mpeer -> list (list (option bytes)) -> list mpeer -> Prop :=
| gathers_nil ps : gathers [] ps [] ps
| gathers_cons g gs ps out ps1 outs ps2 :
    gather bytes raw (g_len g) (g_n g) (g_pend g) (g_sched g) ps = (Got out, ps1) -> gathers gs ps1 outs ps2 ->
    gathers (g :: gs) ps (out :: outs) ps2.
(** the bytes an answer stands for: without an answer, the failure report *)
Definition said (o : option bytes) : bytes := match o with Some m => m | None => fail_pkt end.
(** what the successful reads of a history returned, in order *)
Definition got (rs : list presult) : bytes := flat_map (fun r => match r with Bytes (Some b) => b | _ => [] end) rs.
(** no call of a history makes a new connection or ends it, and no read raises *)
Definition undisturbed (cs : list pcall) (rs : list presult) : Prop :=
  Forall (fun c => match c with PRead _ | PSend _ _ => True | _ => False end) cs /\ ~ In (Bytes None) rs.
(** calls other than connect *)
Definition no_connect (cs : list pcall) : Prop := Forall (fun c => match c with PConnect _ _ => False | _ => True end) cs.
(** reads and sends all raise *)
Definition dead (cs : list pcall) (rs : list presult) : Prop :=
  Forall2 (fun c r => match c with PRead _ => r = Bytes None | PSend _ _ => r = Done false | PClose => r = Done true | PConnect _ _ => False end) cs rs.
