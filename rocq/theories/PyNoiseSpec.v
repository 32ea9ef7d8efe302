(** What the Noise functions of the Python package are for. *)
From Coq Require Import ZArith List Bool.
From Coq.Strings Require Import Byte.
From Verif Require Import Bytes Res Mem PyModel XkModel XkSpec PyNoise.
Import ListNotations.
Open Scope list_scope.
Open Scope Z_scope.

(** the unspecified bytes of return registers are clear *)
Definition clear : junk := mkJunk 0 0.
(** ... or are some bytes *)
Definition junk_ok (J : junk) : Prop := 0 <= j_code J < 65536 /\ 0 <= j_bool J < 16777216.

(** a name or prologue: shorter than 4 GB; characters are code points, not NUL *)
Definition arg_ok (s : pystr) : Prop :=
  py_len s < 2 ^ 32 /\ match s with PBytes _ => True | PStr l => Forall (fun c => 0 < c < 1114112) l end.
(** the prologue that a device uses for the argument: all of a bytes object, but of a str only the
    first quarter of its UTF-32 encoding *)
Definition prologue_of (s : pystr) : bytes :=
  match s with PBytes b => b | PStr l => firstn (length l) (flat_map (le_bytes 4) l) end.
Definition arg_of (o : option pystr) (default : pystr) : pystr := match o with Some s => s | None => default end.

Section Spec.
Variable X : xprims.
Variable J : junk.

(** two Python programs that exchange messages, in the order sent; [None] if a call raises an
    exception or is undefined *)
Fixpoint py_channel (es : list event) (si sr : psession) (to_resp to_init : list bytes) : option (list (option bytes)) :=
  match es with
  | [] => Some []
  | Send true p :: es' =>
      match py_send X J si p with (si', Ret c) => py_channel es' si' sr (to_resp ++ [c]) to_init | _ => None end
  | Send false p :: es' =>
      match py_send X J sr p with (sr', Ret c) => py_channel es' si sr' to_resp (to_init ++ [c]) | _ => None end
  | Deliver false :: es' =>
      match to_resp with
      | [] => option_map (cons None) (py_channel es' si sr [] to_init)
      | c :: q => match py_recv X J sr c with (sr', Ret p) => option_map (cons (Some p)) (py_channel es' si sr' q to_init) | _ => None end
      end
  | Deliver true :: es' =>
      match to_init with
      | [] => option_map (cons None) (py_channel es' si sr to_resp [])
      | c :: q => match py_recv X J si c with (si', Ret p) => option_map (cons (Some p)) (py_channel es' si' sr to_resp q) | _ => None end
      end
  end.

(** any use of a session *)
Inductive pyop : Set := PComplete (m : bytes) | PSend (p : bytes) | PRecv (c : bytes).
(** the outcome of a call: the bytes returned (none for [PComplete]) *)
Definition pystep (o : pyop) (ps : psession) : psession * py bytes :=
  match o with
  | PComplete m => let '(ps', r) := py_initiator_session_complete X J ps m in (ps', get _ <- r ;; Ret [])
  | PSend p => py_send X J ps p
  | PRecv c => py_recv X J ps c
  end.
Fixpoint pyrun (ops : list pyop) (ps : psession) : psession * list (pyop * py bytes) :=
  match ops with
  | [] => (ps, [])
  | o :: ops' => let '(ps1, r) := pystep o ps in let '(ps2, tr) := pyrun ops' ps1 in (ps2, (o, r) :: tr)
  end.
End Spec.

(** the responder sends nothing before it has received something; [in_flight]: something was sent to it *)
Fixpoint responder_waits (es : list event) (in_flight : bool) : Prop :=
  match es with
  | [] => True
  | Send true _ :: es' => responder_waits es' true
  | Send false _ :: _ => False
  | Deliver true :: es' => responder_waits es' in_flight
  | Deliver false :: es' => if in_flight then True else responder_waits es' false
  end.
Definition pyop_len (o : pyop) : Z := match o with PComplete m => zlen m | PSend p => zlen p | PRecv c => zlen c end.
