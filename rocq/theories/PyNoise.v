(** The Python wrapper of the Noise XK library, /repo/python/pyoprf/noisexk.py, on top of the model
    of the library.

    Conventions, as in PyModel.v: a call returns ([Ret]), raises an exception ([Raise]) or is
    undefined behaviour of the C code ([Bad]).  Keys and messages are bytes objects, which are
    followed in memory by one NUL byte.  Names and prologues may be bytes or str.  A session
    pointer is [Some s], or [None] for NULL, which ctypes turns into Python's None.  A call on a
    session also takes the device that the session points to, in its state at that moment, and
    returns the session afterwards next to the outcome, as an exception does not undo what the C
    code did.  Memory that is not freed is not modelled.

    The C functions return a structure of two bytes (return codes) and a bool; ctypes was not told,
    and reads an int of four bytes.  The calling convention leaves the other bytes of the register
    unspecified: they are the parameters [j_code] and [j_bool] (the same in all calls, a
    simplification). *)
From Coq Require Import ZArith Lia List Bool.
From Coq.Strings Require Import Byte.
From Verif Require Import Bytes Res Mem PyModel XkModel.
Import ListNotations.
Open Scope list_scope.
Open Scope Z_scope.

(** an argument that may be bytes or str (as code points) *)
Inductive pystr : Set := PBytes (b : bytes) | PStr (l : list Z).
(** len() *)
Definition py_len (s : pystr) : Z := match s with PBytes b => zlen b | PStr l => zlen l end.
(** what the pointer that ctypes passes points to: the bytes, or an array of wchar_t (four bytes
    each on Linux); a str with a NUL character raises *)
Definition c_view (s : pystr) : py bytes :=
  match s with
  | PBytes b => Ret (b ++ zeros 1)
  | PStr l => if existsb (Z.eqb 0) l then Raise else Ret (flat_map (le_bytes 4) l ++ zeros 4)
  end.
(** a C string: the bytes before the first NUL *)
Fixpoint c_string (m : bytes) : bytes :=
  match m with
  | [] => []
  | b :: m' => if bz b =? 0 then [] else b :: c_string m'
  end.
(** the 32 bytes that the C code reads from a key *)
Definition c_key (k : bytes) : py bytes := if zlen k <? 31 then Bad else Ret (firstn 32 (k ++ zeros 1)).

(** the unspecified bytes of return registers *)
Record junk : Set := mkJunk { j_code : Z; j_bool : Z }.

Section Model.
Variable X : xprims.
Variable J : junk.

(** a return code read as an int: the first byte is the tag (XK.h:15-31); the second, the error, is
    left out, as it is 0 for success and the tag is not 0 otherwise *)
Definition code_int (c : rcode) : Z := match c with RSuccess => 0 | RError _ => 1 | RStuck _ => 2 end + 65536 * j_code J.
(** a bool read as an int *)
Definition bool_int (b : bool) : Z := (if b then 1 else 0) + 256 * j_bool J.

(** noisexk.py:55-58 *)
Definition py_pubkey (privkey : bytes) : py bytes := get k <- c_key privkey ;; Ret (x_base X k).

(** noisexk.py:60-63; the key for stored secrets is zero *)
Definition py_create_device (prologue name : pystr) (privkey : bytes) : py xdev :=
  get n <- c_int (py_len prologue) ;;
  get pro <- c_view prologue ;;
  get nm <- c_view name ;;
  get k <- c_key privkey ;;
  if zlen pro <? n then Bad
  else match device_create X (firstn (Z.to_nat n) pro) (c_string nm) (zeros 32) k with
       | Some d => Ret d
       | None => Raise
       end.

(** noisexk.py:50-53; the peer is [None] if the library refuses *)
Definition py_add_peer (d : xdev) (name : pystr) (key : bytes) : py (xdev * option xpeer) :=
  get nm <- c_view name ;;
  get k <- c_key key ;;
  match device_add_peer d (c_string nm) k with
  | Some (d', p) => Ret (d', Some p)
  | None => Ret (d, None)
  end.

(** noisexk.py:65-68; the library reads the peer without a test *)
Definition py_get_peerid (p : option xpeer) : py Z := match p with Some q => Ret (p_id q) | None => Bad end.

(** noisexk.py:76-81, 83-88.  A NULL pointer becomes None, which is not equal to 0, so nothing is raised. *)
Definition py_create_session_initiator (d : xdev) (peerid : Z) (epriv : bytes) : py (xdev * option xsess) :=
  match session_create_initiator X d peerid epriv with
  | Some (d', s) => Ret (d', Some s)
  | None => Ret (d, None)
  end.
Definition py_create_session_responder (d : xdev) (epriv : bytes) : py (xdev * option xsess) :=
  match session_create_responder X d epriv with
  | Some (d', s) => Ret (d', Some s)
  | None => Ret (d, None)
  end.

(** Noise_XK_session_write and Noise_XK_session_read as called from Python: NULL is dereferenced *)
Definition py_write (s : option xsess) (m : encap) : option xsess * py bytes :=
  match s with
  | None => (None, Bad)
  | Some s0 =>
      let '(s1, c, r) := session_write X m s0 in
      (Some s1, if negb (code_int c =? 0) then Raise else match r with Some b => Ret b | None => Ret [] end)
  end.
(** ... and the unpacking.  When unpacking fails, the length stays 0. *)
Definition py_read (d : xdev) (s : option xsess) (level : Z) (msg : bytes) : option xsess * py bytes :=
  match s with
  | None => (None, Bad)
  | Some s0 =>
      let '(s1, c, r) := session_read X d s0 (firstn (Z.to_nat (zlen msg mod 2 ^ 32)) msg) in
      (Some s1,
       if negb (code_int c =? 0) then Raise
       else match r with
            | None => Bad
            | Some e =>
                match unpack_message_with_auth_level level e with
                | Some p => if bool_int true =? 0 then Raise else Ret p
                | None => if bool_int false =? 0 then Raise else Ret []
                end
            end)
  end.

(** noisexk.py:93-103 *)
Definition py_initiator_1st_msg (s : option xsess) : option xsess * py bytes :=
  py_write s (pack_message_with_conf_level 0 []).

(** noisexk.py:108-121 *)
Definition py_responder_1st_msg (d : xdev) (s : option xsess) (msg : bytes) : option xsess * py bytes :=
  let '(s1, r) := py_read d s 0 msg in
  match r with
  | Ret _ => py_initiator_1st_msg s1
  | Raise => (s1, Raise)
  | Bad => (s1, Bad)
  end.

(** noisexk.py:123-135 *)
Definition py_initiator_handshake_finish (d : xdev) (s : option xsess) (msg : bytes) : option xsess * py unit :=
  let '(s1, r) := py_read d s 0 msg in (s1, get _ <- r ;; Ret tt).

(** noisexk.py:137-148; the length is passed as an int *)
Definition py_send_msg (s : option xsess) (msg : bytes) : option xsess * py bytes :=
  match c_int (zlen msg) with
  | Ret n => py_write s (pack_message_with_conf_level 5 (firstn (Z.to_nat n) msg))
  | Raise => (s, Raise)
  | Bad => (s, Bad)
  end.

(** noisexk.py:150-165 *)
Definition py_read_msg (d : xdev) (s : option xsess) (msg : bytes) : option xsess * py bytes := py_read d s 2 msg.

(** noisexk.py:172-177; the library reads the peer without a test *)
Definition py_get_pubkey (s : option xsess) (d : xdev) : py bytes :=
  match s with
  | None => Bad
  | Some s0 => match lookup_peer_by_id d (session_get_peer_id s0) with Some p => Ret (p_s p) | None => Bad end
  end.

(** the defaults, noisexk.py:182-186, 199-201: "liboprf-noiseXK", "initiator", "responder" *)
Definition default_dst : pystr := PBytes (map zb [108; 105; 98; 111; 112; 114; 102; 45; 110; 111; 105; 115; 101; 88; 75]).
Definition default_iname : pystr := PBytes (map zb [105; 110; 105; 116; 105; 97; 116; 111; 114]).
Definition default_rname : pystr := PBytes (map zb [114; 101; 115; 112; 111; 110; 100; 101; 114]).
Definition or_default (o : option pystr) (d : pystr) : pystr := match o with Some s => s | None => d end.

(** a session pointer and the device behind it, which the high-level functions do not return *)
Definition psession : Type := xdev * option xsess.

(** noisexk.py:179-194 *)
Definition py_initiator_session (privkey rpub : bytes) (iname rname dst : option pystr) (epriv : bytes) : py (psession * bytes) :=
  get _ <- py_pubkey privkey ;;
  get d <- py_create_device (or_default dst default_dst) (or_default iname default_iname) privkey ;;
  get (d, p) <- py_add_peer d (or_default rname default_rname) rpub ;;
  get id <- py_get_peerid p ;;
  get (d, s) <- py_create_session_initiator d id epriv ;;
  let '(s, r) := py_initiator_1st_msg s in
  get m <- r ;; Ret ((d, s), m).

(** noisexk.py:204-205: refused keys are passed over *)
Fixpoint py_add_peers (d : xdev) (auth : list (bytes * pystr)) : py xdev :=
  match auth with
  | [] => Ret d
  | (key, name) :: auth' => get (d, _) <- py_add_peer d name key ;; py_add_peers d auth'
  end.

(** noisexk.py:197-208 *)
Definition py_responder_session (privkey : bytes) (auth : list (bytes * pystr)) (msg : bytes) (dst name : option pystr) (epriv : bytes) : py (psession * bytes) :=
  get _ <- py_pubkey privkey ;;
  get d <- py_create_device (or_default dst default_dst) (or_default name default_rname) privkey ;;
  get d <- py_add_peers d auth ;;
  get (d, s) <- py_create_session_responder d epriv ;;
  let '(s, r) := py_responder_1st_msg d s msg in
  get m <- r ;; Ret ((d, s), m).

(** noisexk.py:210-211; and the calls on sessions made by the high-level functions *)
Definition py_initiator_session_complete (ps : psession) (msg : bytes) : psession * py unit :=
  let '(s, r) := py_initiator_handshake_finish (fst ps) (snd ps) msg in ((fst ps, s), r).
Definition py_send (ps : psession) (msg : bytes) : psession * py bytes :=
  let '(s, r) := py_send_msg (snd ps) msg in ((fst ps, s), r).
Definition py_recv (ps : psession) (msg : bytes) : psession * py bytes :=
  let '(s, r) := py_read_msg (fst ps) (snd ps) msg in ((fst ps, s), r).

End Model.
