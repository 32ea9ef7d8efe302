(** The texts of the cheater reports (src/tp-dkg.c:1669-1760) and tpdkg_get_cheaters of
    python/pyoprf/__init__.py, which hands them to Python. *)
From Coq Require Import String DecimalString.
From Coq Require Import ZArith List Bool.
From Coq.Strings Require Import Byte.
From Verif Require Import Bytes Res Mem TpModel CheaterModel PyModel.
Import ListNotations.
Open Scope list_scope.
Open Scope Z_scope.

(** src/tp-dkg.c:1670-1680: the texts of tpdkg_recv_err *)
Definition recv_string (t : recv_text) : string :=
  match t with
  | NoError => "no error"
  | InvalidLen => "invalid message len"
  | InvalidMsgno => "invalid message number"
  | InvalidSender => "invalid sender"
  | InvalidRecipient => "invalid recipient"
  | Expired => "expired message"
  | InvalidSignature => "invalid signature"
  | InvalidSessionid => "invalid sessionid"
  | InvalidCode => "invalid recv_msg error code"
  end.

(** the conversion %d for an int *)
Definition d (x : Z) : string := NilZero.string_of_int (Z.to_int x).
(** the same for a field of type uint8_t (peer, other_peer: src/tp-dkg.h:192-193) *)
Definition d8 (x : Z) : string := d (x mod 256).

(** src/tp-dkg.c:1685-1758: the texts before they are cut to the size of the buffer *)
Definition report_string (r : report) : string :=
  (match r with
  | MessageInvalid step p o e => "step " ++ d step ++ " message from peer " ++ d8 p ++ " for peer " ++ d8 o ++ " could not be validated: " ++ recv_string e
  | TooManyComplaints => "more than t^2 complaints, most peers are cheating."
  | InvalidAccused p o => "peer " ++ d8 p ++ " sent complaint about invalid peer " ++ d8 o ++ "."
  | DuplicateComplaint p o => "peer " ++ d8 p ++ " sent a duplicate complaint about peer " ++ d8 o ++ "."
  | BadCode16 e => "invalid error code for step 16: " ++ d e
  | ShareMsgInvalid p o e => "message containing encrypted share from peer " ++ d8 p ++ " for peer " ++ d8 o ++ " could not be validated: " ++ recv_string e
  | KeyMsgInvalid p o e => "message revealing key encrypting share from peer " ++ d8 p ++ " for peer " ++ d8 o ++ " could not be validated: " ++ recv_string e
  | NotComplainedAbout p o => "accused peer " ++ d8 p ++ " revealed a key (for peer " ++ d8 o ++ ") that was not complained about"
  | HmacFailed p o => "verification of hmac of message from accused peer " ++ d8 p ++ " to complaining peer " ++ d8 o ++ " failed"
  | BadShareIndex p o i => "accused peer " ++ d8 p ++ " sent an invalid share with index " ++ d8 o ++ " to complaining peer " ++ d i
  | KeyForHappyPeer p o => "accused peer " ++ d8 p ++ " revealed a key for happy peer " ++ d8 o
  | Unverified p o => "accused peer " ++ d8 p ++ " complained by peer " ++ d8 o ++ " was not verified"
  | InvalidParameters p o => "accused peer " ++ d8 p ++ " provided invalid parameters to complaint from peer " ++ d8 o
  | FalselyAccused p o => "peer " ++ d8 p ++ " was falsely accused by peer " ++ d8 o
  | CaughtCheating p o => "accused peer " ++ d8 p ++ " was caught cheating by peer " ++ d8 o
  | BadCode18 e => "invalid error code for step 18: " ++ d e
  | TranscriptMismatch p => "transcript mismatch peer " ++ d8 p
  | BadCode20 e => "invalid error code for step 20: " ++ d e
  | BadStep s => "invalid step " ++ d s
  end)%string.
Definition report_text (r : report) : bytes := list_byte_of_string (report_string r).

(** snprintf(out, outlen, ...) for outlen > 0: as much of the text as fits before a final 0 byte; the
    rest of the buffer stays as it was *)
Definition snprintf (text out : bytes) : bytes :=
  let w := firstn (length out - 1) text ++ [x00] in w ++ skipn (length w) out.

(** python/pyoprf/__init__.py:461 tpdkg_max_err_SIZE, as in src/tp-dkg.h:76 *)
Definition max_err_SIZE : nat := 128.

(** raw[:raw.find(b'\x00')]: if there is no 0 byte, find returns -1 and the last byte is cut off *)
Definition before_nul (raw : bytes) : bytes :=
  (fix go (b : bytes) : bytes := match b with [] => removelast raw | x :: b' => if Byte.eqb x x00 then [] else x :: go b' end) raw.

(** decode('utf8'): the texts are ASCII; anything else is taken to raise *)
Definition decode (b : bytes) : py bytes := if forallb (fun x => bz x <? 128) b then Ret b else Raise.

(** python/pyoprf/__init__.py:616-627 tpdkg_get_cheaters: the set of peers (as a list without
    repetitions) and the reports.  The condition of line 622, [0 >= p > n], is Python's conjunction.
    Simplified: the result of tpdkg_cheater_msg, declared uint8_t in C and int by ctypes' default, is
    taken to be the byte returned. *)
Fixpoint py_cheats (n : Z) (l : list cheater) : py (list Z * list (Z * bytes)) :=
  match l with
  | [] => Ret ([], [])
  | ch :: l' =>
      let err := snprintf (report_text (fst (cheater_msg ch))) (zeros max_err_SIZE) in
      let p := snd (cheater_msg ch) in
      if (p <=? 0) && (n <? p) then py_cheats n l' else
      get text <- decode (before_nul err) ;;
      get (cheaters, cheats) <- py_cheats n l' ;;
      Ret (if existsb (Z.eqb p) cheaters then cheaters else p :: cheaters, (p, text) :: cheats)
  end.
Definition py_get_cheaters (c : tp) : py (list Z * list (Z * bytes)) := py_cheats (t_n c) (t_cheaters c).
