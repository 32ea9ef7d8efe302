(** Model of the cheater reports of /repo/src/tp-dkg.c.  The texts are represented by
    constructors that carry the numbers printed. *)
From Coq Require Import ZArith List Bool.
From Verif Require Import Mem WireModel TpModel.
Import ListNotations.
Open Scope Z_scope.

(** the texts of src/tp-dkg.c:1669-1681 tpdkg_recv_err *)
Inductive recv_text : Type :=
  NoError | InvalidLen | InvalidMsgno | InvalidSender | InvalidRecipient | Expired | InvalidSignature | InvalidSessionid
| InvalidCode.

(** src/tp-dkg.c:1669-1681 tpdkg_recv_err *)
Definition recv_err (code : Z) : recv_text :=
  match code with
  | 0 => NoError
  | 1 => InvalidLen
  | 2 => InvalidMsgno
  | 3 => InvalidSender
  | 4 => InvalidRecipient
  | 5 => Expired
  | 6 => InvalidSignature
  | 7 => InvalidSessionid
  | _ => InvalidCode
  end.

(** the texts of src/tp-dkg.c:1683-1760 in the order of the source *)
Inductive report : Type :=
| MessageInvalid (step peer other : Z) (e : recv_text)
| TooManyComplaints
| InvalidAccused (peer other : Z)
| DuplicateComplaint (peer other : Z)
| BadCode16 (error : Z)
| ShareMsgInvalid (peer other : Z) (e : recv_text)
| KeyMsgInvalid (peer other : Z) (e : recv_text)
| NotComplainedAbout (peer other : Z)
| HmacFailed (peer other : Z)
| BadShareIndex (peer index complainer : Z) (* "invalid index in share": the code passes other_peer as the index and invalid_index as the complainer *)
| KeyForHappyPeer (peer other : Z)
| Unverified (peer other : Z)
| InvalidParameters (peer other : Z)
| FalselyAccused (peer other : Z)
| CaughtCheating (peer other : Z)
| BadCode18 (error : Z)
| TranscriptMismatch (peer : Z)
| BadCode20 (error : Z)
| BadStep (step : Z).

(** src/tp-dkg.c:1683-1760 tpdkg_cheater_msg: (text, return value) *)
Definition cheater_msg (c : cheater) : report * Z :=
  let e := ch_error c in let p := ch_peer c in let o := ch_other c in
  if (65 <? e) && (e <=? 70) then (MessageInvalid (ch_step c) p o (recv_err (Z.land e 63)), p) else
  if ch_step c =? 16 then
    if e =? 6 then (TooManyComplaints, 0) else
    if e =? 7 then (InvalidAccused p o, p) else
    if e =? 8 then (DuplicateComplaint p o, p) else
    (BadCode16 e, 0)
  else if ch_step c =? 18 then
    if negb (Z.land e 16 =? 0) then (ShareMsgInvalid p o (recv_err (Z.land e 15)), p) else
    if negb (Z.land e 32 =? 0) then (KeyMsgInvalid p o (recv_err (Z.land e 31)), p) else
    match e with
    | 3 => (NotComplainedAbout p o, p)
    | 4 => (HmacFailed p o, p)
    | 5 => (BadShareIndex p o (ch_invalid c), p)
    | 6 => (KeyForHappyPeer p o, p)
    | 7 => (Unverified p o, p)
    | 127 => (InvalidParameters p o, p)
    | 128 => (FalselyAccused p o, o)
    | 129 => (CaughtCheating p o, p)
    | _ => (BadCode18 e, 0)
    end
  else if ch_step c =? 20 then
    if e =? 1 then (TranscriptMismatch p, p) else (BadCode20 e, 0)
  else (BadStep (ch_step c), 0).
