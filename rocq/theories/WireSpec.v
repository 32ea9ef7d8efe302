(** What the message format of tp-dkg is, independently of the code that writes and checks it. *)
From Coq Require Import ZArith List.
From Coq.Strings Require Import Byte.
From Verif Require Import Bytes Res Mem Sodium.
Import ListNotations.
Open Scope Z_scope.

(** the header after the signature: number, total length, sender, recipient, time stamp,
    session; integers in network byte order *)
Definition header (msgno len from to ts : Z) (sid : bytes) : bytes :=
  [zb msgno] ++ be_bytes 4 len ++ [zb from] ++ [zb to] ++ be_bytes 8 ts ++ sid.

(** a complete message: signature, header, body *)
Definition message (sig hdr body : bytes) : bytes := sig ++ hdr ++ body.

Definition is_byte (x : Z) : Prop := 0 <= x < 256.
Definition is_u64 (x : Z) : Prop := 0 <= x < 2 ^ 64.

(** Freshness: the first message of a sender (nothing recorded yet, recorded = 0) must carry a
    time stamp within the window around the own clock, a later one must not be older than the
    recorded time stamp nor newer by more than the window.  64-bit arithmetic wraps. *)
Definition fresh (window recorded ts now : Z) : Prop :=
  if recorded =? 0
  then (now - window) mod 2 ^ 64 <= ts <= (now + window) mod 2 ^ 64
  else recorded <= ts <= (recorded + window) mod 2 ^ 64.

(** the header fields of a message *)
Record fields : Type := mkFields {
  f_sig : bytes; f_msgno : Z; f_len : Z; f_from : Z; f_to : Z; f_ts : Z; f_sid : bytes; f_body : bytes
}.
Definition fields_ok (f : fields) : Prop :=
  zlen (f_sig f) = 64 /\ is_byte (f_msgno f) /\ 0 <= f_len f < 2 ^ 32 /\ is_byte (f_from f) /\ is_byte (f_to f) /\
  is_u64 (f_ts f) /\ zlen (f_sid f) = 32.
Definition encode (f : fields) : bytes :=
  message (f_sig f) (header (f_msgno f) (f_len f) (f_from f) (f_to f) (f_ts f) (f_sid f)) (f_body f).

(** The checks of a received message, in order, with the code that reports their failure. *)
Definition checks (S : sigs) (f : fields) (len msgno from to : Z) (pk sid : bytes) (window recorded now : Z)
    : list (Z * Prop) :=
  [ (1, f_len f = len); (2, f_msgno f = msgno); (3, f_from f = from); (4, f_to f = to); (7, f_sid f = sid);
    (5, fresh window recorded (f_ts f) now);
    (6, sig_verify S pk (header (f_msgno f) (f_len f) (f_from f) (f_to f) (f_ts f) (f_sid f)) (f_sig f) = true) ].
Definition all_hold (cs : list (Z * Prop)) : Prop := Forall (fun c => snd c) cs.
Definition first_failing (cs : list (Z * Prop)) (code : Z) : Prop :=
  exists before p after, cs = before ++ (code, p) :: after /\ all_hold before /\ ~ p.
