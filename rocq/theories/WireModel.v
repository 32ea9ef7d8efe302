(** Model of the message layer of /repo/src/tp-dkg.c: header layout, byte order conversions,
    timestamps, send_msg, recv_msg, update_transcript and the message sizes.
    Log output (log_file) has no effect on the functions of this file and is left out.
    A message lives in a larger buffer at an offset: [buf], [off]. *)
From Coq Require Import ZArith Lia List Bool.
From Coq.Strings Require Import Byte.
From Verif Require Import Bytes Res Mem Sodium.
Import ListNotations.
Open Scope list_scope.
Open Scope Z_scope.

(** src/tp-dkg.h:108-117 TP_DKG_Message (packed): sig 64, msgno 1, len 4, from 1, to 1, ts 8,
    sessionid 32, data[] *)
Definition hdr_SIZE : Z := 111.
Definition off_msgno : Z := 64.
Definition off_len : Z := 65.
Definition off_from : Z := 69.
Definition off_to : Z := 70.
Definition off_ts : Z := 71.
Definition off_sid : Z := 79.
Definition sign_BYTES : Z := 64.
Definition sid_SIZE : Z := 32.

(** src/tp-dkg.h:66-69 *)
Definition msg0_SIZE : Z := hdr_SIZE + 32 + 2 + 32.
(** src/tp-dkg.c:52-64 and src/tp-dkg.h:70-75 *)
Definition msg1_SIZE : Z := hdr_SIZE.
Definition msg2_SIZE : Z := hdr_SIZE + 32 + 32.
Definition hs1_SIZE : Z := 48.
Definition hs2_SIZE : Z := 48.
Definition hs3_SIZE : Z := 64.
Definition msg4_SIZE : Z := hdr_SIZE + hs1_SIZE.
Definition msg5_SIZE : Z := hdr_SIZE + hs2_SIZE.
Definition msg6_SIZE (t : Z) : Z := hdr_SIZE + 32 * t.
Definition share_SIZE : Z := 33.                    (* sizeof(TOPRF_Share) *)
Definition mac_SIZE : Z := 16.                      (* crypto_secretbox_xchacha20poly1305_MACBYTES *)
Definition hmac_SIZE : Z := 32.                     (* crypto_auth_hmacsha256_BYTES *)
Definition msg8_SIZE : Z := hdr_SIZE + hs3_SIZE + share_SIZE + mac_SIZE + hmac_SIZE.
Definition msg9_SIZE (n : Z) : Z := hdr_SIZE + (n + 1).
Definition msg10_SIZE (n : Z) : Z := hdr_SIZE + n * msg9_SIZE n.
Definition msg19_SIZE : Z := hdr_SIZE + 32.
Definition msg20_SIZE : Z := hdr_SIZE + 2.
Definition msg21_SIZE : Z := hdr_SIZE + 2.
Definition noise_key_SIZE : Z := 32.

(** htonl and ntohl on a little endian host: reversal of the four bytes *)
Definition htonl (x : Z) : Z :=
  (x mod 256) * 2 ^ 24 + (x / 2 ^ 8 mod 256) * 2 ^ 16 + (x / 2 ^ 16 mod 256) * 2 ^ 8 + x / 2 ^ 24 mod 256.
Definition ntohl (x : Z) : Z := htonl x.

(** src/tp-dkg.c:78-86 htonll *)
Definition htonll (n : Z) : Z := u64 (u64 (htonl (u32 n) * 2 ^ 32) + htonl (u32 (n / 2 ^ 32))).
(** src/tp-dkg.c:88-96 ntohll *)
Definition ntohll (n : Z) : Z := u64 (u64 (ntohl (u32 n) * 2 ^ 32) + ntohl (u32 (n / 2 ^ 32))).

(** src/tp-dkg.c:98-109 check_ts: (return code, value left in *last_ts); [now] is the value
    read from time(NULL), used only when *last_ts is 0 *)
Definition check_ts (ts_epsilon last_ts ts now : Z) : Z * Z :=
  if last_ts =? 0 then
    if ts <? u64 (now - ts_epsilon) then (3, last_ts) else
    if u64 (now + ts_epsilon) <? ts then (4, last_ts) else (0, ts)
  else
    if ts <? last_ts then (1, last_ts) else
    if u64 (last_ts + ts_epsilon) <? ts then (2, last_ts) else (0, ts).

(** src/tp-dkg.c:111-123 send_msg: writes the header at [off]; [now] is time(NULL).
    Returns the new buffer; the return code is 0 (msg_buf is never NULL at a call site).
    crypto_sign_detached covers the header without the signature field only. *)
Definition send_msg (S : sigs) (buf : bytes) (off len msgno from to : Z) (sk sid : bytes) (now : Z) : res bytes :=
  do buf <- wr buf (off + off_len) (le_bytes 4 (htonl (u32 len))) ;;
  do buf <- wr buf (off + off_msgno) [zb msgno] ;;
  do buf <- wr buf (off + off_from) [zb from] ;;
  do buf <- wr buf (off + off_to) [zb to] ;;
  do buf <- wr buf (off + off_ts) (le_bytes 8 (htonll now)) ;;
  do buf <- wr buf (off + off_sid) sid ;;
  do m <- rd buf (off + off_msgno) (hdr_SIZE - sign_BYTES) ;;
  wr buf off (sig_sign S sk m).

(** src/tp-dkg.c:125-155 recv_msg: (return code, value left in *last_ts).  The copy of the
    message into with_sessionid reads the whole message; its result is not used. *)
Definition recv_msg (S : sigs) (buf : bytes) (off len msgno from to : Z) (pk sid : bytes)
    (ts_epsilon last_ts now : Z) : res (Z * Z) :=
  do flen <- rd buf (off + off_len) 4 ;;
  if negb (ntohl (of_le flen) =? len) then Ok (1, last_ts) else
  do fmsgno <- getz buf (off + off_msgno) ;;
  if negb (bz fmsgno =? msgno) then Ok (2, last_ts) else
  do ffrom <- getz buf (off + off_from) ;;
  if negb (bz ffrom =? from) then Ok (3, last_ts) else
  do fto <- getz buf (off + off_to) ;;
  if negb (bz fto =? to) then Ok (4, last_ts) else
  do fsid <- rd buf (off + off_sid) sid_SIZE ;;
  if negb (bytes_eqb fsid sid) then Ok (7, last_ts) else
  do fts <- rd buf (off + off_ts) 8 ;;
  let '(ret, last_ts') := check_ts ts_epsilon last_ts (ntohll (of_le fts)) now in
  if negb (ret =? 0) then Ok (5, last_ts') else
  do with_sessionid <- rd buf (off + sign_BYTES) (len - sign_BYTES) ;;
  do sig <- rd buf off sign_BYTES ;;
  do signed <- rd buf (off + off_msgno) (hdr_SIZE - sign_BYTES) ;;
  if negb (sig_verify S pk signed sig) then Ok (6, last_ts') else
  Ok (0, last_ts').

(** src/tp-dkg.c:377-381 update_transcript: what is appended to the hash input *)
Definition transcript_item (msg : bytes) : bytes := le_bytes 4 (htonl (u32 (zlen msg))) ++ msg.
Definition update_transcript (transcript msg : bytes) : bytes := transcript ++ transcript_item msg.
