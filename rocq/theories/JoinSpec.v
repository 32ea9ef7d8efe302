(** Vocabulary for C103: the message with which a session of the key generation is announced. *)
From Coq Require Import ZArith List.
From Coq.Strings Require Import Byte.
From Verif Require Import Bytes Res Mem Sodium WireSpec TpCrypto TpSpec.
Import ListNotations.
Open Scope list_scope.
Open Scope Z_scope.

(** the body of an announcement: the trusted party's key, a digest of the name of the protocol, the
    number of peers, the threshold *)
Definition announcement (pk dst : bytes) (n t : Z) : bytes := pk ++ dst ++ [zb n; zb t].

(** [msg] announces the session [sid] of the party with the key [pk], for [n] peers and threshold [t],
    at the time [ts]: the header is signed with the key that the body contains *)
Definition announces (C : crypto) (msg pk sid : bytes) (ts n t : Z) : Prop :=
  zlen msg = 177 /\ zlen pk = 32 /\ zlen sid = 32 /\ 0 <= n < 256 /\ 0 <= t < 256 /\
  exists dst, zlen dst = 32 /\ signed (cS C) pk sid 0 0 255 ts (announcement pk dst n t) msg.

(** the same announcement with other numbers in its last two bytes *)
Definition renumbered (msg : bytes) (n t : Z) : bytes := firstn 175 msg ++ [zb n; zb t].
