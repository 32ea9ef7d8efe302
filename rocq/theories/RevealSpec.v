(** Vocabulary of C88: when a peer gives away the key of a session. *)
From Coq Require Import ZArith List.
From Coq.Strings Require Import Byte.
From Verif Require Import Bytes Res Mem WireModel WireSpec TpCrypto TpModel PeerModel TpSpec.
Import ListNotations.
Open Scope list_scope.
Open Scope Z_scope.

(** In the broadcast of complaints [input] the list in the message of peer [b] (of [n]) contains [a].
    The messages follow a header of 111 bytes; each has a header of its own, a byte with the number of
    complaints, and the accused, a byte each. *)
Definition accuses (n : Z) (input : bytes) (b a : Z) : Prop :=
  let body := 111 + (b - 1) * msg9_SIZE n + 111 in
  exists count k x, getz input body = Ok count /\ 0 <= k < bz count /\ getz input (body + 1 + k) = Ok x /\ bz x = a.

(** [body] consists of the numbers of the peers [bs], each followed by the key of the session that
    [p] has opened with this peer. *)
Definition keys_for (C : crypto) (p : peer C) (bs : list Z) (body : bytes) : Prop :=
  zlen body = 33 * zlen bs /\
  forall k b, getz bs k = Ok b -> exists s key, getz (p_outs C p) (b - 1) = Ok (Live s) /\ nz_key (cN C) s = Some key /\ rd body (33 * k) 33 = Ok (zb b :: key).
