(** Vocabulary of C104: what the handshake hash of a session stands for. *)
From Coq Require Import ZArith List Bool.
From Coq.Strings Require Import Byte.
From Verif Require Import Bytes Res Mem XkModel XkSpec XkStatusSpec.
Import ListNotations.
Open Scope list_scope.
Open Scope Z_scope.

(** the messages that a history of a session has exchanged, sent and received, in order *)
Definition wire (tr : list (gop * rcode * gout)) : list bytes :=
  flat_map (fun e => match e with (GWrite _, RSuccess, GMessage c) => [c] | (GRead _ c, RSuccess, GPayload _) => [c] | _ => [] end) tr.

(** the strings that are hashed one after another, each together with the hash so far *)
Fixpoint hashed (X : xprims) (h : bytes) (data : list bytes) : list bytes :=
  match data with [] => [] | x :: data' => (h ++ x) :: hashed X (x_hash X (h ++ x)) data' end.
Fixpoint chain (X : xprims) (h : bytes) (data : list bytes) : bytes :=
  match data with [] => h | x :: data' => chain X (x_hash X (h ++ x)) data' end.
(** Noise specification, MixHash: the prologue, the responder's static key, and the parts of the three
    messages: a key and a payload each *)
Definition cut (n : nat) (m : bytes) : list bytes := [firstn n m; skipn n m].
Definition handshake (prologue rs m1 m2 m3 : bytes) : list bytes := prologue :: rs :: cut 32 m1 ++ cut 32 m2 ++ cut 48 m3.
Definition name64 : bytes := protocol_name ++ zeros 31.

(** the responder's static public key, as the session knows it from the beginning *)
Definition responder_key (initiator : bool) (d : xdev) (pid : Z) : option bytes :=
  if initiator then option_map p_s (lookup_peer_by_id d pid) else Some (d_spub d).

(** a session that finished its handshake, and its history *)
Definition finished (X : xprims) (initiator : bool) (d : xdev) (pid : Z) (e : bytes) (s : xsess) (trc : list (gop * rcode * gout)) : Prop :=
  zlen (d_spub d) = 32 /\ exists d' s0 ops, creates X initiator d pid e = Some (d', s0) /\ Forall gop_ok ops /\ grun X ops s0 = (s, trc) /\ in_transport s.

(** two different strings with the same hash, among those that these two handshakes hashed *)
Definition collision (X : xprims) (data data' : list bytes) : Prop :=
  exists a b, In a (hashed X name64 data) /\ In b (hashed X name64 data') /\ a <> b /\ x_hash X a = x_hash X b.
