(** Property theorems C104: what the hash of a Noise session stands for.
    Vocabulary: XkBindSpec.v, XkStatusSpec.v, XkSpec.v. *)
From Coq Require Import ZArith List Bool.
From Coq.Strings Require Import Byte.
From Verif Require Import Bytes Res Mem XkModel XkSpec XkStatusSpec XkBindSpec.
From Verif Require Import XkExamples XkBind XkBindExamples.
Import ListNotations.
Open Scope list_scope.
Open Scope Z_scope.

(** C104.  The hash of a session whose handshake is over, whatever else was asked of it, is made of the
    prologue, the responder's static key and the first three messages. *)
Theorem C104_hash : forall X, xprims_ok X -> forall initiator d pid e s trc, finished X initiator d pid e s trc ->
  exists rs m1 m2 m3 more, responder_key initiator d pid = Some rs /\ wire trc = m1 :: m2 :: m3 :: more /\
    session_get_hash s = chain X name64 (handshake (d_prologue d) rs m1 m2 m3).
Proof. exact hash_of. Qed.
Print Assumptions C104_hash.

(** Two sessions with the same hash, in whatever roles and on whatever devices, had the same handshake;
    or two of the strings that they hashed collide. *)
Theorem C104_binding : forall X, xprims_ok X -> forall initiator d pid e s trc initiator' d' pid' e' s' trc' rs m1 m2 m3 more rs' m1' m2' m3' more',
  finished X initiator d pid e s trc -> finished X initiator' d' pid' e' s' trc' ->
  responder_key initiator d pid = Some rs -> wire trc = m1 :: m2 :: m3 :: more ->
  responder_key initiator' d' pid' = Some rs' -> wire trc' = m1' :: m2' :: m3' :: more' ->
  session_get_hash s = session_get_hash s' ->
  (d_prologue d = d_prologue d' /\ rs = rs' /\ m1 = m1' /\ m2 = m2' /\ m3 = m3') \/
  collision X (handshake (d_prologue d) rs m1 m2 m3) (handshake (d_prologue d') rs' m1' m2' m3').
Proof. exact binding. Qed.
Print Assumptions C104_binding.

(** An initiator and a responder with the same hash are the two ends of one channel: the initiator
    wanted this responder, the responder found the initiator's key in its registry, and when as many
    messages were sent as received, the next one is accepted and opened, in both directions. *)
Theorem C104_two_ends : forall X, xprims_ok X -> forall di pid ei si tri dr er sr trr rs m1 m2 m3 more m1' m2' m3' more',
  finished X true di pid ei si tri -> finished X false dr 0 er sr trr ->
  d_spub di = x_base X (d_spriv di) -> d_spub dr = x_base X (d_spriv dr) ->
  responder_key true di pid = Some rs -> wire tri = m1 :: m2 :: m3 :: more -> wire trr = m1' :: m2' :: m3' :: more' ->
  session_get_hash si = session_get_hash sr ->
  ((d_spub dr = rs /\ exists d q, lookup_peer_by_static d (d_spub di) = Some q /\ session_get_peer_id sr = p_id q) /\
   (zlen (sent tri) = zlen (received trr) -> forall m c s1, session_write X m si = (s1, RSuccess, Some c) ->
      forall d, exists s2, session_read X d sr c = (s2, RSuccess, Some (mkEncap (Auth_level 2) (em_msg m)))) /\
   (zlen (sent trr) = zlen (received tri) -> forall m c s1, session_write X m sr = (s1, RSuccess, Some c) ->
      forall d, exists s2, session_read X d si c = (s2, RSuccess, Some (mkEncap (Auth_level 2) (em_msg m))))) \/
  collision X (handshake (d_prologue di) rs m1 m2 m3) (handshake (d_prologue dr) (d_spub dr) m1' m2' m3').
Proof. exact two_ends. Qed.
Print Assumptions C104_two_ends.

Example C104_nonvacuous : exists di pid ei si tri dr er sr trr rs m1 m2 m3 more, finished toyX true di pid ei si tri /\ finished toyX false dr 0 er sr trr /\
  d_spub di = x_base toyX (d_spriv di) /\ d_spub dr = x_base toyX (d_spriv dr) /\ responder_key true di pid = Some rs /\
  wire tri = m1 :: m2 :: m3 :: more /\ wire trr = m1 :: m2 :: m3 :: more /\ session_get_hash si = session_get_hash sr /\
  length tri = 7%nat /\ length more = 2%nat /\ zlen (sent tri) = zlen (received trr) /\ zlen (sent trr) = zlen (received tri).
Proof. exact C104_example. Qed.
