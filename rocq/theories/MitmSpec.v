(** Vocabulary of C100: somebody on the network who holds none of the participants' keys and puts keys
    of its own into the broadcast of keys. *)
From Coq Require Import ZArith List.
From Coq.Strings Require Import Byte.
From Verif Require Import PrimeL Bytes Res Mem Sodium ToprfModel ToprfSpec DkgModel DkgSpec WireModel WireSpec TpCrypto TpModel PeerModel TpSpec SafeSpec.
Import ListNotations.
Open Scope list_scope.
Open Scope Z_scope.

(** The message of keys [m] (signature of 64 bytes, header of 47, session key, Noise key), its header
    signed anew with [sk], the keys in it replaced by that of [sk] and by [npk]. *)
Definition resigned (C : crypto) (sk npk m : bytes) : bytes :=
  sig_sign (cS C) sk (slice 64 47 m) ++ slice 64 47 m ++ sig_pk (cS C) sk ++ npk.
(** message [j] (counting from 0) of the broadcast of keys, replaced if [who] picks it *)
Definition replaced (C : crypto) (who : Z -> bool) (sk npk : Z -> bytes) (input : bytes) (j : Z) : bytes :=
  let m := slice (111 + j * 175) 175 input in if who j then resigned C (sk j) (npk j) m else m.
(** The broadcast of keys (header of 111 bytes, then one message of 175 bytes for each of [n] peers)
    with the messages of the peers picked by [who] replaced; the header of the broadcast is kept. *)
Definition forged (C : crypto) (who : Z -> bool) (sk npk : Z -> bytes) (n : Z) (input : bytes) : bytes :=
  slice 0 111 input ++ concat (map (replaced C who sk npk input) (zrange 0 (Z.to_nat n))).

(** The holder of the Noise device [d] answers the first message of a handshake: its session and the
    answer. *)
Definition answer (C : crypto) (d : nz_dev (cN C)) (rand hs1 : bytes) : option (nz_sess (cN C) * bytes) :=
  match nz_responder (cN C) d rand with
  | None => None
  | Some s =>
      match nz_read (cN C) s hs1 with
      | (s1, Some _) => match nz_write (cN C) s1 [] with (s2, Some m) => Some (s2, m) | _ => None end
      | _ => None
      end
  end.
(** It reads the last message of the handshake and then the first message sent in the session. *)
Definition opened (C : crypto) (s : nz_sess (cN C)) (hs3 ct : bytes) : option bytes :=
  match nz_read (cN C) s hs3 with
  | (s1, Some _) => snd (nz_read (cN C) s1 ct)
  | _ => None
  end.

(** Input and output of call [s] (counting from 0) of a peer. *)
Definition fed (calls : list peer_call) (s : nat) : bytes := match nth_error calls s with Some (_, i, _) => i | None => [] end.
Definition wrote {C : crypto} (outs : list (Z * peer C * bytes)) (s : nat) : bytes := match nth_error outs s with Some (_, _, w) => w | None => [] end.

(** A peer, set up and started, made its first five calls (up to the one that sends the shares); every
    one returned 0, and it drew its polynomial [a] as tpdkg_peer_next does. *)
Record dealt (C : crypto) (p : peer C) (calls : list peer_call) (outs : list (Z * peer C * bytes)) (a : list Z) : Prop := mkDealt {
  de_fresh : peer_fresh C p; de_run : peer_run C p calls = Ok outs; de_len : length calls = 5%nat;
  de_ok : Forall (fun o => fst (fst o) = 0) outs;
  de_clock : forall e i o j, In (e, i, o) calls -> is_u64 (pe_s e j);
  de_poly : exists e i o, nth_error calls 3 = Some (e, i, o) /\ pe_a e = a;
  de_random : Z.of_nat (length a) = p_t C p /\ Forall random_scalar a }.

(** Somebody with the Noise device [d] sat in the place of peer [j] (counting from 0) towards it: the
    Noise key of [d] was in the broadcast of keys the peer got, [d] knows the peer's key (which the peer
    sends in the clear in its first message), answered the handshake [rand], and the answer [hs2] reached
    the peer; [s] is the session it has. *)
Record between (C : crypto) (p : peer C) (calls : list peer_call) (outs : list (Z * peer C * bytes)) (j : Z)
    (d : nz_dev (cN C)) (rand : bytes) (s : nz_sess (cN C)) (hs2 : bytes) : Prop := mkBetween {
  bt_j : 0 <= j < p_n C p; bt_dev : nz_reach (cN C) d;
  bt_key : slice (111 + j * 175 + 143) 32 (fed calls 1) = nz_pk (cN C) (nz_static (cN C) d);
  bt_knows : In (slice 143 32 (wrote outs 0)) (map snd (nz_peers (cN C) d));
  bt_answer : answer C d rand (slice (j * 159 + 111) 48 (wrote outs 1)) = Some (s, hs2);
  bt_reached : slice (j * 159 + 111) 48 (fed calls 3) = hs2 }.
(** what it reads in the message with the share for peer [j] *)
Definition overheard (C : crypto) (outs : list (Z * peer C * bytes)) (j : Z) (s : nz_sess (cN C)) : option bytes :=
  opened C s (slice (j * 256 + 111) 64 (wrote outs 4)) (slice (j * 256 + 175) 49 (wrote outs 4)).
