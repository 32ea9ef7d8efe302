(** Vocabulary of C99: a key generation over a network that may do anything. *)
From Coq Require Import ZArith List.
From Coq.Strings Require Import Byte.
From Verif Require Import PrimeL Bytes Res Mem Sodium ToprfModel ToprfSpec DkgModel DkgSpec WireModel WireSpec TpCrypto TpModel PeerModel TpSpec SafeSpec GoodSpec.
Import ListNotations.
Open Scope list_scope.
Open Scope Z_scope.

(** Peer [k], set up for some number of peers and some threshold, made its nine calls, every one of them
    returned 0, and it drew its polynomial as tpdkg_peer_next does.  Nothing is said about the network,
    nor that the peer started with the trusted party's numbers (they can be changed on the way, C103):
    this is [took_part] (GoodSpec.v) without [tk_n], [tk_t], [tk_gets] and [tk_gives]. *)
Record ran (C : crypto) (c : tp) (k : Z) (p : peer C) (pcalls : list peer_call) (pouts : list (Z * peer C * bytes)) : Prop := mkRan {
  rn_k : 0 <= k < t_n c; rn_fresh : peer_fresh C p;
  rn_run : peer_run C p pcalls = Ok pouts; rn_len : length pcalls = 9%nat;
  rn_ok : Forall (fun o => fst (fst o) = 0) pouts;
  rn_clock : forall e i o j, In (e, i, o) pcalls -> is_u64 (pe_s e j);
  rn_random : forall e i o, nth_error pcalls 3 = Some (e, i, o) -> Z.of_nat (length (pe_a e)) = p_t C p /\ Forall random_scalar (pe_a e) }.

(** the messages of [sz] bytes each that make up a buffer *)
Definition cut (sz : Z) (b : bytes) : list bytes := map (fun j => slice (j * sz) sz b) (zrange 0 (Z.to_nat (zlen b / sz))).

(** The messages the trusted party finds in the input of its call [s] (counting from 0): in call 1
    each is followed by a signature under the long-term key. *)
Definition tp_finds (c : tp) (s : nat) (input : bytes) : list bytes :=
  match s with
  | 1%nat => map (firstn 175) (cut 239 input)
  | 2%nat | 3%nat => cut 159 input
  | 4%nat => cut (msg6_SIZE (t_t c)) input
  | 5%nat => cut 256 input
  | 6%nat => cut (msg9_SIZE (t_n c)) input
  | 7%nat => cut msg19_SIZE input
  | 8%nat => cut msg21_SIZE input
  | _ => []
  end.
(** and a peer in its call [s] *)
Definition peer_finds (s : nat) (input : bytes) : list bytes :=
  match s with
  | 2%nat | 3%nat => cut 159 input
  | 5%nat => cut 256 input
  | _ => [input]
  end.
Definition arrived {C : crypto} (c : tp) (calls : list tp_call) (pcalls : list peer_call) (m : bytes) : Prop :=
  (exists s e i o, nth_error calls s = Some (e, i, o) /\ In m (tp_finds c s i)) \/
  (exists s e i o, nth_error pcalls s = Some (e, i, o) /\ In m (peer_finds s i)).

(** What the trusted party, or a peer, wrote as its message number [msgno] to [to]. *)
Definition part_of {X : Type} (outs : list (Z * X * bytes)) (s : nat) (j sz : Z) : option bytes :=
  match nth_error outs s with Some (_, _, w) => match rd w (j * sz) sz with Ok m => Some m | UB => None end | None => None end.
Definition whole_of {X : Type} (outs : list (Z * X * bytes)) (s : nat) : option bytes := option_map snd (nth_error outs s).
Definition tp_wrote (outs : list (Z * tp * bytes)) (msgno to : Z) : option bytes :=
  match msgno with
  | 1 => part_of outs 0 (to - 1) msg1_SIZE
  | 3 => whole_of outs 1
  | 7 => whole_of outs 4
  | 10 => whole_of outs 6
  | 21 => whole_of outs 7
  | _ => None
  end.
Definition peer_wrote {C : crypto} (pouts : list (Z * peer C * bytes)) (msgno to : Z) : option bytes :=
  match msgno with
  | 2 => part_of pouts 0 0 175
  | 4 => part_of pouts 1 (to - 1) 159
  | 5 => part_of pouts 2 (to - 1) 159
  | 6 => whole_of pouts 3
  | 8 => part_of pouts 4 (to - 1) 256
  | 9 => whole_of pouts 5
  | 20 => whole_of pouts 7
  | 22 => whole_of pouts 8
  | _ => None
  end.

(** the key with which the peer signs in this session *)
Definition session_pk {C : crypto} (p : peer C) (pouts : list (Z * peer C * bytes)) : bytes :=
  match pouts with (_, p1, _) :: _ => sig_pk (cS C) (p_sk C p1) | [] => [] end.

(** [view] of every message that arrives with a valid signature of the trusted party (as the peer knows
    its key), or of the peer, is [view] of the message which that party wrote under this number for this
    addressee.  With the identity for [view]: signed messages are not altered, all the rest of the
    traffic is up to the network.  With the first 111 bytes for [view]: no signature is forged (the
    signatures cover the header only).  The long-term signature covers the whole message. *)
Record unforged (C : crypto) (view : bytes -> bytes) (c : tp) (calls : list tp_call) (outs : list (Z * tp * bytes))
    (k : Z) (p : peer C) (pcalls : list peer_call) (pouts : list (Z * peer C * bytes)) : Prop := mkUnforged {
  uf_sid : p_sid C p = t_sid c;
  uf_tp : forall m msgno from to ts body, arrived (C := C) c calls pcalls m -> is_byte msgno -> is_byte from -> is_byte to ->
    signed (cS C) (p_tp_pk C p) (t_sid c) msgno from to ts body m -> option_map view (tp_wrote outs msgno to) = Some (view m);
  uf_peer : forall m msgno from to ts body, arrived (C := C) c calls pcalls m -> is_byte msgno -> is_byte from -> is_byte to ->
    signed (cS C) (session_pk p pouts) (t_sid c) msgno from to ts body m -> option_map view (peer_wrote pouts msgno to) = Some (view m);
  uf_longterm : forall e i o lt m sig, nth_error calls 1 = Some (e, i, o) -> getz (t_lt c) k = Ok lt ->
    rd i (k * 239) 175 = Ok m -> rd i (k * 239 + 175) 64 = Ok sig -> sig_verify (cS C) lt m sig = true -> peer_wrote pouts 2 255 = Some m }.
Definition whole (m : bytes) : bytes := m.
Definition head (m : bytes) : bytes := firstn 111 m.

Definition survived (C : crypto) (view : bytes -> bytes) (c : tp) (calls : list tp_call) (outs : list (Z * tp * bytes)) (x : party C) : Prop :=
  let '(k, p, pcalls, pouts) := x in ran C c k p pcalls pouts /\ unforged C view c calls outs k p pcalls pouts.
