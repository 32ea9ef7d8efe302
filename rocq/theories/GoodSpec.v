(** Vocabulary of C80: a key generation that ended well, and a peer that followed the protocol in it,
    whatever the other peers did. *)
From Coq Require Import ZArith List.
From Coq.Strings Require Import Byte.
From Verif Require Import PrimeL Bytes Res Mem Sodium ToprfModel ToprfSpec DkgModel DkgSpec WireModel WireSpec TpCrypto TpModel PeerModel TpSpec SafeSpec.
Import ListNotations.
Open Scope list_scope.
Open Scope Z_scope.

(** The trusted party, set up and started, made its nine calls and every one of them returned 0. *)
Record done_well (C : crypto) (c : tp) (calls : list tp_call) (outs : list (Z * tp * bytes)) : Prop := mkDone {
  dw_wf : tp_wf c; dw_step : t_step c = 0; dw_complaints : t_complaints c = [];
  dw_run : tp_run C c calls = Ok outs; dw_len : length calls = 9%nat;
  dw_ok : Forall (fun o => fst (fst o) = 0) outs;
  dw_clock : forall e i o j, In (e, i, o) calls -> is_u64 (e_s e j) }.

(** In its call [s] peer [k] (counting from 0) was given what the trusted party wrote for it in call
    [s], as located by tpdkg_tp_peer_msg. *)
Definition gets (C : crypto) (k : Z) (outs : list (Z * tp * bytes)) (pcalls : list peer_call) (s : nat) : Prop :=
  exists c' out' off len e input out, nth_error outs s = Some (0, c', out') /\ nth_error pcalls s = Some (e, input, out) /\
    tp_peer_msg c' (zlen out') k = (0, Some (off, len)) /\ rd out' off len = Ok input.
(** What it wrote in call [s] is part [k] of the parts of equal size which the trusted party read in
    its next call. *)
Definition gives (C : crypto) (k : Z) (calls : list tp_call) (pouts : list (Z * peer C * bytes)) (s : nat) : Prop :=
  exists p' w e input out, nth_error pouts s = Some (0, p', w) /\ nth_error calls (S s) = Some (e, input, out) /\
    rd input (k * zlen w) (zlen w) = Ok w.

(** Peer [k], set up and started with the same parameters, made its nine calls, every one of them
    returned 0, it drew its polynomial as tpdkg_peer_next does, and its messages up to the complaints
    (call 6 of the trusted party) were transported unchanged.  Nothing is said about the others. *)
Record took_part (C : crypto) (c : tp) (calls : list tp_call) (outs : list (Z * tp * bytes))
    (k : Z) (p : peer C) (pcalls : list peer_call) (pouts : list (Z * peer C * bytes)) : Prop := mkTook {
  tk_k : 0 <= k < t_n c; tk_fresh : peer_fresh C p; tk_n : p_n C p = t_n c; tk_t : p_t C p = t_t c;
  tk_run : peer_run C p pcalls = Ok pouts; tk_len : length pcalls = 9%nat;
  tk_ok : Forall (fun o => fst (fst o) = 0) pouts;
  tk_clock : forall e i o j, In (e, i, o) pcalls -> is_u64 (pe_s e j);
  tk_random : forall e i o, nth_error pcalls 3 = Some (e, i, o) -> Z.of_nat (length (pe_a e)) = p_t C p /\ Forall random_scalar (pe_a e);
  tk_gets : forall s, (s <= 6)%nat -> gets C k outs pcalls s;
  tk_gives : forall s, (s <= 5)%nat -> gives C k calls pouts s }.

(** the commitments everyone agreed on *)
Definition published (c : tp) (outs : list (Z * tp * bytes)) : list (list bytes) := t_com (final c outs).
(** every dealer's commitments (but for the first) are points other than the identity *)
Definition sound_commitments (C : crypto) (coms : list (list bytes)) : Prop := Forall (DkgSpec.usable (cR C)) coms.
(** what a peer was sent, and what it keeps *)
Definition received (C : crypto) (p : peer C) (pouts : list (Z * peer C * bytes)) : list share := p_xshares C (final p pouts).
Definition key_share (C : crypto) (p : peer C) (pouts : list (Z * peer C * bytes)) : share := p_share C (final p pouts).

(** peers of a session that followed the protocol: number, state, calls, outcome *)
Definition party (C : crypto) : Type := Z * peer C * list peer_call * list (Z * peer C * bytes).
Definition honest (C : crypto) (c : tp) (calls : list tp_call) (outs : list (Z * tp * bytes)) (x : party C) : Prop :=
  let '(k, p, pcalls, pouts) := x in took_part C c calls outs k p pcalls pouts.
Definition number {C : crypto} (x : party C) : Z := fst (fst (fst x)).
Definition share_of_party {C : crypto} (x : party C) : share := key_share C (snd (fst (fst x))) (snd x).
Definition received_by {C : crypto} (x : party C) : list share := received C (snd (fst (fst x))) (snd x).
(** share values as the protocol sends them: below 2^255 *)
Definition plain_shares (l : list share) : Prop := Forall (fun s => 0 <= s_value s < 2 ^ 255) l.

(** [A]: the dealers' secret polynomials, the ones their published commitments commit to *)
Definition dealers (C : crypto) (c : tp) (coms : list (list bytes)) (A : list (list Z)) : Prop :=
  Z.of_nat (length A) = t_n c /\ Forall (fun a => Z.of_nat (length a) = t_t c /\ Forall (fun x => 0 <= x < PrimeL.L) a) A /\
  coms = map (commitments_of (cR C)) A.
