(** Vocabulary of the properties about memory safety and logging (C32, C33, C49). *)
From Coq Require Import ZArith List Bool.
From Coq.Strings Require Import Byte.
From Verif Require Import Bytes Res Mem Sodium PrimeL ToprfModel DkgModel WireModel TpCrypto TpModel PeerModel TpSpec.
Import ListNotations.
Open Scope list_scope.
Open Scope Z_scope.

(** The complaint messages of all n peers, 112 + n bytes each, in the input of the trusted party: the
    first byte of each body announces how many bytes follow.  All announced bytes are in the input. *)
Definition announced_inside (n : Z) (input : bytes) : Prop :=
  forall i d, 0 <= i < n -> getz input (i * msg9_SIZE n + 111) = Ok d -> i * msg9_SIZE n + 111 + bz d < zlen input.

(** the same call with logging switched on or off *)
Definition with_log (b : bool) (e : penv) : penv := mkPenv b (pe_r e) (pe_s e) (pe_sk e) (pe_nsk e) (pe_ri e) (pe_rr e) (pe_lock e) (pe_a e).
(** every live outgoing session belongs to somebody the peer's Noise device knows *)
Definition outs_known (C : crypto) (c : peer C) : Prop :=
  forall i s d, getz (p_outs C c) i = Ok (Live s) -> p_dev C c = Some d -> nz_peer_known (cN C) d s = true.

(** A peer whose state was set up as the documentation demands: parameters in range and buffers of
    the documented sizes. *)
Record peer_wf (C : crypto) (c : peer C) : Prop := mkPwf {
  v_step : 0 <= p_step C c;
  v_n : 2 <= p_n C c <= 128;
  v_t : 1 <= p_t C c < p_n C c;
  v_sid : zlen (p_sid C c) = 32;
  v_last : zlen (p_last C c) = p_n C c;
  v_pks : zlen (p_pks C c) = p_n C c;
  v_npks : zlen (p_npks C c) = p_n C c;
  v_outs : zlen (p_outs C c) = p_n C c;
  v_ins : zlen (p_ins C c) = p_n C c;
  v_com : zlen (p_com C c) = p_n C c;
  v_rows : Forall (fun row => zlen row = p_t C c) (p_com C c);
  v_shares : zlen (p_shares C c) = p_n C c;
  v_xshares : zlen (p_xshares C c) = p_n C c;
  v_cmax : p_cmax C c = p_n C c * p_n C c;
  v_mymax : p_mymax C c = p_n C c
}.
(** ready for its first step: no session exists yet *)
Definition peer_fresh (C : crypto) (c : peer C) : Prop :=
  peer_wf C c /\ p_step C c = 0 /\ p_complaints C c = [] /\ p_my C c = [] /\
  Forall (fun sl => sl = Uninit \/ sl = Null) (p_outs C c) /\ Forall (fun sl => sl = Uninit \/ sl = Null) (p_ins C c).
(** a session variable that holds a session or NULL: not uninitialised, not freed *)
Definition usable {A} (sl : slot A) : Prop := match sl with Live _ | Null => True | Uninit | Freed => False end.
(** the random polynomial drawn in a call *)
Definition drawn (t : Z) (a : list Z) : Prop := Z.of_nat (length a) = t /\ Forall (fun x => 0 <= x < L) a.
(** The complaint messages of all n peers in the broadcast of the trusted party (after a header of 111
    bytes): the announced bytes are in the broadcast, and each is the index of a peer. *)
Definition complaints_sane (n : Z) (input : bytes) : Prop :=
  forall i d, 0 <= i < n -> getz input (111 + i * msg9_SIZE n + 111) = Ok d ->
    forall k, 0 <= k < bz d -> exists a, getz input (111 + i * msg9_SIZE n + 111 + (k + 1)) = Ok a /\ 1 <= bz a <= n.
(** a session variable after tpdkg_peer_free passed it to the Noise library once, unless it was NULL *)
Definition after_free {A} (sl : slot A) : slot A := match sl with Live _ => Freed | x => x end.
