(** Vocabulary of the properties of the trusted-party protocol: histories of calls and
    well-formed states. *)
From Coq Require Import ZArith List Bool.
From Verif Require Import Bytes Res Mem Sodium ToprfModel DkgModel WireModel WireSpec TpCrypto TpModel PeerModel.
Import ListNotations.
Open Scope list_scope.
Open Scope Z_scope.

(** One call of a next function: environment, input buffer, initial content of the output buffer. *)
Definition tp_call : Type := env * bytes * bytes.
Definition peer_call : Type := penv * bytes * bytes.

(** A history: calls in sequence; the outcome lists return code, state after and output of each call. *)
Fixpoint tp_run (C : crypto) (c : tp) (calls : list tp_call) : res (list (Z * tp * bytes)) :=
  match calls with
  | [] => Ok []
  | (e, input, out) :: calls' =>
      do (ret, c', out') <- tp_next C e c input out ;;
      do rest <- tp_run C c' calls' ;;
      Ok ((ret, c', out') :: rest)
  end.
Fixpoint peer_run (C : crypto) (c : peer C) (calls : list peer_call) : res (list (Z * peer C * bytes)) :=
  match calls with
  | [] => Ok []
  | (e, input, out) :: calls' =>
      do (ret, c', out') <- peer_next C e c input out ;;
      do rest <- peer_run C c' calls' ;;
      Ok ((ret, c', out') :: rest)
  end.

(** the state after the last call *)
Definition final {X} (c : X) (outs : list (Z * X * bytes)) : X := last (map (fun o => snd (fst o)) outs) c.

(** A trusted party whose state was set up as the documentation demands: parameters in range and
    buffers of the documented sizes; the step counter where start left it or later. *)
Record tp_wf (c : tp) : Prop := mkWf {
  w_step : 0 <= t_step c;
  w_n : 2 <= t_n c <= 128;
  w_t : 1 <= t_t c < t_n c;
  w_sid : zlen (t_sid c) = 32;
  w_last : zlen (t_last c) = t_n c;
  w_pks : zlen (t_pks c) = t_n c;
  w_lt : zlen (t_lt c) = t_n c;
  w_com : zlen (t_com c) = t_n c;
  w_rows : Forall (fun row => zlen row = t_t c) (t_com c);
  w_enc : zlen (t_enc c) = t_n c * t_n c * msg8_SIZE;
  w_cmax : t_cmax c = t_n c * t_n c;
  w_chmax : zlen (t_cheaters c) <= t_chmax c
}.

(** a complaint pair: complainer and accused *)
Definition complainer_of (x : Z) : Z := x / 256.
Definition accused_of (x : Z) : Z := x mod 256.
Definition complaint_ok (n x : Z) : Prop := 1 <= complainer_of x <= n /\ 1 <= accused_of x <= n.

(** How the two state machines are coupled.  (s, p) in [consumes]: in step s the trusted party
    processes what the peers wrote in their step p.  (s, p) in [delivers]: what the trusted party
    wrote in its step s is the input of the peers' step p.  (Step 7 of both is complaint
    resolution, where sizes differ between peers; see C36.) *)
Definition consumes : list (Z * Z) := [(1, 0); (2, 1); (3, 2); (4, 3); (5, 4); (6, 5); (8, 8); (9, 9)].
Definition delivers : list (Z * Z) := [(0, 0); (1, 1); (2, 2); (3, 3); (4, 4); (5, 5); (6, 6); (8, 9)].

(** number of recorded complaints against peer [i] *)
Definition accusations (i : Z) (complaints : list Z) : Z := zlen (filter (fun x => accused_of x =? i) complaints).

(** offset of the message for peer [i] in what the trusted party wrote in step [s] *)
Definition slice_off (c : tp) (s i : Z) : Z :=
  match s with 0 => i * msg1_SIZE | 2 => i * msg4_SIZE * t_n c | 3 => i * msg5_SIZE * t_n c | 5 => i * t_n c * msg8_SIZE | _ => 0 end.

(** [signed S pk sid msgno from to ts body m]: m is the message with this body whose header carries
    number, sender, recipient, time stamp, its own length and the session id, and whose signature
    verifies under pk. *)
Definition signed (S : sigs) (pk sid : bytes) (msgno from to ts : Z) (body m : bytes) : Prop :=
  exists sig, zlen sig = 64 /\ is_u64 ts /\
    m = message sig (header msgno (111 + zlen body) from to ts sid) body /\
    sig_verify S pk (header msgno (111 + zlen body) from to ts sid) sig = true.

(** [delivered C input off len pk sid msgno from to]: the [len] bytes at [off] are a message with
    these header fields signed under [pk] *)
Definition delivered (C : crypto) (input : bytes) (off len : Z) (pk sid : bytes) (msgno from to : Z) : Prop :=
  exists m ts body, rd input off len = Ok m /\ signed (cS C) pk sid msgno from to ts body m.

(** [len] bytes at [off] *)
Definition slice (off len : Z) (b : bytes) : bytes := firstn (Z.to_nat len) (skipn (Z.to_nat off) b).

(** the peers a complaint message (message 9) names: the first byte of the body says how many
    bytes follow, each of which is the index of an accused peer *)
Definition named (m : bytes) : list Z :=
  match skipn 111 m with [] => [] | k :: l => map bz (firstn (Z.to_nat (bz k)) l) end.

(** the complaints in the complaint messages of all n peers, which start at [off] in [b] *)
Definition complaints_in (n off : Z) (b : bytes) : list Z :=
  flat_map (fun i => map (fun a => (i + 1) * 256 + a) (named (slice (off + i * msg9_SIZE n) (msg9_SIZE n) b)))
           (zrange 0 (Z.to_nat n)).

(** The broadcasts of a history: what the trusted party wrote in steps 1, 4 and 6 (session keys,
    commitments, complaints), and what a peer read in its steps 1, 4 and 6. *)
Definition broadcast_step (s : Z) : bool := (s =? 1) || (s =? 4) || (s =? 6).
Fixpoint tp_said (c : tp) (outs : list (Z * tp * bytes)) : list bytes :=
  match outs with
  | [] => []
  | (_, c', out') :: rest => (if broadcast_step (t_step c) then [out'] else []) ++ tp_said c' rest
  end.
Fixpoint peer_heard (C : crypto) (c : peer C) (calls : list peer_call) (outs : list (Z * peer C * bytes)) : list bytes :=
  match calls, outs with
  | (_, input, _) :: calls', (_, c', _) :: outs' =>
      (if broadcast_step (p_step C c) then [input] else []) ++ peer_heard C c' calls' outs'
  | _, _ => []
  end.

(** the steps in which the trusted party passes on messages between peers: size and number of
    each of those messages (from src/tp-dkg.h) *)
Definition relay_size (step : Z) : Z := if step =? 5 then msg8_SIZE else msg4_SIZE.
Definition relay_msgno (step : Z) : Z := if step =? 5 then 8 else if step =? 3 then 5 else 4.
