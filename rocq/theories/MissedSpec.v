(** Vocabulary of C93: every violation is reported.  [e], [c] and [input] are the clocks, the state and
    the messages of a call of the trusted party. *)
From Coq Require Import ZArith List Bool.
From Coq.Strings Require Import Byte.
From Verif Require Import Bytes Res Mem Sodium WireModel WireSpec TpCrypto TpModel CheaterModel TpSpec BlameSpec ReportSpec.
Import ListNotations.
Open Scope list_scope.
Open Scope Z_scope.

(** The call judges a message from peer [p] for [o] (255: everybody, 0: the trusted party); [step] is
    the number under which the reports of the call are filed. *)
Definition judged (c : tp) (step p o : Z) : Prop :=
  In (t_step c, step) [(1, 4); (2, 8); (3, 10); (4, 12); (5, 14); (6, 16); (8, 20); (9, 22)] /\ 1 <= p <= t_n c /\
  (In step [4; 12; 16] /\ o = 255 \/ In step [8; 10; 14] /\ 1 <= o <= t_n c \/ In step [20; 22] /\ o = 0).

(** that message has no fault: length, number, sender, recipient, session, time stamp and signature are
    as they must be *)
Definition good_message (C : crypto) (e : env) (c : tp) (input : bytes) (step p o : Z) : Prop :=
  exists off len msgno clk pk last, slot (t_n c) (t_t c) step p o = Some (off, len, msgno, clk) /\
    key_of c input step p pk /\ seen c input step p o last /\
    accepted C input off len pk (t_sid c) msgno p o (t_eps c) last (e_r e clk).

(** the message with the session keys of peer [p] is signed with its long-term key *)
Definition vouched (C : crypto) (c : tp) (input : bytes) (p : Z) : Prop :=
  exists lt m s, getz (t_lt c) (p - 1) = Ok lt /\ rd input (239 * (p - 1)) 175 = Ok m /\ rd input (239 * (p - 1) + 175) 64 = Ok s /\
    sig_verify (cS C) lt m s = true.

(** an entry names [p] and [o] *)
Definition named (l : list cheater) (step p o : Z) : Prop := exists ch, In ch l /\ ch_step ch = step /\ ch_peer ch = p /\ ch_other ch = o.

(** a call with buffers of the sizes the trusted party asks for *)
Definition sized (c : tp) (input out : bytes) : Prop := tp_input_size c = Ok (zlen input) /\ zlen out = tp_output_size c.
