(** Vocabulary of C77: a peer that followed the protocol, and what the trusted party has of it. *)
From Coq Require Import ZArith List.
From Coq.Strings Require Import Byte.
From Verif Require Import Bytes Res Mem Sodium DkgModel WireModel WireSpec TpCrypto TpModel PeerModel TpSpec BlameSpec.
Import ListNotations.
Open Scope list_scope.
Open Scope Z_scope.

(** The trusted party, about to judge the complaints, and peer [p] belong to the same session and know
    the same complaints. *)
Record same_session (C : crypto) (c : tp) (p : peer C) : Prop := mkSame {
  ss_n : p_n C p = t_n c; ss_t : p_t C p = t_t c; ss_sid : p_sid C p = t_sid c;
  ss_index : 1 <= p_index C p <= t_n c;
  ss_pk : getz (t_pks c) (p_index C p - 1) = Ok (sig_pk (cS C) (p_sk C p));
  ss_complaints : p_complaints C p = t_complaints c }.

(** What the trusted party keeps and receives of [p] is what [p] sent: the commitments, the encrypted
    shares for all peers, and now the message with the keys, which it gets in time. *)
Record heard (C : crypto) (e : env) (c : tp) (input : bytes) (p : peer C) (stamp : Z) (commitments shares keys : bytes) : Prop := mkHeard {
  hd_com : exists row, getz (t_com c) (p_index C p - 1) = Ok row /\ Forall (fun b => zlen b = 32) row /\ concat row = skipn 111 commitments;
  hd_enc : rd (t_enc c) (share_off (t_n c) (p_index C p) 1) (t_n c * msg8_SIZE) = Ok shares;
  hd_keys : rd input (reveal_off (t_complaints c) (p_index C p)) (reveal_size (t_complaints c) (p_index C p)) = Ok keys;
  hd_fresh : keys <> [] -> exists last, getz (t_last c) (p_index C p - 1) = Ok last /\ fresh (t_eps c) last stamp (e_r e (p_index C p - 1)) }.
