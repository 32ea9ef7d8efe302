(** What a Noise session and a device say about themselves: vocabulary for C91. *)
From Coq Require Import ZArith List Bool.
From Coq.Strings Require Import Byte.
From Verif Require Import Bytes Res Mem XkModel XkSpec.
Import ListNotations.
Open Scope list_scope.
Open Scope Z_scope.

(** a session for one of the two roles ([true]: the initiator, who needs the peer's identifier) *)
Definition creates (X : xprims) (initiator : bool) (d : xdev) (pid : Z) (e : bytes) : option (xdev * xsess) :=
  if initiator then session_create_initiator X d pid e else session_create_responder X d e.
(** the number of messages that a history of a session has exchanged *)
Definition exchanged (tr : list (gop * rcode * gout)) : nat := length (filter succeeded tr).
(** XK: the initiator writes the first and the third message, the responder the second *)
Definition writes (initiator : bool) (message : nat) : bool := Bool.eqb initiator (Nat.even message).
(** the longest payload of a message *)
Definition longest (message : nat) : Z := if (message <? 3)%nat then 2 ^ 32 - 1 - 80 else 2 ^ 32 - 1 - 16.

(** the sessions that a device creates in a history of requests to it *)
Fixpoint sessions (X : xprims) (ops : list rop) (d : xdev) : list xsess :=
  match ops with
  | [] => []
  | o :: ops' =>
      match o with
      | RSession pid e =>
          match creates X (negb (pid =? 0)) d pid e with
          | Some (_, s) => [s]
          | None => []
          end
      | _ => []
      end ++ sessions X ops' (fst (rstep X o d))
  end.
