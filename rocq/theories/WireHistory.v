(** Histories of received messages: the messages claiming to come from one sender, checked one
    after the other, the recorded time stamp being handed on as the callers of recv_msg do
    (src/tp-dkg.c passes &ctx->last_ts[sender] resp. &ctx->tp_last_ts). *)
From Coq Require Import ZArith List.
From Coq.Strings Require Import Byte.
From Verif Require Import Bytes Res Mem Sodium WireModel WireSpec.
Import ListNotations.
Open Scope Z_scope.

Record arrival : Type := mkArrival {
  a_buf : bytes; a_off : Z; a_len : Z; a_msgno : Z; a_from : Z; a_to : Z; a_pk : bytes; a_sid : bytes; a_now : Z
}.
Definition arrival_ok (a : arrival) : Prop := 0 <= a_off a /\ 111 <= a_len a /\ a_off a + a_len a <= zlen (a_buf a).

(** return code and time stamp field of each message *)
Fixpoint recv_history (S : sigs) (window recorded : Z) (l : list arrival) : res (list (Z * Z)) :=
  match l with
  | [] => Ok []
  | a :: l' =>
      do (code, recorded') <- recv_msg S (a_buf a) (a_off a) (a_len a) (a_msgno a) (a_from a) (a_to a) (a_pk a) (a_sid a)
                                window recorded (a_now a) ;;
      do ts <- rd (a_buf a) (a_off a + 71) 8 ;;
      do rest <- recv_history S window recorded' l' ;;
      Ok ((code, of_be ts) :: rest)
  end.
Definition accepted (outs : list (Z * Z)) : list Z := map snd (filter (fun o => fst o =? 0) outs).
