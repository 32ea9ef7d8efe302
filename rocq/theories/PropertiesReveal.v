(** Property theorems C88: a peer gives away the key of a session only to answer a complaint.
    Vocabulary: RevealSpec.v, TpSpec.v, SafeSpec.v. *)
From Coq Require Import ZArith Lia List Bool.
From Coq.Strings Require Import Byte.
From Verif Require Import Bytes Res Mem Sodium WireModel WireSpec TpCrypto TpModel PeerModel TpSpec SafeSpec ClearSpec RevealSpec.
From Verif Require Import Reveal RevealExamples.
Import ListNotations.
Open Scope list_scope.
Open Scope Z_scope.

(** C88.  [p4] is the peer after its fifth call, the one that opens the sessions and encrypts the
    shares; the seventh call reads the broadcast of complaints [i6] and the eighth may answer it.
    Whatever the peer read: it answers with nothing, with its transcript (message 20), or with the
    keys of its sessions with peers whose messages in [i6] accuse it, and of no other. *)
Theorem C88_reveals_only_answers : forall C, crypto_ok C -> forall p calls outs,
  peer_fresh C p -> peer_run C p calls = Ok outs -> Forall (fun o => fst (fst o) = 0) outs ->
  forall e6 i6 o6 p6 w6 e7 i7 o7 p7 w7 p4 w4,
  nth_error outs 4 = Some (0, p4, w4) -> nth_error calls 6 = Some (e6, i6, o6) -> nth_error outs 6 = Some (0, p6, w6) ->
  nth_error calls 7 = Some (e7, i7, o7) -> nth_error outs 7 = Some (0, p7, w7) -> is_u64 (pe_s e7 0) ->
  w6 = [] /\
  (w7 = [] \/
   (p_complaints C p6 = [] /\ exists body, signed (cS C) (sig_pk (cS C) (p_sk C p6)) (p_sid C p6) 20 (p_index C p6) 0 (pe_s e7 0) body w7) \/
   exists bs body, bs <> [] /\ NoDup bs /\ signed (cS C) (sig_pk (cS C) (p_sk C p6)) (p_sid C p6) 11 (p_index C p6) 0 (pe_s e7 0) body w7 /\ keys_for C p4 bs body /\
     forall b, In b bs -> 1 <= b <= p_n C p6 /\ accuses (p_n C p6) i6 b (p_index C p6) /\
       exists pk, getz (p_pks C p6) (b - 1) = Ok pk /\ delivered C i6 (111 + (b - 1) * msg9_SIZE (p_n C p6)) (msg9_SIZE (p_n C p6)) pk (p_sid C p6) 9 b 255).
Proof. exact reveals. Qed.
Print Assumptions C88_reveals_only_answers.

Example C88_nonvacuous : exists (p p4 p6 p7 : peer toyC) calls outs e6 i6 o6 w6 e7 i7 o7 w7 w4,
  crypto_ok toyC /\ peer_fresh toyC p /\ peer_run toyC p calls = Ok outs /\ Forall (fun o => fst (fst o) = 0) outs /\
  nth_error outs 4 = Some (0, p4, w4) /\ nth_error calls 6 = Some (e6, i6, o6) /\ nth_error outs 6 = Some (0, p6, w6) /\
  nth_error calls 7 = Some (e7, i7, o7) /\ nth_error outs 7 = Some (0, p7, w7) /\ is_u64 (pe_s e7 0) /\
  p_index toyC p6 = 2 /\ p_complaints toyC p6 = [258] /\ accuses 3 i6 1 2 /\ zlen w7 = 144 /\ rd w7 111 1 = Ok [zb 1].
Proof. exact C88_example. Qed.
