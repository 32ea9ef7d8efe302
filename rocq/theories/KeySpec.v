(** Vocabulary of C98: what one peer contributes to the generated key. *)
From Coq Require Import ZArith List.
From Coq.Strings Require Import Byte.
From Verif Require Import PrimeL Bytes Res Mem Sodium ToprfModel ToprfSpec DkgModel DkgSpec WireModel WireSpec TpCrypto TpModel PeerModel TpSpec SafeSpec GoodSpec.
Import ListNotations.
Open Scope list_scope.
Open Scope Z_scope.

(** A key generation that ended well, and at least t different peers that followed the protocol in it;
    the published commitments are sound and the share values below 2^255 (see C80). *)
Record ended (C : crypto) (c : tp) (calls : list tp_call) (outs : list (Z * tp * bytes)) (parties : list (party C)) : Prop := mkEnded {
  en_done : done_well C c calls outs; en_sound : sound_commitments C (published c outs);
  en_honest : Forall (honest C c calls outs) parties; en_plain : Forall (fun x => plain_shares (received_by x)) parties;
  en_distinct : NoDup (map number parties); en_enough : t_t c <= Z.of_nat (length parties) }.
(** the key they hold shares of *)
Definition key_of {C : crypto} (parties : list (party C)) : Z := dkg_reconstruct (map share_of_party parties).
(** the random polynomial which peer [x] drew (in its fourth call), and its constant term *)
Definition drew {C : crypto} (x : party C) (a : list Z) : Prop :=
  exists e input out, nth_error (snd (fst x)) 3 = Some (e, input, out) /\ pe_a e = a.
Definition secret (a : list Z) : Z := hd 0 a.

(** every dealer other than [k] published the same commitments in the two *)
Definition others_same (k : Z) (coms coms' : list (list bytes)) : Prop :=
  forall j, j <> Z.to_nat k -> nth_error coms j = nth_error coms' j.

(** the same call with another polynomial drawn *)
Definition with_poly (a : list Z) (e : penv) : penv :=
  mkPenv (pe_log e) (pe_r e) (pe_s e) (pe_sk e) (pe_nsk e) (pe_ri e) (pe_rr e) (pe_lock e) a.
Definition same_but_poly (x y : peer_call) : Prop :=
  exists a, y = (with_poly a (fst (fst x)), snd (fst x), snd x).
