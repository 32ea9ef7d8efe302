(** Independent specification for the OPRF: RFC 9380 section 5.3.1 and RFC 9497
    section 3.3.1, written from the RFC text. *)
From Coq Require Import String.
From Coq Require Import ZArith Lia List Bool.
From Coq.Strings Require Import Byte.
From Verif Require Import Bytes Sodium.
Import ListNotations.
Open Scope list_scope.
Open Scope Z_scope.

Definition I2OSP (x : Z) (n : nat) : bytes := be_bytes n x.

Fixpoint strxor (a b : bytes) : bytes :=
  match a, b with
  | x :: a', y :: b' => zb (Z.lxor (bz x) (bz y)) :: strxor a' b'
  | _, _ => []
  end.

Section XMD.
  Variable Hash : bytes -> bytes.     (* SHA-512: 64 byte digests, 128 byte blocks *)

  (* 3. DST_prime = DST || I2OSP(len(DST), 1) *)
  Definition DST_prime (DST : bytes) := (DST ++ I2OSP (Z.of_nat (length DST)) 1)%list.
  (* 4-6. msg_prime = Z_pad || msg || l_i_b_str || I2OSP(0, 1) || DST_prime *)
  Definition rfc_msg_prime (msg DST : bytes) (len_in_bytes : Z) : bytes :=
    (I2OSP 0 128 ++ msg ++ I2OSP len_in_bytes 2 ++ I2OSP 0 1 ++ DST_prime DST)%list.
  (* 7. b_0 = H(msg_prime) *)
  Definition b_zero msg DST len_in_bytes := Hash (rfc_msg_prime msg DST len_in_bytes).
  (* 8-10. b_1 = H(b_0 || I2OSP(1,1) || DST_prime),
           b_i = H(strxor(b_0, b_(i-1)) || I2OSP(i,1) || DST_prime);  [b_next k] is b_(k+1) *)
  Fixpoint b_next (msg DST : bytes) (len_in_bytes : Z) (k : nat) : bytes :=
    match k with
    | O => Hash (b_zero msg DST len_in_bytes ++ I2OSP 1 1 ++ DST_prime DST)%list
    | S k' => Hash (strxor (b_zero msg DST len_in_bytes) (b_next msg DST len_in_bytes k')
                    ++ I2OSP (Z.of_nat (S (S k'))) 1 ++ DST_prime DST)%list
    end.
  (* 1. ell = ceil(len_in_bytes / b_in_bytes) *)
  Definition rfc_ell (len_in_bytes : Z) : nat := Z.to_nat ((len_in_bytes + 63) / 64).
  (* 11-12. substr(b_1 || ... || b_ell, 0, len_in_bytes) *)
  Definition rfc_expand_message_xmd (msg DST : bytes) (len_in_bytes : Z) : bytes :=
    firstn (Z.to_nat len_in_bytes)
           (concat (map (b_next msg DST len_in_bytes) (seq 0 (rfc_ell len_in_bytes)))).

  (** RFC 9497 3.3.1 Finalize: the hashInput *)
  Definition rfc_hashInput (input unblindedElement : bytes) : bytes :=
    (I2OSP (Z.of_nat (length input)) 2 ++ input ++
     I2OSP (Z.of_nat (length unblindedElement)) 2 ++ unblindedElement ++
     list_byte_of_string "Finalize")%list.
End XMD.

(** The domain separation tag of RFC 9497 for OPRF(ristretto255, SHA-512), base mode:
    "HashToGroup-" || contextString, contextString = "OPRFV1-" || I2OSP(mode=0, 1) || "-" || "ristretto255-SHA512" *)
Definition rfc_dst : bytes :=
  (list_byte_of_string "HashToGroup-" ++
   (list_byte_of_string "OPRFV1-" ++ I2OSP 0 1 ++ list_byte_of_string "-" ++
    list_byte_of_string "ristretto255-SHA512"))%list.

(** RFC 9497 4.1: HashToGroup(x) = the ristretto255 map applied to the 64 uniform bytes of
    expand_message_xmd with the tag above. *)
Definition HashToGroup (R : ristretto) (H : hashes) (x : bytes) : rG R :=
  rmap R (rfc_expand_message_xmd (sha512 H) x rfc_dst 64).
