(** Specification vocabulary for the verifiable sharing of src/dkg.c, independent of the
    model: a polynomial over the group, and what it means that a share matches a vector of
    commitments (Feldman). *)
From Coq Require Import ZArith List.
From Verif Require Import PrimeL Bytes Res Sodium ToprfModel ToprfSpec DkgModel.
Import ListNotations.
Open Scope Z_scope.

(** C0 + x*C1 + x^2*C2 + ... in the group *)
Fixpoint gpoly (R : ristretto) (Cs : list (rG R)) (x : Z) : rG R :=
  match Cs with
  | [] => rzero R
  | C :: Cs' => radd R C (rsmul R x (gpoly R Cs' x))
  end.

(** the 32-byte strings [cs] encode the group elements [Cs] *)
Definition decode_all (R : ristretto) (cs : list bytes) (Cs : list (rG R)) : Prop :=
  Forall2 (fun c C => rdec R c = Some C) cs Cs.

(** the commitment vector of the coefficients [a]: the multiples of the base point *)
Definition commitments_of (R : ristretto) (a : list Z) : list bytes :=
  map (fun c => renc R (rsmul R c (rbase R))) a.

(** usable commitments: all but the first decode and are not the identity (the code refuses
    anything else there with -1) *)
Definition usable (R : ristretto) (cs : list bytes) : Prop :=
  exists Cs, decode_all R (tl cs) Cs /\ Forall (fun C => C <> rzero R) Cs.

(** the share value (with bit 255 cleared, as scalar multiplication does) is the committed one *)
Definition matches (R : ristretto) (self : Z) (cs : list bytes) (v : Z) : Prop :=
  exists Cs, decode_all R cs Cs /\ Forall (fun C => C <> rzero R) (tl Cs) /\
    rsmul R (v mod 2 ^ 255) (rbase R) = gpoly R Cs self.

(** dealer i (counting from 1) published [cs] and sent [s] *)
Definition dealt (commitments : list (list bytes)) (shares : list share) (i : Z) (cs : list bytes) (s : share) : Prop :=
  1 <= i /\ nth_error commitments (Z.to_nat (i - 1)) = Some cs /\ nth_error shares (Z.to_nat (i - 1)) = Some s.

(** dealer i, not the recipient itself, sent a share that does not match its commitments *)
Definition cheated (R : ristretto) (self : Z) commitments shares (i : Z) : Prop :=
  i <> self /\ exists cs s, dealt commitments shares i cs s /\ ~ matches R self cs (s_value s).

(** dealer i, not the recipient itself, published unusable commitments *)
Definition unusable_dealer (R : ristretto) (self : Z) commitments shares (i : Z) : Prop :=
  i <> self /\ exists cs s, dealt commitments shares i cs s /\ ~ usable R cs.

(** well-formed arguments of dkg_verify_commitments for n dealers and threshold t *)
Definition verify_args (n t self : Z) (commitments : list (list bytes)) (shares : list share) (fails : list Z) : Prop :=
  1 <= n <= 254 /\ 1 <= t /\ index_ok self /\
  Z.of_nat (length commitments) = n /\ Forall (fun cs => Z.of_nat (length cs) = t) commitments /\
  Z.of_nat (length shares) = n /\ Z.of_nat (length fails) = n.

(** a recipient [j] that holds the shares [ss] of all dealers: its call of
    dkg_verify_commitments reported no problem, its share from itself is its own, and the
    share values are below 2^255 (see C18 for the others) *)
Definition verifies (R : ristretto) (n : Z) (j : Z) (commitments : list (list bytes)) (ss : list share) : Prop :=
  exists fails fails', Z.of_nat (length fails) = n /\
    dkg_verify_commitments R n j commitments ss fails = Ok (0, fails', 0).

Definition recipient_ok (R : ristretto) (n t : Z) (commitments : list (list bytes)) (p : Z * list share) : Prop :=
  let '(j, ss) := p in
  (exists fails, verify_args n t j commitments ss fails) /\ verifies R n j commitments ss /\
  (forall cs s, dealt commitments ss j cs s -> matches R j cs (s_value s)) /\
  Forall (fun s => 0 <= s_value s < 2 ^ 255) ss.
