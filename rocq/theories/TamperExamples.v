(** Concrete cases for PropertiesTamper.v: the secret 5 shared with 3 + 5 by two of two servers. *)
From Coq Require Import ZArith Lia List Bool Permutation.
From Coq.Strings Require Import Byte.
From Verif Require Import PrimeL Fq Bytes Res Sodium OprfModel ToprfModel ToprfSpec ToprfProofs ToprfExamples TamperProofs.
Import ListNotations.
Open Scope list_scope.
Open Scope Z_scope.

Definition tm_shares : list share := [mkShare 1 8; mkShare 2 11].
Definition tm_part (i v : Z) : part := mkPart i (le_bytes 32 v).

Lemma tm_params : sharing_params 5 2 2 [3] tm_shares.
Proof. unfold sharing_params, tm_shares. cbn [length]. split; [small|]. lia. Qed.
Lemma tm_created : create_shares 5 2 2 [3] tm_shares = Ok tm_shares.
Proof. vm_compute. reflexivity. Qed.
Lemma tm_quorum : quorum 2 tm_shares tm_shares.
Proof.
  split; [|split; [apply incl_refl|cbn; lia]].
  constructor; [intros [E|[]]; discriminate E|]. constructor; [intros []|constructor].
Qed.
Lemma tm_answers : Forall2 (fun s p => p_index p = s_index s /\
    oprf_Evaluate toyR (s_value s) ex_alpha = (0, Some (p_value p))) tm_shares [tm_part 1 8; tm_part 2 11].
Proof. repeat constructor; vm_compute; reflexivity. Qed.

(** one wrong answer: success is returned, with the wrong value 5 + 2 *)
Lemma tm_wrong : exists R secret n t a buf shares qs alpha P i v v' r junk out,
  ristretto_ok R /\ sharing_params secret n t a buf /\ create_shares secret n t a buf = Ok shares /\
  quorum t shares qs /\ rdec R alpha = Some P /\
  Forall2 (fun s p => p_index p = s_index s /\ oprf_Evaluate R (s_value s) alpha = (0, Some (p_value p)))
    qs (mkPart i v :: r) /\
  length junk = length (mkPart i v :: r) /\ v' <> v /\
  thresholdmult R (mkPart i v' :: r) junk = Ok (0, out) /\ out <> renc R (rsmul R secret P).
Proof.
  exists toyR, 5, 2, 2, [3], tm_shares, tm_shares, tm_shares, ex_alpha, (rbase toyR), 1, (le_bytes 32 8), (le_bytes 32 9),
    [tm_part 2 11], [0; 0], (le_bytes 32 7).
  split; [exact toyR_ok|]. split; [exact tm_params|]. split; [exact tm_created|]. split; [exact tm_quorum|].
  split; [exact toy_base_dec|]. split; [exact tm_answers|]. split; [reflexivity|].
  split; [vm_compute; discriminate|]. split; [vm_compute; reflexivity|]. vm_compute. discriminate.
Qed.

(** the first answer counted twice: success is returned, with a wrong value *)
Lemma tm_repeated : exists R secret n t a buf shares qs alpha P p r junk out,
  ristretto_ok R /\ sharing_params secret n t a buf /\ create_shares secret n t a buf = Ok shares /\
  quorum t shares qs /\ rdec R alpha = Some P /\
  Forall2 (fun s p => p_index p = s_index s /\ oprf_Evaluate R (s_value s) alpha = (0, Some (p_value p)))
    qs (p :: r) /\
  length junk = length (p :: p :: r) /\
  thresholdmult R (p :: p :: r) junk = Ok (0, out) /\ out <> renc R (rsmul R secret P).
Proof.
  exists toyR, 5, 2, 2, [3], tm_shares, tm_shares, tm_shares, ex_alpha, (rbase toyR), (tm_part 1 8), [tm_part 2 11], [0; 0; 0].
  exists (match thresholdmult toyR [tm_part 1 8; tm_part 1 8; tm_part 2 11] [0;0;0] with Ok (_, o) => o | _ => [] end).
  split; [exact toyR_ok|]. split; [exact tm_params|]. split; [exact tm_created|]. split; [exact tm_quorum|].
  split; [exact toy_base_dec|]. split; [exact tm_answers|]. split; [reflexivity|].
  split; [vm_compute; reflexivity|]. vm_compute. discriminate.
Qed.

(** two wrong answers can cancel out *)
Lemma tm_cancel : exists R secret n t a buf shares qs alpha P p1 p2 v1 v2 junk,
  ristretto_ok R /\ sharing_params secret n t a buf /\ create_shares secret n t a buf = Ok shares /\
  quorum t shares qs /\ rdec R alpha = Some P /\
  Forall2 (fun s p => p_index p = s_index s /\ oprf_Evaluate R (s_value s) alpha = (0, Some (p_value p)))
    qs [p1; p2] /\ length junk = length [p1; p2] /\
  v1 <> p_value p1 /\ v2 <> p_value p2 /\
  thresholdmult R [mkPart (p_index p1) v1; mkPart (p_index p2) v2] junk = Ok (0, renc R (rsmul R secret P)).
Proof.
  exists toyR, 5, 2, 2, [3], tm_shares, tm_shares, tm_shares, ex_alpha, (rbase toyR), (tm_part 1 8), (tm_part 2 11),
    (le_bytes 32 9), (le_bytes 32 13), [0; 0].
  split; [exact toyR_ok|]. split; [exact tm_params|]. split; [exact tm_created|]. split; [exact tm_quorum|].
  split; [exact toy_base_dec|]. split; [exact tm_answers|]. split; [reflexivity|].
  split; [vm_compute; discriminate|]. split; [vm_compute; discriminate|]. vm_compute. reflexivity.
Qed.

Lemma tm_combine : exists p parts (r0 out out2 : bytes), (length (p :: parts) <= 255)%nat /\
  is_valid_point toyR (p_value p) = true /\ p_value p <> zeros 32 /\ In p parts /\ (1 < length parts)%nat /\
  thresholdcombine toyR parts r0 = Ok (0, out) /\ thresholdcombine toyR (p :: parts) r0 = Ok (0, out2).
Proof.
  exists (tm_part 1 8), [tm_part 1 8; tm_part 2 11], (zeros 32), (le_bytes 32 19), (le_bytes 32 27).
  split; [cbn; lia|]. split; [vm_compute; reflexivity|]. split; [vm_compute; discriminate|].
  split; [left; reflexivity|]. split; [cbn; lia|]. split; vm_compute; reflexivity.
Qed.

Lemma tm_force : exists l i r (junk : list Z) (T1 T2 : rG toyR), (length (l ++ mkPart i [] :: r) <= 255)%nat /\
  length junk = length (l ++ mkPart i [] :: r) /\ Forall index_ok (map p_index (l ++ mkPart i [] :: r)) /\
  (forall p, In p (l ++ r) -> exists P, rdec toyR (p_value p) = Some P /\ P <> rzero toyR) /\
  T1 <> T2 /\ l <> [] /\ r <> [].
Proof.
  exists [mkPart 1 ex_alpha], 3, [mkPart 2 ex_alpha], [0;0;0], (rbase toyR), (rzero toyR).
  split; [cbn; lia|]. split; [reflexivity|]. split; [repeat constructor; cbn; lia|].
  split; [|split; [exact toy_base_neq_0|split; discriminate]].
  intros p [<-|[<-|[]]]; exists (rbase toyR); (split; [exact toy_base_dec|exact toy_base_neq_0]).
Qed.
