(** Concrete cases and witnesses for the DKG properties *)
From Coq Require Import ZArith Lia List Bool Permutation Sorting.Sorted.
From Coq.Strings Require Import Byte.
From Verif Require Import PrimeL Fq Poly Bytes Res Sodium OprfModel OprfSpec OprfProofs.
From Verif Require Import ToprfModel ToprfSpec ToprfProofs DkgModel DkgSpec DkgProofs ToprfExamples.
Import ListNotations.
Open Scope list_scope.
Open Scope Z_scope.

Definition ex_A : list (list Z) := [[5; 7]; [11; 13]; [17; 19]].
Definition ex_cbuf : list bytes := [zeros 32; zeros 32].
Definition ex_sbuf : list share := repeat (mkShare 0 0) 3.

Lemma ex_A_ok : Forall (fun a => Z.of_nat (length a) = 2 /\ Forall random_scalar a) ex_A.
Proof. unfold ex_A. repeat constructor; cbn [length]; try lia; apply L_gt_65536 || (unfold random_scalar; small). Qed.

Lemma C17_example : exists n t a self cbuf sbuf cs ss s,
  1 <= n <= 254 /\ 1 <= t <= 255 /\ Z.of_nat (length a) = t /\ Forall random_scalar a /\
  Z.of_nat (length cbuf) = t /\ Z.of_nat (length sbuf) = n /\
  dkg_start toyR true n t a cbuf sbuf = Ok (0, cs, ss) /\
  1 <= self <= n /\ nth_error ss (Z.to_nat (self - 1)) = Some s /\ ristretto_ok toyR /\ s_value s = 26.
Proof.
  exists 3, 2, [5; 7], 3, ex_cbuf, ex_sbuf, (commitments_of toyR [5; 7]), (shares_of [5; 7] 3), (mkShare 3 26).
  split; [lia|]. split; [lia|]. split; [reflexivity|]. split; [exact (proj2 (Forall_inv ex_A_ok))|]. split; [reflexivity|].
  split; [reflexivity|]. split; [apply dkg_start_eq; try reflexivity; try lia; repeat constructor; small|].
  split; [lia|]. split; [vm_compute; reflexivity|]. split; [exact toyR_ok|reflexivity].
Qed.

Lemma C18_example : exists self i cs s, index_ok self /\ i <> self /\ cs <> [] /\ 0 <= s_value s < 2 ^ 255 /\
  dkg_verify_commitment toyR self i cs s = Ok 0 /\ ristretto_ok toyR /\ length cs = 2%nat.
Proof.
  exists 3, 1, (commitments_of toyR [5; 7]), (mkShare 3 26). split; [small|]. split; [lia|]. split; [discriminate|].
  split; [cbn [s_value]; small|]. split; [vm_compute; reflexivity|]. split; [exact toyR_ok|reflexivity].
Qed.

(** C18: the same share with bit 255 set is accepted but adds something else *)
Lemma C18_witness : exists R self i a s, ristretto_ok R /\ index_ok self /\ i <> self /\ Forall random_scalar a /\
  0 <= s_value s < 2 ^ 256 /\
  dkg_verify_commitment R self i (commitments_of R a) s = Ok 0 /\
  dkg_finish [s] <> poly a self mod L.
Proof.
  exists toyR, 3, 1, [5; 7], (mkShare 3 (poly [5; 7] 3 mod L + 2 ^ 255)).
  assert (HF : Forall random_scalar [5; 7]) by exact (proj2 (Forall_inv ex_A_ok)).
  destruct (bit255_accepted toyR toyR_ok 3 1 [5; 7] (poly [5; 7] 3 mod L)) as (H1 & H2 & H3);
    [small|lia|discriminate|exact HF|reflexivity|].
  split; [exact toyR_ok|]. split; [small|]. split; [lia|]. split; [exact HF|]. split; [exact H1|]. split; [exact H2|exact H3].
Qed.

(** C19: dealer 1 publishes a second commitment that does not decode, dealer 2 sends a wrong
    share; recipient 3 names nobody *)
Definition ex_commitments : list (list bytes) :=
  [[ex_alpha; ex_bad]; commitments_of toyR [11; 13]; commitments_of toyR [17; 19]].
Definition ex_received : list share := [mkShare 3 26; mkShare 3 51; mkShare 3 74].

Lemma ex_args : verify_args 3 2 3 ex_commitments ex_received [0; 0; 0].
Proof. unfold verify_args. repeat split; try lia; try small; try reflexivity. repeat constructor. Qed.

Lemma not_matches_of R : ristretto_ok R -> forall self i cs s ret, index_ok self -> i <> self -> cs <> [] ->
  dkg_verify_commitment R self i cs s = Ok ret -> ret <> 0 -> ~ matches R self cs (s_value s).
Proof.
  intros HR self i cs s ret Hs Hne Hcs E Hr Hm.
  destruct (verify_classify R HR self i cs s Hs Hne Hcs) as (ret' & E' & _ & H0 & _). apply H0 in Hm. congruence.
Qed.

Lemma C19_witness : exists R n t self commitments shares fails ret fails',
  ristretto_ok R /\ verify_args n t self commitments shares fails /\
  dkg_verify_commitments R n self commitments shares fails = Ok (ret, fails', 0) /\
  cheated R self commitments shares 2.
Proof.
  exists toyR, 3, 2, 3, ex_commitments, ex_received, [0; 0; 0], (-1), [0; 0; 0].
  split; [exact toyR_ok|]. split; [exact ex_args|]. split; [vm_compute; reflexivity|].
  split; [lia|]. exists (commitments_of toyR [11; 13]), (mkShare 3 51).
  split; [split; [lia|split; reflexivity]|].
  apply (not_matches_of toyR toyR_ok 3 2 _ _ 1); [small|lia|discriminate|vm_compute; reflexivity|lia].
Qed.

Definition ex_commitments2 : list (list bytes) := map (commitments_of toyR) ex_A.

Lemma C19_example : exists n t self commitments shares fails fails',
  verify_args n t self commitments shares fails /\
  dkg_verify_commitments toyR n self commitments shares fails = Ok (1, fails', 1) /\
  firstn 1 fails' = [2] /\ ristretto_ok toyR.
Proof.
  exists 3, 2, 3, ex_commitments2, ex_received, [0; 0; 0], [2; 0; 0].
  split; [unfold verify_args; repeat split; try lia; try small; try reflexivity; repeat constructor|].
  split; [vm_compute; reflexivity|]. split; [reflexivity|exact toyR_ok].
Qed.

(** three dealers, threshold 2, recipients 3 and 1 *)
Lemma C20_example : exists n t commitments parties,
  Forall (recipient_ok toyR n t commitments) parties /\ NoDup (map fst parties) /\
  t <= Z.of_nat (length parties) /\ parties <> [] /\ ristretto_ok toyR /\ n = 3 /\ t = 2.
Proof.
  exists 3, 2, ex_commitments2, [(3, column ex_A 3); (1, column ex_A 1)].
  split; [|split; [repeat constructor; cbn; intuition discriminate|split; [cbn [length]; lia|split; [discriminate|split; [exact toyR_ok|auto]]]]].
  constructor; [|constructor; [|constructor]];
    (apply honest_recipient; [exact toyR_ok|lia|lia|reflexivity|exact ex_A_ok|small]).
Qed.
