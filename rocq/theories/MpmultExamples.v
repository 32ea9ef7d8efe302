(** Concrete cases for the multiplication properties *)
From Coq Require Import ZArith Lia List Bool.
From Verif Require Import PrimeL Fq Bytes Res Sodium ToprfModel ToprfSpec ToprfProofs DkgModel DkgProofs MpmultModel MpmultProofs.
From Verif Require Import ToprfExamples.
Import ListNotations.
Open Scope list_scope.
Open Scope Z_scope.

Lemma C21_example : exists indexes, indexes <> [] /\ NoDup indexes /\ Forall u8 indexes /\ indexes = [7; 0; 255; 3].
Proof.
  exists [7; 0; 255; 3]. split; [discriminate|]. split; [|split; [repeat constructor; small|reflexivity]].
  repeat constructor; cbn [In]; lia.
Qed.

Definition exm_A : list share := [mkShare 1 7; mkShare 2 9; mkShare 3 11].
Definition exm_B : list share := [mkShare 1 4; mkShare 2 5; mkShare 3 6].
Definition exm_buf : list share := repeat (mkShare 0 0) 3.
Definition exm_d3 : list share := [mkShare 1 67; mkShare 2 68; mkShare 3 69].
Definition exm_d1 : list share := [mkShare 1 30; mkShare 2 32; mkShare 3 34].
Definition exm_d2 : list share := [mkShare 1 48; mkShare 2 51; mkShare 3 54].

Lemma C22_example : exists secA secB nA tA n t rA rB bufA bufB ashares bshares dealers dealt parties,
  sharing_params secA nA tA rA bufA /\ sharing_params secB nA tA rB bufB /\
  create_shares secA nA tA rA bufA = Ok ashares /\ create_shares secB nA tA rB bufB = Ok bshares /\
  NoDup dealers /\ 2 * tA - 1 <= Z.of_nat (length dealers) /\ 1 <= n <= 254 /\
  Forall2 (fun d shs => exists sa sb r buf, In sa ashares /\ In sb bshares /\ s_index sa = d /\ s_index sb = d /\
     Z.of_nat (length r) = t - 1 /\ Z.of_nat (length buf) = n /\
     mpc_mul_start sa sb n t r buf = Ok (0, shs)) dealers dealt /\
  Forall (fun p => 1 <= fst p <= n /\
     Forall2 (fun shs s => nth_error shs (Z.to_nat (fst p - 1)) = Some s) dealt (snd p)) parties /\
  NoDup (map fst parties) /\ t <= Z.of_nat (length parties) /\ tA = 2 /\ (length parties = 2)%nat.
Proof.
  exists 5, 3, 3, 2, 3, 2, [2], [1], exm_buf, exm_buf, exm_A, exm_B, [3; 1; 2], [exm_d3; exm_d1; exm_d2].
  exists [(3, [mkShare 3 69; mkShare 3 34; mkShare 3 54]); (1, [mkShare 1 67; mkShare 1 30; mkShare 1 48])].
  split; [unfold sharing_params, exm_buf; cbn [length repeat]; small|].
  split; [unfold sharing_params, exm_buf; cbn [length repeat]; small|].
  split; [vm_compute; reflexivity|]. split; [vm_compute; reflexivity|].
  split; [repeat constructor; cbn [In]; lia|]. split; [cbn; lia|]. split; [lia|].
  split.
  - constructor; [exists (mkShare 3 11), (mkShare 3 6), [1], exm_buf|constructor; [exists (mkShare 1 7), (mkShare 1 4), [2], exm_buf|
      constructor; [exists (mkShare 2 9), (mkShare 2 5), [3], exm_buf|constructor]]];
    (split; [unfold exm_A; cbn; tauto|]; split; [unfold exm_B; cbn; tauto|]; split; [reflexivity|]; split; [reflexivity|];
     split; [reflexivity|]; split; [reflexivity|vm_compute; reflexivity]).
  - split; [|split; [cbn [map fst]; repeat constructor; cbn [In]; lia|split; [cbn; lia|split; reflexivity]]].
    repeat constructor; cbn [fst]; lia.
Qed.

Lemma C23_example : exists a b peers t (r : list Z) (buf : list share),
  ~ (s_index a <> s_index b \/ peers < t \/ t = 0) /\ 0 <= t /\ peers <= 254 /\ Z.of_nat (length r) = t - 1 /\
  Z.of_nat (length buf) = peers /\ t = 2.
Proof.
  exists (mkShare 3 11), (mkShare 3 6), 3, 2, [1], exm_buf. cbn [s_index length]. unfold exm_buf. cbn [repeat length]. lia.
Qed.
