(** Concrete cases of C108. *)
From Coq Require Import ZArith Lia List Bool.
From Verif Require Import PrimeL Fq Bytes Res Mem Sodium OprfModel OprfSpec ToprfModel ToprfSpec ToprfProofs DkgModel DkgSpec MpmultModel.
From Verif Require Import MulSpec UpdateSpec Update UpdateExamples DeviateSpec Deviate.
Import ListNotations.
Open Scope list_scope.
Open Scope Z_scope.

Lemma C108_example e : exists K delta d dsh dealers z d', shares_key K d /\ shares_key delta (mkDep (d_n d) (d_t d) dsh) /\ tampered z e dealers d dsh d' /\ NoDup dealers /\
  Forall (fun i => 1 <= i <= 254) dealers /\ In z dealers /\ K = 5 /\ delta = 7 /\ d_n d = 5 /\ d_t d = 3 /\ dealers = [4; 1; 5; 2; 3] /\ z = 5 /\ d_n d' = 6 /\ d_t d' = 2.
Proof.
  pose proof L_gt_65536 as HL. destruct (can_share 7 5 3 [13; 14]) as (e0 & D0); [lia|lia|lia|reflexivity|].
  destruct (can_tamper 5 e 5 7 up0 e0 6 2 [4; 1; 5; 2; 3] up0_key D0) as (d' & N' & T' & U'); [lia|lia|repeat constructor; cbn; intuition discriminate|repeat constructor; cbn; lia|cbn; lia|].
  exists 5, 7, up0, e0, [4; 1; 5; 2; 3], 5, d'. split; [exact up0_key|]. split; [exact D0|]. split; [exact U'|]. split; [repeat constructor; cbn; intuition discriminate|].
  split; [repeat constructor; lia|]. split; [cbn; tauto|]. repeat (split; [assumption || reflexivity|]). exact T'.
Qed.

Lemma C108_refutation : ~ (forall z e K delta d dsh dealers d' K', 0 <= e < L -> shares_key K d -> shares_key delta (mkDep (d_n d) (d_t d) dsh) -> In z dealers ->
  tampered z e dealers d dsh d' -> shares_key K' d' -> K' = (K * delta) mod L).
Proof.
  intros H. pose proof L_gt_65536. destruct (C108_example 1) as (K & delta & d & dsh & dealers & z & d' & HK & HD & HU & _ & HR & Hz & _).
  destruct (tampered_iff dealers z 1 K delta d dsh d' HR Hz ltac:(lia) HK HD HU) as (K' & S' & I'). assert (1 = 0); [|lia]. apply I'.
  eapply (H z 1); [lia|exact HK|exact HD|exact Hz|exact HU|exact S'].
Qed.
