(** Concrete cases of C109: server 3 of the six new ones gets something else from dealer 5. *)
From Coq Require Import ZArith Lia List Bool.
From Verif Require Import PrimeL Fq Bytes Res Mem Sodium OprfModel OprfSpec ToprfModel ToprfSpec ToprfProofs DkgModel DkgSpec MpmultModel.
From Verif Require Import MulSpec UpdateSpec Update UpdateExamples SelectSpec Select.
Import ListNotations.
Open Scope list_scope.
Open Scope Z_scope.

Lemma numbered z j e d dsh d' : selective z j e d dsh d' -> map s_index (d_shares d') = zrange 1 (Z.to_nat (d_n d')).
Proof. intros (dealers & dealt & _ & _ & _ & _ & _ & HF). induction HF as [|i s is ss (recv & junk & _ & ->) _ IH]; [reflexivity|]. cbn [map]. rewrite IH. reflexivity. Qed.

Lemma C109_example e : exists K delta d dsh z j d' with_j without_j, shares_key K d /\ shares_key delta (mkDep (d_n d) (d_t d) dsh) /\ selective z j e d dsh d' /\
  quorum (d_t d') (d_shares d') with_j /\ quorum (d_t d') (d_shares d') without_j /\ map s_index with_j = [3; 1] /\ map s_index without_j = [4; 2] /\
  K = 5 /\ delta = 7 /\ d_n d = 5 /\ d_t d = 3 /\ z = 5 /\ j = 3 /\ d_n d' = 6 /\ d_t d' = 2.
Proof.
  pose proof L_gt_65536 as HL. destruct (can_share 7 5 3 [13; 14]) as (e0 & D0); [lia|lia|lia|reflexivity|].
  destruct (can_select 5 3 e 5 7 up0 e0 6 2 [4; 1; 5; 2; 3] up0_key D0) as (d' & N' & T' & U'); [lia|lia|repeat constructor; cbn; intuition discriminate|repeat constructor; cbn; lia|cbn; lia|cbn; tauto|].
  pose proof (numbered _ _ _ _ _ _ U') as EI. rewrite N' in EI. change (zrange 1 (Z.to_nat 6)) with [1; 2; 3; 4; 5; 6] in EI.
  destruct (d_shares d') as [|s1 [|s2 [|s3 [|s4 [|s5 [|s6 [|]]]]]]] eqn:ES; try discriminate EI. cbn [map] in EI. injection EI as I1 I2 I3 I4 _ _.
  exists 5, 7, up0, e0, 5, 3, d', [s3; s1], [s4; s2]. split; [exact up0_key|]. split; [exact D0|]. split; [exact U'|]. rewrite T', ES.
  assert (Q : forall u v, s_index u <> s_index v -> In u [s1; s2; s3; s4; s5; s6] -> In v [s1; s2; s3; s4; s5; s6] -> quorum 2 [s1; s2; s3; s4; s5; s6] [u; v]).
  { intros u v Huv Hu Hv. split; [|split; [|cbn; lia]]. - repeat constructor; cbn; [intros [->|[]]; congruence|tauto]. - intros s [<-|[<-|[]]]; assumption. }
  split; [apply Q; [congruence|cbn; tauto|cbn; tauto]|]. split; [apply Q; [congruence|cbn; tauto|cbn; tauto]|]. cbn [map]. rewrite I1, I2, I3, I4. repeat (split; [reflexivity || exact N'|]). reflexivity.
Qed.

Lemma C109_refutation : ~ (forall z j e K delta d dsh d' qs qs', 0 <= e < L -> shares_key K d -> shares_key delta (mkDep (d_n d) (d_t d) dsh) -> selective z j e d dsh d' ->
  quorum (d_t d') (d_shares d') qs -> quorum (d_t d') (d_shares d') qs' -> dkg_reconstruct qs = dkg_reconstruct qs').
Proof.
  intros H. pose proof L_gt_65536. destruct (C109_example 1) as (K & delta & d & dsh & z & j & d' & q1 & q2 & HK & HD & HS & Q1 & Q2 & M1 & M2 & _ & _ & _ & _ & _ & -> & _).
  pose proof (quorum_key K delta d dsh z 3 1 d' q1 HK HD HS ltac:(lia) Q1) as W1. pose proof (quorum_key K delta d dsh z 3 1 d' q2 HK HD HS ltac:(lia) Q2) as W2.
  assert (E2 : dkg_reconstruct q2 = (K * delta) mod L) by (apply W2; left; rewrite M2; cbn; lia).
  rewrite <- (H z 3 1 K delta d dsh d' q1 q2 ltac:(lia) HK HD HS Q1 Q2) in E2. apply W1 in E2. rewrite M1 in E2. cbn in E2. destruct E2 as [E2|E2]; [tauto|lia].
Qed.
