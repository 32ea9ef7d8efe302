(** Concrete cases of C110: of five servers, all report their share of delta, and server 4 a wrong one. *)
From Coq Require Import ZArith Lia List Bool.
From Coq.Strings Require Import Byte.
From Verif Require Import PrimeL Fq Bytes Res Mem Sodium OprfModel OprfSpec OprfProofs ToprfModel ToprfSpec ToprfProofs ToprfExamples DkgModel DkgSpec MpmultModel.
From Verif Require Import UseSpec Use UseExamples MulSpec MulUse UpdateSpec Update UpdateExamples MisreportSpec Misreport.
Import ListNotations.
Open Scope list_scope.
Open Scope Z_scope.

Lemma C110_example : exists K delta d dsh d' qs j x N N', shares_key K d /\ K = 5 /\ delta = 7 /\ d_n d = 5 /\ d_t d = 3 /\ shares_key delta (mkDep (d_n d) (d_t d) dsh) /\ update d dsh d' /\
  d_n d' = 4 /\ d_t d' = 1 /\ quorum (d_t d) dsh qs /\ j = 4 /\ In j (map s_index qs) /\ (length x <= 255)%nat /\ HashToGroup toyR toyH x <> rzero toyR /\
  keeps toyR toyH d x N /\ keeps toyR toyH d' x N' /\ ristretto_ok toyR /\ hashes_ok toyH.
Proof.
  pose proof L_gt_65536 as HL.
  destruct (can_share 7 5 3 [13; 14]) as (e0 & D0); [lia|lia|lia|reflexivity|].
  destruct (can_update 5 7 up0 e0 4 1 [5; 1; 2; 4; 3] up0_key D0) as (d1 & N1 & T1 & U1); [lia|lia|repeat constructor; cbn; intuition discriminate|repeat constructor; cbn; lia|cbn; lia|].
  pose proof (updated _ _ _ _ _ up0_key D0 U1) as K1. rewrite (Z.mod_small (5 * 7)) in K1 by lia. destruct input_ok as (I1 & I2 & _).
  destruct (can_ask toyR toyH 5 up0 _ ex_pwd toyR_ok toyH_ok up0_key ltac:(lia) (all_report _ _ up0_key ltac:(cbn; lia))) as (N & HN); [repeat constructor; cbn; lia|exact I1|exact I2|].
  destruct (can_ask toyR toyH (5 * 7) d1 _ ex_pwd toyR_ok toyH_ok K1 ltac:(lia) (all_report _ _ K1 ltac:(lia))) as (N' & HN'); [|exact I1|exact I2|].
  { eapply Forall_impl; [|exact (one_needed _ _ K1 T1)]. cbv beta. intros s ->. lia. }
  pose proof (all_report _ _ D0 ltac:(cbn; lia)) as Q0. cbn [d_t d_shares] in Q0. destruct (numbers_held _ _ 4 D0 ltac:(cbn; lia)) as (s & S1 & S2). cbn [d_shares] in S1.
  exists 5, 7, up0, e0, d1, e0, 4, ex_pwd, N, N'. split; [exact up0_key|]. do 4 (split; [reflexivity|]). split; [exact D0|]. split; [exact U1|]. split; [exact N1|]. split; [exact T1|]. split; [exact Q0|].
  split; [reflexivity|]. split; [rewrite <- S2; apply in_map, S1|]. split; [exact I1|]. split; [exact I2|]. split; [exact HN|]. split; [exact HN'|]. split; [exact toyR_ok|exact toyH_ok].
Qed.

Lemma C110_refutation : ~ (forall R H K delta d dsh d' qs j e x N N', ristretto_ok R -> hashes_ok H -> shares_key K d -> K <> 0 -> delta <> 0 -> shares_key delta (mkDep (d_n d) (d_t d) dsh) -> update d dsh d' ->
  quorum (d_t d) dsh qs -> 0 <= e < L -> (length x <= 255)%nat -> HashToGroup R H x <> rzero R -> keeps R H d x N -> keeps R H d' x N' ->
  bring_up_to_date R [dkg_reconstruct (misreported j e qs)] N = Some N' \/ bring_up_to_date R [dkg_reconstruct (misreported j e qs)] N = None).
Proof.
  intros HC. pose proof L_gt_65536 as HL. pose proof L_lt_2_255 as L255. destruct C110_example as (K & delta & d & dsh & d' & qs & j & x & N & N' & HK & EK & ED & _ & _ & HD & HU & _ & _ & HQ & _ & Hj & Hx & Hh & H1 & H2 & HR & HH).
  destruct (quorum_numbers _ _ _ HD HQ) as (ND & NR). destruct (misreport_chosen _ j ND NR Hj 1 ltac:(lia)) as (e & He & HM). specialize (HM delta _ qs HD HQ eq_refl).
  assert (E8 : dkg_reconstruct (misreported j e qs) = 8) by (rewrite HM, ED, Z.mod_small by lia; reflexivity).
  destruct (HC toyR toyH K delta d dsh d' qs j e x N N' HR HH HK ltac:(lia) ltac:(lia) HD HU HQ He Hx Hh H1 H2) as [E|E].
  - apply (client_lost toyR toyH K delta d dsh d' qs j e x N N' HR HH HK ltac:(lia) ltac:(lia) HD HU HQ He Hx Hh H1 H2) in E.
    apply (misreported_iff delta (mkDep (d_n d) (d_t d) dsh) qs j e HD HQ He) in E. lia.
  - rewrite E8, (kept toyR toyH K d x N HR HH HK ltac:(lia) Hx Hh H1) in E. destruct (up_to_date toyR [8] HR K (HashToGroup toyR toyH x) ltac:(lia) Hh) as (EU & _); [repeat constructor; lia|]. rewrite EU in E. discriminate E.
Qed.
