(** Concrete cases of C111: three servers with shares that no sharing with a threshold below three gives. *)
From Coq Require Import ZArith Lia List Bool.
From Verif Require Import PrimeL Fq Bytes Res Mem Sodium OprfModel OprfSpec OprfProofs ToprfModel ToprfSpec ToprfProofs ToprfExamples DkgModel DkgSpec DkgProofs MpmultModel.
From Verif Require Import UseSpec Use UseExamples UpdateSpec Update UpdateExamples MisreportSpec Misreport AskSpec Ask.
Import ListNotations.
Open Scope list_scope.
Open Scope Z_scope.

Definition odd_shares : list share := [mkShare 200 40407; mkShare 3 22; mkShare 7 70].

Lemma odd_any : any_shares odd_shares.
Proof. pose proof L_gt_65536. split; [repeat constructor; cbn; intuition discriminate|repeat constructor; cbn; lia]. Qed.

Lemma odd_key : dkg_reconstruct odd_shares = 7.
Proof.
  pose proof L_gt_65536. rewrite (dkg_reconstruct_spec [7; 2; 1]); [cbn [poly]; rewrite Z.mod_small by lia; lia|apply odd_any|repeat constructor; unfold index_ok; cbn; lia|cbn; lia|].
  intros s [<-|[<-|[<-|[]]]]; reflexivity.
Qed.

Lemma C111_example : exists R H n t qs x r N, ristretto_ok R /\ hashes_ok H /\ any_shares qs /\ (length x <= 255)%nat /\ HashToGroup R H x <> rzero R /\ random_scalar r /\ asks R H n t qs x r N /\
  qs = [mkShare 200 40407; mkShare 3 22; mkShare 7 70] /\ dkg_reconstruct qs = 7.
Proof.
  destruct input_ok as (I1 & I2 & I3). destruct (can_ask_any toyR toyH 5 2 odd_shares ex_pwd 77 toyR_ok toyH_ok odd_any) as (N & HN); [repeat constructor; cbn; lia|rewrite odd_key; lia|exact I1|exact I2|exact I3|].
  exists toyR, toyH, 5, 2, odd_shares, ex_pwd, 77, N. split; [exact toyR_ok|]. split; [exact toyH_ok|]. split; [exact odd_any|]. do 3 (split; [assumption|]). split; [exact HN|]. split; [reflexivity|exact odd_key].
Qed.

(** five servers, three needed, all asked, and the fourth has another share *)
Lemma C111_wrong_example : exists R H K d qs j e n t x r N, ristretto_ok R /\ hashes_ok H /\ shares_key K d /\ quorum (d_t d) (d_shares d) qs /\ 0 < e < L /\ (length x <= 255)%nat /\ HashToGroup R H x <> rzero R /\
  random_scalar r /\ asks R H n t (misreported j e qs) x r N /\ In j (map s_index qs) /\ K = 5 /\ d_n d = 5 /\ d_t d = 3 /\ j = 4.
Proof.
  pose proof L_gt_65536 as HL. destruct input_ok as (I1 & I2 & I3). pose proof (all_report _ _ up0_key ltac:(cbn; lia)) as Q0.
  assert (Hj : In 4 (map s_index (d_shares up0))) by (cbn; tauto).
  destruct (quorum_numbers _ _ _ up0_key Q0) as (ND & NR). destruct (misreport_chosen _ 4 ND NR Hj 1 ltac:(lia)) as (e & He & HM). specialize (HM 5 _ _ up0_key Q0 eq_refl).
  assert (E6 : dkg_reconstruct (misreported 4 e (d_shares up0)) = 6) by (rewrite HM, Z.mod_small by lia; reflexivity).
  assert (E0 : e <> 0). { intros E. assert (dkg_reconstruct (misreported 4 e (d_shares up0)) = 5) by (apply (misreported_iff 5 up0 _ 4 e up0_key Q0 He); right; exact E). lia. }
  destruct (Z.eq_dec ((241 + e) mod L) 0) as [EZ|EZ].
  - (* then 1 more is added *)
    assert (Ee : e = L - 241) by (apply Z.mod_divide in EZ; [|lia]; destruct EZ as (q & E); assert (q = 1) by nia; lia).
    assert (HX : exists c e', 0 < e' < L /\ (241 + e') mod L <> 0 /\ c <> 0 /\ dkg_reconstruct (misreported 4 e' (d_shares up0)) = c).
    { destruct (misreport_chosen _ 4 ND NR Hj 2 ltac:(lia)) as (e2 & He2 & HM2). specialize (HM2 5 _ _ up0_key Q0 eq_refl). rewrite Z.mod_small in HM2 by lia.
      assert (N2 : e2 <> e) by (intros ->; lia). assert (N0 : e2 <> 0). { intros E. assert (dkg_reconstruct (misreported 4 e2 (d_shares up0)) = 5) by (apply (misreported_iff 5 up0 _ 4 e2 up0_key Q0 He2); right; exact E). lia. }
      exists (5 + 2), e2. split; [lia|]. split; [|split; [lia|exact HM2]]. intros E. apply N2. rewrite Ee. apply Z.mod_divide in E; [|lia]. destruct E as (q & E). assert (q = 1) by nia. lia. }
    destruct HX as (c & e' & He' & Z' & C0 & EC).
    destruct (can_ask_any toyR toyH 5 3 (misreported 4 e' (d_shares up0)) ex_pwd 77 toyR_ok toyH_ok (misreported_any _ _ _ _ _ up0_key Q0)) as (N & HN); [repeat constructor; cbn; lia|lia|exact I1|exact I2|exact I3|].
    exists toyR, toyH, 5, up0, (d_shares up0), 4, e', 5, 3, ex_pwd, 77, N. split; [exact toyR_ok|]. split; [exact toyH_ok|]. split; [exact up0_key|]. split; [exact Q0|]. repeat (split; [assumption || lia|]). repeat (split; [reflexivity|]). reflexivity.
  - destruct (can_ask_any toyR toyH 5 3 (misreported 4 e (d_shares up0)) ex_pwd 77 toyR_ok toyH_ok (misreported_any _ _ _ _ _ up0_key Q0)) as (N & HN); [repeat constructor; cbn; lia|lia|exact I1|exact I2|exact I3|].
    exists toyR, toyH, 5, up0, (d_shares up0), 4, e, 5, 3, ex_pwd, 77, N. split; [exact toyR_ok|]. split; [exact toyH_ok|]. split; [exact up0_key|]. split; [exact Q0|]. repeat (split; [assumption || lia|]). repeat (split; [reflexivity|]). reflexivity.
Qed.
