(** A concrete case of C105: five servers, three needed; then six and two; then four and one. *)
From Coq Require Import ZArith Lia List Bool Permutation.
From Coq.Strings Require Import Byte.
From Verif Require Import PrimeL Fq Bytes Res Mem Sodium OprfModel OprfSpec OprfProofs ToprfModel ToprfSpec ToprfProofs ToprfExamples DkgModel DkgSpec DkgProofs MpmultModel MpmultProofs.
From Verif Require Import UseSpec Use UseExamples MulSpec MulUse UpdateSpec Update.
Import ListNotations.
Open Scope list_scope.
Open Scope Z_scope.

Lemma can_share K n t (a : list Z) : 0 <= K < L -> 1 <= n <= 254 -> 1 <= t <= 255 -> Z.of_nat (length a) = t - 1 -> exists shares, shares_key K (mkDep n t shares).
Proof.
  intros HK Hn Ht Ha. assert (SP : sharing_params K n t a (repeat (mkShare 0 0) (Z.to_nat n))) by (repeat split; try lia; rewrite repeat_length; lia).
  destruct (create_shares_full _ _ _ _ _ SP) as (sh & E & _). exists sh, a, (repeat (mkShare 0 0) (Z.to_nat n)). split; [exact SP|exact E].
Qed.

Lemma all_report K d : shares_key K d -> d_t d <= d_n d -> quorum (d_t d) (d_shares d) (d_shares d).
Proof.
  intros (a & buf & SP & E) Ht. pose proof SP as (_ & Hn & _). destruct (create_shares_full _ _ _ _ _ SP) as (sh & E' & Ls & Hi & _). assert (sh = d_shares d) by congruence. subst sh.
  split; [|split; [apply incl_refl|lia]]. apply NoDup_nth_error. intros i j Hl Eij.
  assert (Hj : (j < length (d_shares d))%nat) by (apply nth_error_Some; rewrite <- Eij; apply nth_error_Some; exact Hl).
  pose proof (Hi (Z.of_nat i + 1) ltac:(lia)) as E1. pose proof (Hi (Z.of_nat j + 1) ltac:(lia)) as E2.
  replace (Z.to_nat (Z.of_nat i + 1 - 1)) with i in E1 by lia. replace (Z.to_nat (Z.of_nat j + 1 - 1)) with j in E2 by lia.
  rewrite Eij, E2 in E1. injection E1 as E1 _. lia.
Qed.

Lemma report_delta delta d : shares_key delta d -> d_t d <= d_n d -> dkg_reconstruct (d_shares d) = delta.
Proof. intros HD Ht. pose proof (all_report _ _ HD Ht) as Q. destruct HD as (a & b & SP & E). eapply reconstruct_quorum; [exact SP|exact E|exact Q]. Qed.

Lemma can_ask R H K d qs x : ristretto_ok R -> hashes_ok H -> shares_key K d -> K <> 0 -> quorum (d_t d) (d_shares d) qs -> Forall (fun s => s_value s <> 0) qs ->
  (length x <= 255)%nat -> HashToGroup R H x <> rzero R -> exists N, keeps R H d x N.
Proof.
  intros HR HH (a & buf & SP & E) HK Hq HV Hx Hh. assert (Hr : random_scalar 77) by (apply small_random_scalar; lia).
  destruct (created_serves R H HR HH K _ _ a buf _ qs SP E Hq HK x 77 Hx Hh Hr) as (alpha & B & HE & HM & _).
  assert (G : forall l, incl l qs -> exists parts, with_mult R alpha l parts).
  { induction l as [|s l IH]; intros Hl; [exists []; constructor|]. destruct IH as (parts & HP); [intros y Hy; apply Hl; right; exact Hy|].
    assert (Hs : In s qs) by (apply Hl; left; reflexivity). destruct (HE s Hs (proj1 (Forall_forall _ _) HV s Hs)) as (v & w & Ev & _).
    exists (mkPart (s_index s) v :: parts). constructor; [split; [reflexivity|exact Ev]|exact HP]. }
  destruct (G qs (incl_refl _)) as (parts & HP). destruct (HM parts (repeat 0 (length parts)) HP) as (beta & T & N & U & _); [apply repeat_length|].
  exists N, 77, alpha, qs, parts, beta. split; [exact Hr|]. split; [exact B|]. split; [exact Hq|]. split; [exact U|]. left. exists (repeat 0 (length parts)). split; [exact HP|]. split; [apply repeat_length|exact T].
Qed.

(** with the threshold 1 every share is the key *)
Lemma one_needed K d : shares_key K d -> d_t d = 1 -> Forall (fun s => s_value s = K) (d_shares d).
Proof.
  intros (a & buf & SP & E) Ht. destruct (create_shares_full _ _ _ _ _ SP) as (sh & E' & Ls & Hi & _). assert (sh = d_shares d) by congruence. subst sh.
  destruct SP as (HK & Hn & _ & La & _). rewrite Ht in La. destruct a; [|cbn in La; lia]. apply Forall_forall. intros s Hs. apply In_nth_error in Hs. destruct Hs as (i & Es).
  assert (Hj : (i < length (d_shares d))%nat) by (apply nth_error_Some; congruence).
  specialize (Hi (Z.of_nat i + 1) ltac:(lia)). replace (Z.to_nat (Z.of_nat i + 1 - 1)) with i in Hi by lia. rewrite Es in Hi. injection Hi as ->. cbn [s_value poly]. rewrite Z.mul_0_r, Z.add_0_r. apply Z.mod_small. exact HK.
Qed.

Definition up0 := mkDep 5 3 [mkShare 1 28; mkShare 2 75; mkShare 3 146; mkShare 4 241; mkShare 5 360].
Lemma up0_key : shares_key 5 up0.
Proof. exists [11; 12], (repeat (mkShare 0 0) 5). split; [repeat split; try reflexivity; try (cbn; lia); vm_compute; congruence|vm_compute; reflexivity]. Qed.

Lemma C105_example : exists k d0 deltas d x N N', shares_key k d0 /\ k = 5 /\ d_n d0 = 5 /\ d_t d0 = 3 /\ history d0 deltas d /\ deltas = [7; 9] /\ d_n d = 4 /\ d_t d = 1 /\
  new_key k deltas = 315 /\ (length x <= 255)%nat /\ HashToGroup toyR toyH x <> rzero toyR /\ keeps toyR toyH d0 x N /\ keeps toyR toyH d x N' /\ ristretto_ok toyR /\ hashes_ok toyH.
Proof.
  pose proof L_gt_65536 as HL.
  destruct (can_share 7 5 3 [13; 14]) as (e0 & D0); [lia|lia|lia|reflexivity|].
  destruct (can_update 5 7 up0 e0 6 2 [5; 1; 2; 4; 3] up0_key D0) as (d1 & N1 & T1 & U1); [lia|lia|repeat constructor; cbn; intuition discriminate|repeat constructor; cbn; lia|cbn; lia|].
  pose proof (updated _ _ _ _ _ up0_key D0 U1) as K1.
  destruct (can_share 9 6 2 [15]) as (e1 & D1); [lia|lia|lia|reflexivity|]. assert (D1' : shares_key 9 (mkDep (d_n d1) (d_t d1) e1)) by (rewrite N1, T1; exact D1).
  destruct (can_update ((5 * 7) mod L) 9 d1 e1 4 1 [6; 1; 2] K1 D1') as (d2 & N2 & T2 & U2); [lia|lia|repeat constructor; cbn; intuition discriminate|rewrite N1; repeat constructor; lia|rewrite T1; cbn; lia|].
  assert (HH : history up0 [7; 9] d2).
  { assert (H1 : history up0 [7] d1).
    { pose proof (report_delta _ _ D0) as E. cbn [d_t d_n d_shares] in E. specialize (E ltac:(lia)). change [7] with ([] ++ [7]). rewrite <- E.
      eapply h_update; [apply h_start|exact D0|exact (all_report _ _ D0 ltac:(cbn; lia))|exact U1]. }
    pose proof (report_delta _ _ D1') as E. cbn [d_t d_n d_shares] in E. specialize (E ltac:(lia)). change [7; 9] with ([7] ++ [9]). rewrite <- E.
    eapply h_update; [exact H1|exact D1'|exact (all_report _ _ D1' ltac:(cbn [d_t d_n]; lia))|exact U2]. }
  assert (K2 : new_key 5 [7; 9] = 315) by (unfold new_key; cbn [fold_left]; rewrite (Z.mod_small (5 * 7)) by lia; rewrite Z.mod_small by lia; reflexivity).
  pose proof (history_key _ _ _ _ up0_key HH) as HK. rewrite K2 in HK. destruct input_ok as (I1 & I2 & _).
  destruct (can_ask toyR toyH 5 up0 _ ex_pwd toyR_ok toyH_ok up0_key ltac:(lia) (all_report _ _ up0_key ltac:(cbn; lia))) as (N & HN); [repeat constructor; cbn; lia|exact I1|exact I2|].
  destruct (can_ask toyR toyH 315 d2 _ ex_pwd toyR_ok toyH_ok HK ltac:(lia) (all_report _ _ HK ltac:(lia))) as (N' & HN'); [|exact I1|exact I2|].
  { eapply Forall_impl; [|exact (one_needed _ _ HK T2)]. cbv beta. intros s ->. lia. }
  exists 5, up0, [7; 9], d2, ex_pwd, N, N'. split; [exact up0_key|]. do 3 (split; [reflexivity|]). split; [exact HH|]. split; [reflexivity|]. split; [exact N2|]. split; [exact T2|]. split; [exact K2|].
  split; [exact I1|]. split; [exact I2|]. split; [exact HN|]. split; [exact HN'|]. split; [exact toyR_ok|exact toyH_ok].
Qed.
