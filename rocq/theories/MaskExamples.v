(** Concrete cases of C113: three of five servers, the last of which has a wrong share of 0. *)
From Coq Require Import ZArith Lia List Bool.
From Verif Require Import PrimeL Fq Bytes Res Mem Sodium OprfModel OprfSpec OprfProofs ToprfModel ToprfSpec ToprfProofs ToprfExamples DkgModel DkgProofs.
From Verif Require Import SecrecySpec UseSpec UpdateSpec MisreportSpec Misreport AskSpec Ask MixExamples MaskSpec Mask.
Import ListNotations.
Open Scope list_scope.
Open Scope Z_scope.

Definition wrong_servers : list (share * share) := combine ex_q [mkShare 5 40; mkShare 2 10; mkShare 4 29].
Definition wrong_parts : list part :=
  map (fun '(k, z) => match toprf_3hashtdh toyR wideH true k z ex_alpha ex_ssid with
                | Ok (_, (i, Some v)) => mkPart i v | _ => mkPart 0 [] end) wrong_servers.

Lemma zq_quorum : quorum 3 ex_zshares ex_zq.
Proof. split; [repeat constructor; cbn; intuition discriminate|]. split; [intros s [<-|[<-|[<-|[]]]]; vm_compute; tauto|cbn; lia]. Qed.
Lemma zq_key : shares_key 0 (mkDep 5 3 ex_zshares).
Proof.
  assert (HPz : sharing_params 0 5 3 ex_z ex_buf) by (unfold sharing_params, ex_z, ex_buf; cbn [length repeat]; pose proof L_gt_65536; lia).
  exists ex_z, ex_buf. split; [exact HPz|]. destruct HPz as (H1 & H2 & H3 & H4 & H5). apply create_shares_eq; assumption.
Qed.
Lemma wrong_masked : map snd wrong_servers = misreported 4 1 ex_zq.
Proof. vm_compute. reflexivity. Qed.
Lemma wrong_numbers : Forall (fun kz => s_index (snd kz) = s_index (fst kz)) wrong_servers.
Proof. repeat constructor. Qed.
Lemma wrong_answers : masked_answers toyR wideH ex_alpha ex_ssid wrong_servers wrong_parts.
Proof. unfold masked_answers, wrong_parts, wrong_servers, ex_q. cbn [combine map]. repeat constructor; vm_compute; discriminate || reflexivity. Qed.
Lemma wrong_any : any_servers wrong_servers.
Proof.
  pose proof L_gt_65536. split; [|split; [|exact wrong_numbers]].
  - split; [repeat constructor; cbn; intuition discriminate|repeat constructor; cbn; lia].
  - split; [repeat constructor; cbn; intuition discriminate|repeat constructor; cbn; lia].
Qed.
Lemma wrong_mask : mask_point toyR wideH ex_ssid ex_alpha <> rzero toyR.
Proof. vm_compute. discriminate. Qed.

Lemma C113_example : exists R H servers alpha P ssid parts (junk : list Z), ristretto_ok R /\ hashes_ok H /\ any_servers servers /\ rdec R alpha = Some P /\ masked_answers R H alpha ssid servers parts /\ length junk = length parts /\
  dkg_reconstruct (map snd servers) <> 0 /\ mask_point R H ssid alpha <> rzero R /\ length servers = 3%nat.
Proof.
  exists toyR, wideH, wrong_servers, ex_alpha, (rbase toyR), ex_ssid, wrong_parts, [0; 0; 0]. split; [exact toyR_ok|]. split; [exact wideH_ok|]. split; [exact wrong_any|]. split; [exact toy_base_dec|]. split; [exact wrong_answers|]. split; [reflexivity|].
  split; [|split; [exact wrong_mask|reflexivity]]. rewrite wrong_masked. intros E. apply (misreported_iff 0 _ _ 4 1 zq_key zq_quorum ltac:(pose proof L_gt_65536; lia)) in E. destruct E as [E|E]; [apply E; cbn; tauto|discriminate].
Qed.

Lemma C113_wrong_example : exists R H K d dz zq j e servers alpha P ssid parts (junk : list Z), ristretto_ok R /\ hashes_ok H /\ shares_key K d /\ quorum (d_t d) (d_shares d) (map fst servers) /\
  shares_key 0 dz /\ quorum (d_t dz) (d_shares dz) zq /\ map snd servers = misreported j e zq /\ 0 < e < L /\ Forall (fun kz => s_index (snd kz) = s_index (fst kz)) servers /\
  rdec R alpha = Some P /\ masked_answers R H alpha ssid servers parts /\ length junk = length parts /\ In j (map s_index (map fst servers)) /\ mask_point R H ssid alpha <> rzero R /\ K = 42 /\ d_n d = 5 /\ d_t d = 3.
Proof.
  exists toyR, wideH, 42, (mkDep 5 3 ex_shares), (mkDep 5 3 ex_zshares), ex_zq, 4, 1, wrong_servers, ex_alpha, (rbase toyR), ex_ssid, wrong_parts, [0; 0; 0].
  split; [exact toyR_ok|]. split; [exact wideH_ok|]. split; [exists ex_a, ex_buf; split; [exact ex_params|exact ex_created]|]. split; [exact ex_quorum|]. split; [exact zq_key|]. split; [exact zq_quorum|]. split; [exact wrong_masked|].
  split; [pose proof L_gt_65536; lia|]. split; [exact wrong_numbers|]. split; [exact toy_base_dec|]. split; [exact wrong_answers|]. split; [reflexivity|]. split; [cbn; tauto|]. split; [exact wrong_mask|]. auto.
Qed.
