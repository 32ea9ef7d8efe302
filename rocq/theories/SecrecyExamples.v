(** Concrete cases for C86 and C87. *)
From Coq Require Import ZArith Lia List Bool.
From Coq.Strings Require Import Byte.
From Verif Require Import PrimeL Fq Poly Bytes Res Sodium OprfModel OprfSpec OprfProofs ToprfModel ToprfSpec ToprfProofs ToprfExamples DkgModel DkgSpec DkgProofs MpmultModel SecrecySpec.
Import ListNotations.
Open Scope list_scope.
Open Scope Z_scope.

Lemma C86_answer_example : exists k z alpha P ssid v, ristretto_ok toyR /\ hashes_ok toyH /\ rdec toyR alpha = Some P /\
  0 <= s_value k < 2 ^ 255 /\ 0 <= s_value z < 2 ^ 255 /\ length ssid = 7%nat /\ toprf_3hashtdh toyR toyH true k z alpha ssid = Ok (0, (s_index k, Some v)).
Proof.
  exists (mkShare 5 302), (mkShare 5 40), ex_alpha, (rbase toyR), ex_ssid. eexists. split; [exact toyR_ok|]. split; [exact toyH_ok|]. split; [exact toy_base_dec|].
  split; [cbn [s_value]; lia|]. split; [cbn [s_value]; lia|]. split; [reflexivity|]. vm_compute. reflexivity.
Qed.
Lemma C86_mask_example : exists ssid alpha ssid' alpha' : bytes, Z.of_nat (length ssid) < 2 ^ 16 /\ Z.of_nat (length ssid') < 2 ^ 16 /\
  ssid ++ alpha = ssid' ++ alpha' /\ ssid <> ssid' /\ length alpha = 32%nat.
Proof. exists (zeros 7), (zeros 32), (zeros 8), (zeros 31). repeat split; try reflexivity. discriminate. Qed.
Lemma C86_hide_example : exists secret n t a z a' buf buf' kshares zshares kshares' P h,
  ristretto_ok toyR /\ sharing_params secret n t a buf /\ create_shares secret n t a buf = Ok kshares /\
  sharing_params 0 n t z buf' /\ create_shares 0 n t z buf' = Ok zshares /\
  sharing_params secret n t a' buf /\ create_shares secret n t a' buf = Ok kshares' /\ t - 1 <= n /\ h <> rzero toyR /\
  P <> h /\ a <> a' /\ n = 5 /\ t = 3.
Proof.
  exists 42, 5, 3, ex_a, ex_z, [7; 10], ex_buf, ex_buf, ex_shares, ex_zshares, (shares_of [42; 7; 10] 5), (rsmul toyR 2 (rbase toyR)), (rbase toyR).
  assert (HPz : sharing_params 0 5 3 ex_z ex_buf) by (unfold sharing_params, ex_z, ex_buf; cbn [length repeat]; pose proof L_gt_65536; lia).
  assert (HPa : sharing_params 42 5 3 [7; 10] ex_buf) by (unfold sharing_params, ex_buf; cbn [length repeat]; pose proof L_gt_65536; lia).
  split; [exact toyR_ok|]. split; [exact ex_params|]. split; [exact ex_created|]. split; [exact HPz|].
  split; [destruct HPz as (H1 & H2 & H3 & H4 & H5); apply create_shares_eq; assumption|]. split; [exact HPa|].
  split; [destruct HPa as (H1 & H2 & H3 & H4 & H5); apply create_shares_eq; assumption|]. split; [lia|]. split; [exact (ok_base _ toyR_ok)|].
  split; [vm_compute; discriminate|]. split; [discriminate|]. auto.
Qed.

Lemma C87_dealer_example : exists secret n t (cbuf : list bytes) (sbuf known : list share),
  0 <= secret < L /\ 1 <= n <= 254 /\ 1 <= t <= 255 /\ Z.of_nat (length cbuf) = t /\ Z.of_nat (length sbuf) = n /\
  NoDup (map s_index known) /\ Forall (fun s => 1 <= s_index s <= n /\ 0 <= s_value s < L) known /\ Z.of_nat (length known) = t - 1 /\ t = 3.
Proof.
  exists 1234, 5, 3, (repeat [] 3), ex_buf, [mkShare 5 302; mkShare 2 92]. split; [small|]. split; [lia|]. split; [lia|].
  split; [reflexivity|]. split; [reflexivity|]. split; [repeat constructor; cbn; intuition discriminate|].
  split; [|cbn [length]; lia]. repeat constructor; cbn [s_index s_value]; small.
Qed.
Lemma C87_bind_example : exists n t a a' (cbuf : list bytes) (sbuf : list share) cs sh,
  ristretto_ok toyR /\ 1 <= n <= 254 /\ 1 <= t <= 255 /\ scalars t a /\ scalars t a' /\ Z.of_nat (length cbuf) = t /\ Z.of_nat (length sbuf) = n /\
  dkg_start toyR true n t a cbuf sbuf = Ok (0, cs, sh) /\ a <> a' /\ t = 3.
Proof.
  exists 5, 3, [42; 7; 9], [42; 7; 10], (repeat [] 3), ex_buf, (commitments_of toyR [42; 7; 9]), (shares_of [42; 7; 9] 5). split; [exact toyR_ok|]. split; [lia|]. split; [lia|].
  assert (F : Forall (fun x => 0 <= x < L) [42; 7; 9]) by (repeat constructor; small). 
  split; [split; [reflexivity|exact F]|]. split; [split; [reflexivity|repeat constructor; small]|]. split; [reflexivity|]. split; [reflexivity|].
  split; [apply dkg_start_eq; [lia|lia|reflexivity|exact F|reflexivity|reflexivity]|]. split; [discriminate|reflexivity].
Qed.
Lemma C87_product_example : exists a b peers t (buf known : list share),
  s_index a = s_index b /\ 1 <= t <= peers /\ peers <= 254 /\ Z.of_nat (length buf) = peers /\
  NoDup (map s_index known) /\ Forall (fun s => 1 <= s_index s <= peers /\ 0 <= s_value s < L) known /\ Z.of_nat (length known) = t - 1 /\ t = 3.
Proof.
  exists (mkShare 2 92), (mkShare 2 10), 5, 3, ex_buf, [mkShare 5 302; mkShare 2 92]. split; [reflexivity|]. split; [lia|]. split; [lia|]. split; [reflexivity|].
  split; [repeat constructor; cbn; intuition discriminate|]. split; [|cbn [length]; lia]. repeat constructor; cbn [s_index s_value]; small.
Qed.
