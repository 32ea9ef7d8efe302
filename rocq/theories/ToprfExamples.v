(** Concrete cases and witnesses for the threshold properties *)
From Coq Require Import ZArith Lia List Bool Permutation Sorting.Sorted.
From Coq.Strings Require Import Byte.
From Verif Require Import PrimeL Fq Poly Bytes Res Sodium OprfModel OprfSpec OprfProofs.
From Verif Require Import ToprfModel ToprfSpec ToprfProofs DkgModel DkgSpec DkgProofs.
Import ListNotations.
Open Scope list_scope.
Open Scope Z_scope.

Ltac small := pose proof L_gt_65536; pose proof L_lt_2_255; unfold index_ok, u8, random_scalar in *; cbn [length] in *; lia.

(** the sharing used in the examples: 5 shares, threshold 3, secret 42 *)
Definition ex_buf : list share := repeat (mkShare 0 0) 5.
Definition ex_a : list Z := [7; 9].
Definition ex_shares : list share := shares_of (42 :: ex_a) 5.
Definition ex_q : list share := [mkShare 5 302; mkShare 2 92; mkShare 4 214].

Lemma ex_params : sharing_params 42 5 3 ex_a ex_buf.
Proof. unfold sharing_params, ex_a, ex_buf. cbn [length repeat]. pose proof L_gt_65536. lia. Qed.

Lemma ex_created : create_shares 42 5 3 ex_a ex_buf = Ok ex_shares.
Proof. destruct ex_params as (H1 & H2 & H3 & H4 & H5). apply create_shares_eq; assumption. Qed.

Lemma ex_quorum : quorum 3 ex_shares ex_q.
Proof.
  split; [|split].
  - unfold ex_q. repeat constructor; cbn [In]; intuition discriminate.
  - intros s Hs. vm_compute in Hs. vm_compute. tauto.
  - unfold ex_q. cbn [length]. lia.
Qed.

Lemma C07_example : exists secret n t a buf, sharing_params secret n t a buf /\ n = 5 /\ t = 3.
Proof. exists 42, 5, 3, ex_a, ex_buf. split; [exact ex_params|auto]. Qed.

Lemma C08_example : exists secret n t a buf shares qs, sharing_params secret n t a buf /\
  create_shares secret n t a buf = Ok shares /\ quorum t shares qs /\ qs <> shares /\ t = 3.
Proof.
  exists 42, 5, 3, ex_a, ex_buf, ex_shares, ex_q.
  split; [exact ex_params|]. split; [exact ex_created|]. split; [exact ex_quorum|]. split; [vm_compute; discriminate|reflexivity].
Qed.

Lemma C09_example : exists secret n t (buf known : list share),
  0 <= secret < L /\ 1 <= n <= 254 /\ 1 <= t <= 255 /\ Z.of_nat (length buf) = n /\
  NoDup (map s_index known) /\ Forall (fun s => 1 <= s_index s <= n /\ 0 <= s_value s < L) known /\
  Z.of_nat (length known) = t - 1 /\ t = 3.
Proof.
  exists 1234, 5, 3, ex_buf, [mkShare 5 302; mkShare 2 92]. split; [small|]. split; [lia|]. split; [lia|].
  split; [reflexivity|]. split; [repeat constructor; cbn; intuition discriminate|].
  split; [|cbn [length]; lia]. repeat constructor; cbn [s_index s_value]; small.
Qed.

(** the generator never draws 0, so with threshold 2 no single share equals the secret *)
Lemma nonzero_coefficient_leak secret n a1 buf shares s :
  0 <= secret < L -> 1 <= n <= 254 -> random_scalar a1 -> Z.of_nat (length buf) = n ->
  create_shares secret n 2 [a1] buf = Ok shares -> In s shares -> s_value s <> secret.
Proof.
  intros Hs Hn Ha Hb HC Hin E. rewrite create_shares_eq in HC by (assumption || reflexivity || lia). injection HC as <-.
  apply shares_of_In in Hin; [|lia]. destruct Hin as (Hi & Hv). rewrite E in Hv.
  apply (f_equal of_Z) in Hv. rewrite of_Z_mod in Hv. cbn [poly] in Hv. rewrite Z.mul_0_r, Z.add_0_r, of_Z_add, of_Z_mul in Hv.
  assert (E0 : (of_Z (s_index s) * of_Z a1)%fq = 0%fq).
  { transitivity ((of_Z secret + of_Z (s_index s) * of_Z a1) - of_Z secret)%fq; [ring|]. rewrite <- Hv. ring. }
  apply fmul_integral in E0. destruct E0 as [E0|E0].
  - revert E0. apply of_Z_index_neq_0. unfold index_ok. lia.
  - revert E0. apply random_scalar_neq_0. assumption.
Qed.

Lemma toy_base_dec : rdec toyR (renc toyR (rbase toyR)) = Some (rbase toyR).
Proof. apply (ok_dec_enc _ toyR_ok). Qed.

Definition ex_alpha : bytes := renc toyR (rbase toyR).

Lemma C10_example : exists secret n t a buf shares qs parts alpha P (junk : list Z),
  sharing_params secret n t a buf /\ create_shares secret n t a buf = Ok shares /\
  quorum t shares qs /\ rdec toyR alpha = Some P /\
  Forall2 (fun s p => p_index p = s_index s /\ oprf_Evaluate toyR (s_value s) alpha = (0, Some (p_value p))) qs parts /\
  length junk = length parts /\ qs <> shares /\ ristretto_ok toyR.
Proof.
  exists 42, 5, 3, ex_a, ex_buf, ex_shares, ex_q.
  exists (map (fun s => mkPart (s_index s) (le_bytes 32 (s_value s))) ex_q), ex_alpha, (rbase toyR), [0;0;0].
  split; [exact ex_params|]. split; [exact ex_created|]. split; [exact ex_quorum|].
  split; [exact toy_base_dec|]. split; [|split; [reflexivity|split; [vm_compute; discriminate|exact toyR_ok]]].
  repeat constructor; vm_compute; reflexivity.
Qed.

Lemma C11_example : exists parts parts' : list part,
  Permutation parts parts' /\ parts <> parts' /\ Forall (fun p => u8 (p_index p)) parts /\
  exists p, In p parts /\ rdec toyR (p_value p) = None.
Proof.
  exists [mkPart 5 ex_alpha; mkPart 2 (zeros 31)], [mkPart 2 (zeros 31); mkPart 5 ex_alpha].
  split; [apply perm_swap|]. split; [intros E; injection E; lia|].
  split; [repeat constructor; cbn; lia|]. exists (mkPart 2 (zeros 31)). split; [right; left; reflexivity|]. vm_compute. reflexivity.
Qed.

Lemma parts_exist (f : share -> part -> Prop) qs : Forall (fun s => exists p, f s p) qs -> exists parts, Forall2 f qs parts.
Proof.
  induction 1 as [|s qs (p & Hp) _ (ps & IH)]; [exists []; constructor|]. exists (p :: ps). constructor; assumption.
Qed.

Lemma toy_base_neq_0 : rbase toyR <> rzero toyR.
Proof. apply (ok_base _ toyR_ok). Qed.

Lemma C12_example : exists secret n t a buf shares qs parts alpha P,
  sharing_params secret n t a buf /\ create_shares secret n t a buf = Ok shares /\
  quorum t shares qs /\ rdec toyR alpha = Some P /\
  Forall2 (fun s p => exists idx, Permutation idx (map s_index qs) /\
             toprf_Evaluate toyR s alpha (s_index s) idx = (0, Some (p_value p))) qs parts /\
  qs <> shares /\ ristretto_ok toyR.
Proof.
  destruct (parts_exist (fun s p => exists idx, Permutation idx (map s_index ex_q) /\
             toprf_Evaluate toyR s ex_alpha (s_index s) idx = (0, Some (p_value p))) ex_q) as (parts & HF).
  { apply Forall_forall. intros s Hs.
    assert (Hv : 0 < s_value s < L) by (cbn [In ex_q] in Hs; destruct Hs as [<-|[<-|[<-|[]]]]; cbn [s_value]; small).
    assert (Hi : index_ok (s_index s)) by (cbn [In ex_q] in Hs; destruct Hs as [<-|[<-|[<-|[]]]]; cbn [s_index]; small).
    destruct (toprf_evaluate_succeeds toyR toyR_ok s ex_alpha _ (s_index s) (map s_index ex_q) toy_base_dec toy_base_neq_0 Hv Hi)
      as (v & Ev).
    - cbn [map ex_q s_index]. repeat constructor; small.
    - exists (mkPart (s_index s) v), (map s_index ex_q). split; [apply Permutation_refl|exact Ev]. }
  exists 42, 5, 3, ex_a, ex_buf, ex_shares, ex_q, parts, ex_alpha, (rbase toyR).
  split; [exact ex_params|]. split; [exact ex_created|]. split; [exact ex_quorum|].
  split; [exact toy_base_dec|]. split; [exact HF|split; [vm_compute; discriminate|exact toyR_ok]].
Qed.

Definition ex_bad : bytes := repeat (zb 255) 32.

(** C13: an invalid response is dropped and success reported *)
Lemma C13_witness : exists R parts r0 r, ristretto_ok R /\
  (exists p, In p parts /\ rdec R (p_value p) = None) /\
  thresholdcombine R parts r0 = Ok (0, r).
Proof.
  exists toyR, [mkPart 1 ex_alpha; mkPart 2 ex_bad], (zeros 32), ex_alpha. split; [exact toyR_ok|]. split.
  - exists (mkPart 2 ex_bad). split; [right; left; reflexivity|]. vm_compute. reflexivity.
  - vm_compute. reflexivity.
Qed.

Lemma C13_example : exists parts (junk : list Z), length junk = length parts /\
  (exists p, In p parts /\ rdec toyR (p_value p) = None) /\ (exists p, In p parts /\ rdec toyR (p_value p) <> None) /\
  ristretto_ok toyR.
Proof.
  exists [mkPart 1 ex_alpha; mkPart 2 ex_bad], [0; 0]. split; [reflexivity|]. split.
  - exists (mkPart 2 ex_bad). split; [right; left; reflexivity|]. vm_compute. reflexivity.
  - split; [|exact toyR_ok]. exists (mkPart 1 ex_alpha). split; [left; reflexivity|]. vm_compute. discriminate.
Qed.

Definition ex_z : list Z := [3; 1].
Definition ex_zshares : list share := shares_of (0 :: ex_z) 5.
Definition ex_ssid : bytes := zeros 7.
Definition ex_zq : list share := [mkShare 5 40; mkShare 2 10; mkShare 4 28].
Definition ex_parts14 : list part :=
  map (fun '(k, z) => match toprf_3hashtdh toyR toyH true k z ex_alpha ex_ssid with
                | Ok (_, (i, Some v)) => mkPart i v | _ => mkPart 0 [] end) (combine ex_q ex_zq).

Lemma C14_example : exists secret n t a z buf buf' kshares zshares qs parts alpha P ssid (junk : list Z),
  sharing_params secret n t a buf /\ create_shares secret n t a buf = Ok kshares /\
  sharing_params 0 n t z buf' /\ create_shares 0 n t z buf' = Ok zshares /\
  quorum t kshares qs /\ rdec toyR alpha = Some P /\
  Forall2 (fun ks p => exists zs, In zs zshares /\ s_index zs = s_index ks /\
             toprf_3hashtdh toyR toyH true ks zs alpha ssid = Ok (0, (p_index p, Some (p_value p))) /\
             p_value p <> zeros 32) qs parts /\
  length junk = length parts /\ ristretto_ok toyR /\ hashes_ok toyH.
Proof.
  exists 42, 5, 3, ex_a, ex_z, ex_buf, ex_buf, ex_shares, ex_zshares, ex_q, ex_parts14, ex_alpha, (rbase toyR), ex_ssid, [0;0;0].
  assert (HPz : sharing_params 0 5 3 ex_z ex_buf) by (unfold sharing_params, ex_z, ex_buf; cbn [length repeat]; pose proof L_gt_65536; lia).
  split; [exact ex_params|]. split; [exact ex_created|]. split; [exact HPz|].
  split; [destruct HPz as (H1 & H2 & H3 & H4 & H5); apply create_shares_eq; assumption|].
  split; [exact ex_quorum|]. split; [exact toy_base_dec|].
  split; [|split; [reflexivity|split; [exact toyR_ok|exact toyH_ok]]].
  unfold ex_parts14, ex_q. cbn [combine map ex_zq].
  repeat constructor.
  - exists (mkShare 5 40). split; [vm_compute; tauto|]. split; [reflexivity|]. split; [vm_compute; reflexivity|vm_compute; discriminate].
  - exists (mkShare 2 10). split; [vm_compute; tauto|]. split; [reflexivity|]. split; [vm_compute; reflexivity|vm_compute; discriminate].
  - exists (mkShare 4 28). split; [vm_compute; tauto|]. split; [reflexivity|]. split; [vm_compute; reflexivity|vm_compute; discriminate].
Qed.

Lemma C15_witness : forall secret t a buf R cbuf,
  create_shares secret 255 t a buf = UB /\ dkg_start R true 255 t a cbuf buf = UB /\
  (forall n, 1 <= n <= 254 -> create_shares secret n 0 a buf = UB /\ dkg_start R true n 0 [] cbuf buf = UB).
Proof.
  intros. split; [apply create_shares_255_UB|]. split; [apply dkg_start_255_UB|].
  intros n Hn. split; [apply create_shares_t0_UB|apply dkg_start_t0_UB; assumption].
Qed.

Lemma C15_safe : forall R secret n t a a' buf cbuf,
  0 <= n <= 254 -> 1 <= t <= 255 -> Z.of_nat (length a) = t - 1 -> Z.of_nat (length a') = t ->
  Z.of_nat (length buf) = n -> Z.of_nat (length cbuf) = t ->
  (exists shares, create_shares secret n t a buf = Ok shares /\ length shares = length buf) /\
  (exists cs ss, dkg_start R true n t a' cbuf buf = Ok (0, cs, ss) /\ length cs = length cbuf /\ length ss = length buf).
Proof.
  intros. split; [apply create_shares_safe; assumption|apply dkg_start_safe; assumption].
Qed.

Lemma C16_nonzero : forall index peers, index_ok index -> Forall index_ok peers -> coeff index peers <> 0.
Proof.
  intros index peers H1 H2 E. apply (coeff_neq_0 index peers H1 H2). rewrite E. reflexivity.
Qed.

Lemma C16_example : exists index peers, u8 index /\ Forall u8 peers /\ index_ok index /\ Forall index_ok peers /\
  coeff index peers = 20.
Proof.
  exists 3, [3; 5; 4; 6; 1; 2]. split; [small|]. split; [repeat constructor; small|]. split; [small|].
  split; [repeat constructor; small|].
  symmetry. apply coeff_spec_Z; [small|repeat constructor; small|small|vm_compute; reflexivity].
Qed.

(** the largest n, with coefficients that are not reduced *)
Lemma C15_example : exists secret n t a (a' : list Z) (buf : list share) (cbuf : list bytes),
  0 <= n <= 254 /\ 1 <= t <= 255 /\ Z.of_nat (length a) = t - 1 /\ Z.of_nat (length a') = t /\
  Z.of_nat (length buf) = n /\ Z.of_nat (length cbuf) = t /\ secret = L + 1 /\ n = 254 /\ a = [L; 2].
Proof.
  exists (L + 1), 254, 3, [L; 2], [1; 2; 3], (repeat (mkShare 0 0) 254), (repeat [] 3).
  repeat split; try lia; rewrite ?repeat_length; reflexivity.
Qed.
