(** C110: one server reports a wrong share of delta. *)
From Coq Require Import ZArith Lia List Bool Arith Field.
From Verif Require Import PrimeL Fq Poly Bytes Res Mem Sodium LinSolve OprfModel OprfSpec OprfProofs ToprfModel ToprfSpec ToprfProofs DkgModel DkgProofs MpmultModel MpmultProofs.
From Verif Require Import MulSpec MulUse UpdateSpec Update Deviate MisreportSpec.
Import ListNotations.
Open Scope list_scope.
Open Scope Z_scope.

Lemma misreported_index j e qs : map s_index (misreported j e qs) = map s_index qs.
Proof. unfold misreported. rewrite map_map. apply map_ext. intros s. destruct (s_index s =? j); reflexivity. Qed.

Lemma not_misreported j e qs : ~ In j (map s_index qs) -> misreported j e qs = qs.
Proof.
  intros H. unfold misreported. rewrite <- (map_id qs) at 2. apply map_ext_in. intros s Hs. destruct (Z.eqb_spec (s_index s) j) as [E|_]; [|reflexivity].
  exfalso. apply H. rewrite <- E. apply in_map, Hs.
Qed.

(** the weight of the share, which depends on the numbers of the reporting servers only *)
Lemma misreported_key idx j : NoDup idx -> Forall (fun i => 1 <= i <= 254) idx -> In j idx -> exists w, w <> (0%fq) /\
  forall e delta d qs, shares_key delta d -> quorum (d_t d) (d_shares d) qs -> map s_index qs = idx ->
    0 <= dkg_reconstruct (misreported j e qs) < L /\ F (dkg_reconstruct (misreported j e qs)) = (F delta + F e * w)%fq.
Proof.
  intros ND HR Hj. destruct (weight idx j ND HR Hj) as (q & Lq & Hq & Hw). exists (peval q (0%fq)). split; [exact Hw|]. intros e delta d qs (a & buf & SP & E) HQ EI.
  apply (created _ _ _ _ _ _ SP) in E. rewrite E in HQ. destruct (quorum_ready _ _ _ _ _ _ SP HQ) as (Q1 & Q2 & Q3 & Q4 & Q5).
  set (cs := map fv (padd (map F (delta :: a)) (pscale (F e) q))). assert (EC : map F cs = padd (map F (delta :: a)) (pscale (F e) q)) by apply map_of_Z_fv.
  assert (Lq' : length q = length qs) by (rewrite Lq, <- EI, map_length; reflexivity).
  rewrite (dkg_reconstruct_spec cs).
  - split; [apply Z.mod_pos_bound, L_pos|]. rewrite of_Z_mod, of_Z_poly, EC, padd_eval, pscale_eval. change (F 0) with (0%fq). rewrite (peval_at_0 (map F (delta :: a))). reflexivity.
  - rewrite misreported_index. exact Q1.
  - rewrite misreported_index. exact Q2.
  - unfold cs, misreported. rewrite !map_length, padd_length, map_length, pscale_length, Lq'. lia.
  - intros s Hs. unfold misreported in Hs. apply in_map_iff in Hs. destruct Hs as (s0 & <- & Hs). destruct (Q5 s0 Hs) as (_ & V).
    assert (Hin : In (s_index s0) idx) by (rewrite <- EI; apply in_map, Hs).
    replace (s_index (if s_index s0 =? j then _ else s0)) with (s_index s0) by (destruct (s_index s0 =? j); reflexivity).
    rewrite of_Z_poly, EC, padd_eval, pscale_eval, <- of_Z_poly, <- V, Hq by exact Hin. destruct (s_index s0 =? j); cbn [s_value]; [rewrite of_Z_mod, of_Z_add; ring|ring].
Qed.

Lemma quorum_numbers delta d qs : shares_key delta d -> quorum (d_t d) (d_shares d) qs -> NoDup (map s_index qs) /\ Forall (fun i => 1 <= i <= 254) (map s_index qs).
Proof.
  intros (a & buf & SP & E) HQ. apply (created _ _ _ _ _ _ SP) in E. rewrite E in HQ. destruct (quorum_ready _ _ _ _ _ _ SP HQ) as (Q1 & _). split; [exact Q1|].
  destruct HQ as (_ & HI & _). apply Forall_map, Forall_forall. intros s Hs. apply HI in Hs. pose proof SP as (_ & Hn & _). apply shares_of_In in Hs; [|lia]. lia.
Qed.

Lemma misreported_iff delta d qs j e : shares_key delta d -> quorum (d_t d) (d_shares d) qs -> 0 <= e < L ->
  dkg_reconstruct (misreported j e qs) = delta <-> (~ In j (map s_index qs) \/ e = 0).
Proof.
  intros HD HQ He. destruct (quorum_numbers _ _ _ HD HQ) as (ND & HR). pose proof (new_key_range _ _ HD) as Hr.
  destruct (in_dec Z.eq_dec j (map s_index qs)) as [Hj|Hj].
  - destruct (misreported_key _ j ND HR Hj) as (w & Hw & HM). destruct (HM e delta d qs HD HQ eq_refl) as (R1 & R2). split.
    + intros E. right. rewrite E in R2. assert (E2 : F e = F 0).
      { change (F 0) with (0%fq). replace (F e) with ((F delta + F e * w - F delta) * finv w)%fq by (field; exact Hw). rewrite <- R2. ring. }
      apply of_Z_eq in E2. rewrite !Z.mod_small in E2 by lia. exact E2.
    + intros [?|E]; [contradiction|]. apply of_Z_inj; [exact R1|exact Hr|]. rewrite R2, E. change (F 0) with (0%fq). ring.
  - split; [tauto|]. intros _. rewrite not_misreported by exact Hj. destruct HD as (a & buf & SP & E). eapply reconstruct_quorum; [exact SP|exact E|exact HQ].
Qed.

Lemma misreport_chosen idx j : NoDup idx -> Forall (fun i => 1 <= i <= 254) idx -> In j idx -> forall c, 0 <= c < L -> exists e, 0 <= e < L /\
  forall delta d qs, shares_key delta d -> quorum (d_t d) (d_shares d) qs -> map s_index qs = idx -> dkg_reconstruct (misreported j e qs) = (delta + c) mod L.
Proof.
  intros ND HR Hj c Hc. destruct (misreported_key idx j ND HR Hj) as (w & Hw & HM). exists (fv (F c * finv w)%fq). split; [apply fv_range|]. intros delta d qs HD HQ EI.
  destruct (HM (fv (F c * finv w)%fq) delta d qs HD HQ EI) as (R1 & R2). apply of_Z_inj; [exact R1|apply Z.mod_pos_bound, L_pos|]. rewrite R2, of_Z_mod, of_Z_add, of_Z_fv. field. exact Hw.
Qed.

(** ** the clients *)
Lemma one_step R x k P N' : ristretto_ok R -> 0 <= x < L -> 0 <= k < L -> bring_up_to_date R [x] (renc R (rsmul R k P)) = Some N' -> N' = renc R (gmul R (F x * F k)%fq P).
Proof.
  intros HR Hx Hk E. pose proof L_lt_2_255. cbn [bring_up_to_date] in E. rewrite (gmul_of_Z R HR), (scalarmult_enc_gen R HR), <- (gmul_mul R HR) in E by lia.
  destruct (bytes_eqb _ _); [discriminate|]. congruence.
Qed.

Lemma client_lost R H K delta d dsh d' qs j e x N N' : ristretto_ok R -> hashes_ok H -> shares_key K d -> K <> 0 -> delta <> 0 -> shares_key delta (mkDep (d_n d) (d_t d) dsh) -> update d dsh d' ->
  quorum (d_t d) dsh qs -> 0 <= e < L -> (length x <= 255)%nat -> HashToGroup R H x <> rzero R -> keeps R H d x N -> keeps R H d' x N' ->
  bring_up_to_date R [dkg_reconstruct (misreported j e qs)] N = Some N' <-> (~ In j (map s_index qs) \/ e = 0).
Proof.
  intros HR HH HK K0 D0 HD HU HQ He Hx Hh H1 H2. rewrite <- (misreported_iff delta (mkDep (d_n d) (d_t d) dsh) qs j e HD HQ He).
  pose proof (new_key_range _ _ HK) as Kr. pose proof (new_key_range _ _ HD) as Dr. pose proof L_lt_2_255 as L255.
  destruct (up_to_date R [delta] HR K (HashToGroup R H x) ltac:(lia) Hh) as (EU & Er); [repeat constructor; lia|]. unfold new_key in EU, Er. cbn [fold_left] in EU, Er.
  rewrite (kept R H K d x N HR HH HK K0 Hx Hh H1). rewrite (kept R H _ d' x N' HR HH (updated _ _ _ _ _ HK HD HU) ltac:(lia) Hx Hh H2).
  split; [|intros ->; exact EU]. intros E.
  assert (R1 : 0 <= dkg_reconstruct (misreported j e qs) < L).
  { unfold dkg_reconstruct. cbv zeta. apply (reconstruct_fold (fun r => scalar_mul (s_value r) (coeff (s_index r) _))); [lia|intros; apply scalar_mul_range]. }
  apply (one_step R _ K _ _ HR R1 Kr) in E. apply (renc_inj R HR) in E. rewrite (gmul_of_Z R HR) in E by lia. apply (gmul_inj R HR) in E; [|exact Hh]. rewrite of_Z_mod, of_Z_mul in E.
  apply of_Z_inj; [exact R1|exact Dr|]. assert (KF : F K <> 0%fq) by (apply random_scalar_neq_0; unfold random_scalar; lia).
  replace (F delta) with (F K * F delta * finv (F K))%fq by (field; exact KF). rewrite E. field. exact KF.
Qed.
