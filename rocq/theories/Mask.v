(** C113: masked answers of servers that hold any shares and any masks. *)
From Coq Require Import ZArith Lia List Bool Arith Permutation Field.
From Verif Require Import PrimeL Fq Poly Bytes Res Mem Sodium LinSolve OprfModel OprfSpec OprfProofs ToprfModel ToprfSpec ToprfProofs DkgModel DkgProofs MpmultModel.
From Verif Require Import SecrecySpec Secrecy UseSpec UpdateSpec Update MisreportSpec Misreport AskSpec Ask Mix MaskSpec.
Import ListNotations.
Open Scope list_scope.
Open Scope Z_scope.

Lemma two_keys R H servers alpha P ssid parts junk : ristretto_ok R -> hashes_ok H -> any_servers servers -> rdec R alpha = Some P -> masked_answers R H alpha ssid servers parts -> length junk = length parts ->
  thresholdmult R parts junk = Ok (0, renc R (radd R (rsmul R (dkg_reconstruct (map fst servers)) P) (rsmul R (dkg_reconstruct (map snd servers)) (mask_point R H ssid alpha)))).
Proof.
  intros HR HH (HK & HZ & HI) HD HE Hj. set (ks := map fst servers) in *. set (zs := map snd servers) in *. set (h := mask_point R H ssid alpha). pose proof L_lt_2_255 as L255.
  destruct (some_poly ks HK) as (cs & Lc & Hc & Ec). destruct (some_poly zs HZ) as (cz & Lz & Hz & Ez). pose proof HK as (ND & HF). pose proof HZ as (NDz & HFz).
  assert (EI : map s_index zs = map s_index ks). { unfold zs, ks. rewrite !map_map. apply map_ext_in. intros kz Hkz. rewrite Forall_forall in HI. exact (HI kz Hkz). }
  assert (HX : Forall index_ok (map s_index ks)) by (apply Forall_map; eapply Forall_impl; [|exact HF]; cbv beta; unfold index_ok; intros; lia).
  assert (H255 : (length ks <= 255)%nat) by (rewrite <- (map_length s_index); apply distinct_few; [exact ND|exact HX]).
  set (zv := fun i => match find (fun kz : share * share => s_index (fst kz) =? i) servers with Some kz => s_value (snd kz) | None => 0 end).
  assert (Hzv : forall kz, In kz servers -> zv (s_index (fst kz)) = s_value (snd kz)).
  { unfold zv. clear -ND. unfold ks in ND. rewrite map_map in ND. induction servers as [|a l IH]; [contradiction|]. cbn [map] in ND. inversion ND as [|? ? N1 N2]; subst. intros kz [<-|Hk]; cbn [find].
    - rewrite Z.eqb_refl. reflexivity.
    - destruct (Z.eqb_spec (s_index (fst a)) (s_index (fst kz))) as [E|_]; [|apply IH; assumption]. exfalso. apply N1. rewrite E. apply (in_map (fun x => s_index (fst x)) l kz Hk). }
  clearbody zv. set (beta := fun s => radd R (gmul R (of_Z (s_value s)) P) (gmul R (of_Z (zv (s_index s))) h)).
  assert (HE2 : Forall2 (fun s p => p_index p = s_index s /\ p_value p = renc R (beta s) /\ beta s <> rzero R) ks parts).
  { unfold ks, zs in *. clear -HR HH HD HE Hzv HF HFz L255 beta. unfold masked_answers in HE. revert HF HFz Hzv. induction HE as [|kz p l parts (ET & Hne) _ IH]; intros HF HFz Hzv; cbn [map] in *; constructor.
    - inversion HF as [|? ? F1 _]; subst. inversion HFz as [|? ? F2 _]; subst. apply (tdh_ok R H HR HH _ _ _ _ _ _ _ HD) in ET; [|lia|lia]. destruct ET as (E1 & E2).
      assert (E3 : p_value p = renc R (beta (fst kz))) by (rewrite E2; unfold beta; rewrite (Hzv kz (or_introl eq_refl)); reflexivity).
      split; [assumption|]. split; [exact E3|]. intros E0. apply Hne. rewrite E3, E0. apply (ok_enc_zero _ HR).
    - inversion HF; subst. inversion HFz; subst. apply IH; [assumption|assumption|]. intros x Hx. apply Hzv. right; assumption. }
  rewrite (weighted R HR ks parts beta junk HX H255 HE2 Hj). do 3 f_equal.
  set (lam := fun s => of_Z (coeff (s_index s) (map s_index ks))).
  rewrite (gsum_map_ext R (fun s => gmul R (lam s) (beta s)) (fun s => radd R (gmul R (lam s * of_Z (s_value s))%fq P) (gmul R (lam s * of_Z (zv (s_index s)))%fq h))).
  2:{ intros s _. unfold beta. rewrite (gmul_add_distr R HR), <- !(gmul_mul R HR). reflexivity. }
  rewrite (gsum_map_add R HR), !(gsum_gmul R HR).
  assert (EK : fsum (map (fun s => (lam s * of_Z (s_value s))%fq) ks) = of_Z (poly cs 0)) by (apply coeff_interpolate; assumption).
  assert (EZ : fsum (map (fun s => (lam s * of_Z (zv (s_index s)))%fq) ks) = of_Z (poly cz 0)).
  { rewrite <- (coeff_interpolate cz zs); [|exact NDz|rewrite EI; exact HX|exact Lz|exact Hz]. unfold lam. rewrite <- EI. unfold ks, zs. rewrite !map_map. f_equal. apply map_ext_in. intros kz Hkz. rewrite Forall_forall in HI. rewrite (HI kz Hkz), (Hzv kz Hkz). reflexivity. }
  rewrite EK, EZ, Ec, Ez. pose proof (mod_L_range (poly cs 0)). pose proof (mod_L_range (poly cz 0)). rewrite !(gmul_of_Z R HR) by lia. rewrite !of_Z_mod. reflexivity.
Qed.

Lemma right_masks R H servers alpha P ssid parts junk : ristretto_ok R -> hashes_ok H -> any_servers servers -> rdec R alpha = Some P -> masked_answers R H alpha ssid servers parts -> length junk = length parts ->
  thresholdmult R parts junk = Ok (0, renc R (rsmul R (dkg_reconstruct (map fst servers)) P)) <-> (dkg_reconstruct (map snd servers) = 0 \/ mask_point R H ssid alpha = rzero R).
Proof.
  intros HR HH HS HD HE Hj. rewrite (two_keys R H servers alpha P ssid parts junk HR HH HS HD HE Hj). destruct HS as (_ & HZ & _).
  destruct (some_poly _ HZ) as (cz & _ & _ & Ez). pose proof (mod_L_range (poly cz 0)) as Rz. rewrite <- Ez in Rz. set (w := dkg_reconstruct (map snd servers)) in *. set (Q := rsmul R (dkg_reconstruct (map fst servers)) P).
  rewrite (gmul_of_Z R HR w) by lia. split.
  - intros E. injection E as E. apply (renc_inj R HR) in E. rewrite <- (radd_0_r R HR Q) in E at 2. apply (radd_cancel_l R HR) in E. apply (gmul_eq_0 R HR) in E. destruct E as [E|E]; [left|right; exact E].
    apply of_Z_eq_0 in E. destruct E as (q & E). assert (q = 0) by nia. lia.
  - intros [E|E]; rewrite E; [rewrite (gmul_0 R)|rewrite (gmul_zero R HR)]; rewrite (radd_0_r R HR); reflexivity.
Qed.

Lemma one_wrong_mask R H K d dz zq j e servers alpha P ssid parts junk : ristretto_ok R -> hashes_ok H -> shares_key K d -> quorum (d_t d) (d_shares d) (map fst servers) ->
  shares_key 0 dz -> quorum (d_t dz) (d_shares dz) zq -> map snd servers = misreported j e zq -> 0 <= e < L -> Forall (fun kz => s_index (snd kz) = s_index (fst kz)) servers ->
  rdec R alpha = Some P -> masked_answers R H alpha ssid servers parts -> length junk = length parts ->
  thresholdmult R parts junk = Ok (0, renc R (rsmul R K P)) <-> (~ In j (map s_index (map fst servers)) \/ e = 0 \/ mask_point R H ssid alpha = rzero R).
Proof.
  intros HR HH HK HQ HK0 HQ0 EM He HI HD HE Hj.
  assert (HA : any_shares (map fst servers)).
  { pose proof (misreported_any K d _ 0 0 HK HQ) as HA. replace (misreported 0 0 (map fst servers)) with (map fst servers) in HA; [exact HA|]. unfold misreported. rewrite <- (map_id (map fst servers)) at 1. apply map_ext_in. intros s Hs.
    destruct (quorum_numbers _ _ _ HK HQ) as (_ & NR). rewrite Forall_forall in NR. specialize (NR (s_index s) (in_map _ _ _ Hs)). cbv beta in NR. destruct (Z.eqb_spec (s_index s) 0); [lia|reflexivity]. }
  assert (HS : any_servers servers) by (split; [exact HA|]; split; [rewrite EM; apply (misreported_any 0 dz _ j e HK0 HQ0)|exact HI]).
  assert (EK : dkg_reconstruct (map fst servers) = K).
  { assert (E0 : dkg_reconstruct (misreported 0 0 (map fst servers)) = K) by (apply (misreported_iff K d _ 0 0 HK HQ ltac:(pose proof L_pos; lia)); right; reflexivity).
    replace (misreported 0 0 (map fst servers)) with (map fst servers) in E0; [exact E0|]. unfold misreported. rewrite <- (map_id (map fst servers)) at 1. apply map_ext_in. intros s Hs.
    destruct (quorum_numbers _ _ _ HK HQ) as (_ & NR). rewrite Forall_forall in NR. specialize (NR (s_index s) (in_map _ _ _ Hs)). cbv beta in NR. destruct (Z.eqb_spec (s_index s) 0); [lia|reflexivity]. }
  assert (EI : map s_index zq = map s_index (map fst servers)).
  { rewrite <- (misreported_index j e zq), <- EM, !map_map. apply map_ext_in. intros kz Hkz. rewrite Forall_forall in HI. exact (HI kz Hkz). }
  pose proof (right_masks R H servers alpha P ssid parts junk HR HH HS HD HE Hj) as T. rewrite EK in T. rewrite T, EM, (misreported_iff 0 dz zq j e HK0 HQ0 He), EI. tauto.
Qed.
