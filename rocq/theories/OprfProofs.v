(** Proofs about the model of src/oprf.c. *)
From Coq Require Import String.
From Coq Require Import ZArith Lia List Bool Field.
From Coq.Strings Require Import Byte.
From Verif Require Import Prime PrimeL Fq Poly Bytes Res Sodium OprfModel OprfSpec.
Import ListNotations.
Open Scope list_scope.
Open Scope Z_scope.

(** ** expand_message_xmd *)
Lemma strxor_eq a b : strxor a b = xor_bytes a b.
Proof. revert b. induction a as [|x a IH]; intros [|y b]; cbn; try reflexivity; rewrite IH; reflexivity. Qed.

Lemma I2OSP_1 z : I2OSP z 1 = [zb z].
Proof. reflexivity. Qed.

Lemma firstn_app_exact {A} (a b : list A) n : firstn (length a + n) (a ++ b) = a ++ firstn n b.
Proof. apply firstn_app_2. Qed.

Lemma firstn_min_app {A} (a b : list A) n :
  firstn n (a ++ b) = firstn (Nat.min (length a) n) a ++ firstn (n - length a) b.
Proof.
  rewrite firstn_app. f_equal.
  destruct (Nat.le_ge_cases (length a) n).
  - rewrite Nat.min_l by assumption. rewrite firstn_all. rewrite firstn_all2 by assumption. reflexivity.
  - rewrite Nat.min_r by assumption. reflexivity.
Qed.

(** [emit] copies the next min(64,rest) bytes *)
Lemma emit_spec out left b :
  0 <= left -> length b = 64%nat ->
  emit out left b = (out ++ firstn (Z.to_nat left) b, Z.max 0 (left - 64)).
Proof.
  intros Hl Hb. unfold emit. destruct (left >? 64) eqn:E.
  - apply Z.gtb_lt in E. f_equal; [|lia]. f_equal.
    rewrite !firstn_all2; [reflexivity|lia|lia].
  - assert (left <= 64) by (rewrite Z.gtb_ltb in E; apply Z.ltb_ge in E; lia).
    f_equal. lia.
Qed.

Section Xmd.
  Variable H : hashes.
  Hypothesis HH : hashes_ok H.

  Lemma rounds_done fuel ell b0 dp i bi out left :
    ell < i -> expand_rounds (S fuel) H ell b0 dp i bi out left = Ok out.
  Proof. intros Hi. cbn [expand_rounds]. destruct (Z.leb_spec i ell); [lia|reflexivity]. Qed.

  Lemma rounds_step fuel ell b0 dp i bi out left :
    i <= ell -> 0 <= i < 254 -> 0 <= left ->
    expand_rounds (S fuel) H ell b0 dp i bi out left =
    let b1 := expand_loop H b0 bi i dp in
    let b2 := expand_loop H b0 b1 (i + 1) dp in
    expand_rounds fuel H ell b0 dp (i + 2) b2
      (out ++ firstn (Z.to_nat left) (b1 ++ b2)) (Z.max 0 (left - 128)).
  Proof.
    intros Hi Hr Hl. cbn [expand_rounds].
    destruct (Z.leb_spec i ell); [|lia].
    assert (Hlen : forall a b c d, length (expand_loop H a b c d) = 64%nat)
      by (intros; apply (ok_sha512_len _ HH)).
    rewrite emit_spec by (try apply Hlen; lia).
    rewrite emit_spec by (try apply Hlen; lia).
    cbv zeta. rewrite Z.mod_small by lia. f_equal.
    - rewrite <- app_assoc. f_equal. rewrite firstn_app. f_equal.
      rewrite Hlen. f_equal. lia.
    - lia.
  Qed.

  Lemma xmd_correct msg dst len :
    0 <= len <= 255 -> (length dst <= 254)%nat ->
    expand_message_xmd H msg dst len = Ok (0, rfc_expand_message_xmd (sha512 H) msg dst len).
  Proof.
    intros Hlen Hdst. unfold expand_message_xmd.
    set (ell := (len + 64 - 1) / 64).
    assert (Hell : 0 <= ell <= 4).
    { unfold ell. split; [apply Z.div_pos; lia|]. apply Z.lt_succ_r. apply Z.div_lt_upper_bound; lia. }
    destruct (ell >? 255) eqn:E1; [apply Z.gtb_lt in E1; lia|].
    destruct (Z.eqb_spec (Z.of_nat (length dst)) 255); [lia|].
    set (dp := dst ++ [zb (Z.of_nat (length dst))]).
    assert (Hdp : DST_prime dst = dp) by reflexivity.
    set (b0 := sha512 H (msg_prime msg dp len)).
    assert (Hb0 : b_zero (sha512 H) msg dst len = b0) by reflexivity.
    set (b1 := sha512 H (b0 ++ [x01] ++ dp)).
    assert (Hb1 : b_next (sha512 H) msg dst len 0 = b1) by reflexivity.
    assert (Hstep : forall k, b_next (sha512 H) msg dst len (S k) =
        expand_loop H b0 (b_next (sha512 H) msg dst len k) (Z.of_nat (S (S k))) dp).
    { intros k. cbn [b_next]. rewrite Hb0, strxor_eq. reflexivity. }
    assert (HlenN : forall k, length (b_next (sha512 H) msg dst len k) = 64%nat).
    { intros [|k]; cbn [b_next]; apply (ok_sha512_len _ HH). }
    rewrite emit_spec by (try apply (ok_sha512_len _ HH); lia).
    cbn [app bind].
    set (B := b_next (sha512 H) msg dst len) in *.
    assert (Erfc : rfc_expand_message_xmd (sha512 H) msg dst len =
                   firstn (Z.to_nat len) (concat (map B (seq 0 (Z.to_nat ell))))).
    { unfold rfc_expand_message_xmd, rfc_ell. unfold ell. do 6 f_equal. lia. }
    rewrite Erfc.
    assert (E2 : expand_loop H b0 b1 2 dp = B 1%nat) by (rewrite Hstep, Hb1; reflexivity).
    assert (E3 : expand_loop H b0 (B 1%nat) 3 dp = B 2%nat) by (rewrite (Hstep 1%nat); reflexivity).
    assert (E4 : expand_loop H b0 (B 2%nat) 4 dp = B 3%nat) by (rewrite (Hstep 2%nat); reflexivity).
    assert (E5 : expand_loop H b0 (B 3%nat) 5 dp = B 4%nat) by (rewrite (Hstep 3%nat); reflexivity).
    assert (Hbound : len <= ell * 64 /\ (ell - 1) * 64 < len).
    { unfold ell. pose proof (Z.div_mod (len + 64 - 1) 64 ltac:(lia)).
      pose proof (Z.mod_pos_bound (len + 64 - 1) 64 ltac:(lia)). lia. }
    assert (Hcase : ell = 0 \/ ell = 1 \/ ell = 2 \/ ell = 3 \/ ell = 4) by lia.
    change (expand_rounds 256 H) with (expand_rounds (S (S (S 253))) H).
    destruct Hcase as [C|[C|[C|[C|C]]]]; rewrite C in *; clear C.
    - rewrite rounds_done by lia. assert (len = 0) by lia. subst len. reflexivity.
    - rewrite rounds_done by lia. cbn [bind]. do 2 f_equal.
      change (Z.to_nat 1) with 1%nat. cbn [seq map concat]. rewrite Hb1, app_nil_r. reflexivity.
    - rewrite rounds_step by lia. cbv zeta. change (2 + 1) with 3. rewrite E2, E3.
      change (2 + 2) with 4. rewrite rounds_done by lia. cbn [bind]. do 2 f_equal.
      change (Z.to_nat 2) with 2%nat. cbn [seq map concat].
      rewrite Hb1, app_nil_r. rewrite (firstn_app (Z.to_nat len) b1). f_equal.
      unfold b1. rewrite (ok_sha512_len _ HH). rewrite firstn_app, HlenN.
      replace (Z.to_nat (Z.max 0 (len - 64)) - 64)%nat with O by lia.
      rewrite firstn_O, app_nil_r. f_equal. lia.
    - rewrite rounds_step by lia. cbv zeta. change (2 + 1) with 3. rewrite E2, E3.
      change (2 + 2) with 4. rewrite rounds_done by lia. cbn [bind]. do 2 f_equal.
      change (Z.to_nat 3) with 3%nat. cbn [seq map concat].
      rewrite Hb1, app_nil_r. rewrite (firstn_app (Z.to_nat len) b1). f_equal.
      unfold b1. rewrite (ok_sha512_len _ HH). f_equal. lia.
    - rewrite rounds_step by lia. cbv zeta. change (2 + 1) with 3. rewrite E2, E3.
      change (2 + 2) with 4. rewrite rounds_step by lia. cbv zeta.
      change (4 + 1) with 5. rewrite E4, E5.
      change (4 + 2) with 6. rewrite rounds_done by lia. cbn [bind]. do 2 f_equal.
      change (Z.to_nat 4) with 4%nat. cbn [seq map concat].
      rewrite Hb1, app_nil_r. rewrite (firstn_app (Z.to_nat len) b1). rewrite <- app_assoc. f_equal.
      unfold b1. rewrite (ok_sha512_len _ HH).
      rewrite (app_assoc (B 1%nat) (B 2%nat) (B 3%nat)).
      rewrite (firstn_app (Z.to_nat len - 64) (B 1%nat ++ B 2%nat)). f_equal.
      { f_equal. lia. }
      rewrite app_length, !HlenN. rewrite firstn_app, HlenN.
      replace (Z.to_nat (Z.max 0 (Z.max 0 (len - 64) - 128)) - 64)%nat with O by lia.
      rewrite firstn_O, app_nil_r. f_equal. lia.
  Qed.

  Lemma xmd_length msg dst len : 0 <= len <= 255 ->
    length (rfc_expand_message_xmd (sha512 H) msg dst len) = Z.to_nat len.
  Proof.
    intros Hlen. unfold rfc_expand_message_xmd. rewrite firstn_length.
    assert (HlenN : forall k, length (b_next (sha512 H) msg dst len k) = 64%nat).
    { intros [|k]; cbn [b_next]; apply (ok_sha512_len _ HH). }
    assert (Hc : forall l, length (concat (map (b_next (sha512 H) msg dst len) l)) = (64 * length l)%nat).
    { induction l as [|k l IH]; cbn [map concat length]; [lia|]. rewrite app_length, HlenN, IH. lia. }
    rewrite Hc, seq_length. unfold rfc_ell.
    pose proof (Z.div_mod (len + 63) 64 ltac:(lia)).
    pose proof (Z.mod_pos_bound (len + 63) 64 ltac:(lia)). lia.
  Qed.
End Xmd.

Lemma xmd_long_dst H msg dst len :
  0 <= len <= 255 -> length dst = 255%nat -> expand_message_xmd H msg dst len = Ok (-1, []).
Proof.
  intros Hlen Hd. unfold expand_message_xmd. rewrite Hd.
  destruct ((len + 64 - 1) / 64 >? 255); reflexivity.
Qed.

(** ** Finalize *)
Lemma finalize_input_rfc x N : length N = 32%nat -> finalize_input x N = rfc_hashInput x N.
Proof. intros HN. unfold finalize_input, rfc_hashInput. rewrite HN. reflexivity. Qed.

Lemma app_inj_len {A} (a b c d : list A) : length a = length c -> a ++ b = c ++ d -> a = c /\ b = d.
Proof.
  revert c. induction a as [|x a IH]; intros [|y c] Hl E; cbn in *; try lia.
  - auto.
  - inversion E. destruct (IH c ltac:(lia) H1) as [-> ->]. auto.
Qed.

Lemma finalize_input_inj x1 N1 x2 N2 :
  Z.of_nat (length x1) < 2 ^ 16 -> Z.of_nat (length x2) < 2 ^ 16 ->
  length N1 = 32%nat -> length N2 = 32%nat ->
  finalize_input x1 N1 = finalize_input x2 N2 -> x1 = x2 /\ N1 = N2.
Proof.
  intros H1 H2 HN1 HN2 E. unfold finalize_input in E.
  apply app_inj_len in E; [|rewrite !be_bytes_length; reflexivity]. destruct E as [El E].
  apply be_bytes_inj in El; [|change (256 ^ Z.of_nat 2) with (2 ^ 16); lia|change (256 ^ Z.of_nat 2) with (2 ^ 16); lia].
  apply Nat2Z.inj in El.
  apply app_inj_len in E; [|assumption]. destruct E as [Ex E].
  apply app_inj_len in E; [|rewrite !be_bytes_length; reflexivity]. destruct E as [_ E].
  apply app_inj_len in E; [|congruence]. destruct E as [EN _]. auto.
Qed.

Lemma finalize_eq H x N : Z.of_nat (length x) < 2 ^ 16 -> length N = 32%nat ->
  oprf_Finalize H true x (Z.of_nat (length x)) N = Ok (0, Some (sha512 H (rfc_hashInput x N))).
Proof.
  intros Hx HN. unfold oprf_Finalize. rewrite Z.mod_small by lia.
  rewrite Nat2Z.id, sub_all. cbn [of_opt bind]. rewrite finalize_input_rfc by assumption.
  reflexivity.
Qed.

Lemma hashInput_inj x1 N1 x2 N2 :
  Z.of_nat (length x1) < 2 ^ 16 -> Z.of_nat (length x2) < 2 ^ 16 ->
  length N1 = 32%nat -> length N2 = 32%nat ->
  rfc_hashInput x1 N1 = rfc_hashInput x2 N2 -> x1 = x2 /\ N1 = N2.
Proof.
  intros H1 H2 HN1 HN2 E. rewrite <- !finalize_input_rfc in E by assumption.
  apply finalize_input_inj; assumption.
Qed.

Lemma finalize_injective H x1 N1 x2 N2 :
  Z.of_nat (length x1) < 2 ^ 16 -> Z.of_nat (length x2) < 2 ^ 16 ->
  length N1 = 32%nat -> length N2 = 32%nat ->
  oprf_Finalize H true x1 (Z.of_nat (length x1)) N1 =
  oprf_Finalize H true x2 (Z.of_nat (length x2)) N2 ->
  (x1 = x2 /\ N1 = N2) \/
  (let m1 := rfc_hashInput x1 N1 in let m2 := rfc_hashInput x2 N2 in m1 <> m2 /\ sha512 H m1 = sha512 H m2).
Proof.
  intros H1 H2 HN1 HN2 E. rewrite !finalize_eq in E by assumption.
  injection E as E.
  destruct (list_eq_dec Byte.byte_eq_dec (rfc_hashInput x1 N1) (rfc_hashInput x2 N2)) as [Em|Em].
  - left. apply hashInput_inj; assumption.
  - right. split; assumption.
Qed.

(** ** Blind, Evaluate, Unblind *)
Section Oprf.
  Variables (R : ristretto) (H : hashes).
  Hypothesis HR : ristretto_ok R.
  Hypothesis HH : hashes_ok H.

  Lemma htg_eq x lk : voprf_hash_to_group R H lk x =
    if lk then Ok (0, Some (renc R (HashToGroup R H x))) else Ok (-1, None).
  Proof.
    unfold voprf_hash_to_group. destruct lk; [|reflexivity].
    rewrite xmd_correct; [|assumption|lia|vm_compute; repeat constructor].
    cbn [bind]. unfold from_hash, HashToGroup. reflexivity.
  Qed.

  Lemma random_scalar_neq_0 r : random_scalar r -> of_Z r <> 0%fq.
  Proof.
    intros Hr E. unfold random_scalar in Hr. apply of_Z_eq_0 in E.
    apply Z.divide_pos_le in E; lia.
  Qed.

  Lemma random_scalar_255 r : random_scalar r -> 0 <= r < 2 ^ 255.
  Proof. unfold random_scalar. pose proof L_lt_2_255. lia. Qed.

  Lemma blind_eq x r : (length x <= 255)%nat -> random_scalar r -> HashToGroup R H x <> rzero R ->
    oprf_Blind R H true true x (Z.of_nat (length x)) r =
    Ok (0, Some r, Some (renc R (gmul R (of_Z r) (HashToGroup R H x)))).
  Proof.
    intros Hx Hr Hh. unfold oprf_Blind.
    rewrite Z.mod_small by (change (2 ^ 8) with 256; lia). rewrite Nat2Z.id, sub_all. cbn [of_opt bind].
    rewrite htg_eq. cbn [bind]. rewrite Z.eqb_refl.
    rewrite (scalarmult_enc R HR); [|apply random_scalar_255; assumption|apply random_scalar_neq_0; assumption|assumption].
    reflexivity.
  Qed.

  (** every 32-byte key whose low 255 bits are non-zero mod L is accepted *)
  Lemma scalarmult_any n P : scalar_buf n -> of_Z (n mod 2 ^ 255) <> 0%fq -> P <> rzero R ->
    scalarmult R n (renc R P) = (0, Some (renc R (gmul R (of_Z (n mod 2 ^ 255)) P))).
  Proof.
    intros Hn Hn0 HP.
    assert (Hm : 0 <= n mod 2 ^ 255 < 2 ^ 255) by (apply Z.mod_pos_bound; vm_compute; reflexivity).
    rewrite <- (scalarmult_enc R HR) by assumption.
    unfold scalarmult. rewrite Zmod_mod. reflexivity.
  Qed.

  Lemma unblind_eq r P : 0 <= r -> of_Z r <> 0%fq -> P <> rzero R ->
    oprf_Unblind R true r (renc R P) = (0, Some (renc R (gmul R (finv (of_Z r)) P))).
  Proof.
    intros Hr Hr0 HP. unfold oprf_Unblind. rewrite (is_valid_enc R HR).
    destruct (scalar_invert r) as [iret ir] eqn:E.
    assert (Eir : ir = snd (scalar_invert r)) by (rewrite E; reflexivity).
    assert (Hir : iret = 0).
    { unfold scalar_invert in E. inversion E. destruct (Z.eqb_spec r 0) as [->|]; [|reflexivity].
      exfalso. apply Hr0. reflexivity. }
    subst iret. rewrite Z.eqb_refl. subst ir.
    rewrite (scalarmult_enc R HR).
    - cbn. reflexivity.
    - pose proof (scalar_invert_range r). pose proof L_lt_2_255. lia.
    - rewrite of_Z_scalar_invert. apply finv_neq_0. assumption.
    - assumption.
  Qed.

  Lemma oprf_roundtrip x k r :
    (length x <= 255)%nat -> HashToGroup R H x <> rzero R ->
    scalar_buf k -> (k mod 2 ^ 255) mod L <> 0 -> random_scalar r ->
    exists blinded Zb N,
      oprf_Blind R H true true x (Z.of_nat (length x)) r = Ok (0, Some r, Some blinded) /\
      oprf_Evaluate R k blinded = (0, Some Zb) /\
      oprf_Unblind R true r Zb = (0, Some N) /\
      N = renc R (rsmul R (k mod 2 ^ 255) (HashToGroup R H x)) /\
      oprf_Finalize H true x (Z.of_nat (length x)) N = Ok (0, Some (sha512 H (rfc_hashInput x N))).
  Proof.
    intros Hx Hh Hk Hk0' Hr.
    assert (Hk0 : of_Z (k mod 2 ^ 255) <> 0%fq).
    { intros E0. apply of_Z_eq_0 in E0. apply Znumtheory.Zdivide_mod in E0. contradiction. }
    set (h := HashToGroup R H x) in *.
    exists (renc R (gmul R (of_Z r) h)).
    exists (renc R (gmul R (of_Z (k mod 2 ^ 255)) (gmul R (of_Z r) h))).
    exists (renc R (gmul R (of_Z (k mod 2 ^ 255)) h)).
    pose proof (random_scalar_neq_0 r Hr) as Hr0.
    assert (Hrh : gmul R (of_Z r) h <> rzero R).
    { intros E. apply (gmul_eq_0 R HR) in E. tauto. }
    assert (Hkrh : gmul R (of_Z (k mod 2 ^ 255)) (gmul R (of_Z r) h) <> rzero R).
    { intros E. apply (gmul_eq_0 R HR) in E. tauto. }
    split; [|split; [|split; [|split]]].
    - apply blind_eq; assumption.
    - unfold oprf_Evaluate. apply scalarmult_any; assumption.
    - rewrite unblind_eq; [|unfold random_scalar in Hr; lia|assumption|assumption].
      do 3 f_equal. rewrite <- !(gmul_mul R HR). f_equal. field. assumption.
    - f_equal. rewrite (gmul_of_Z R HR); [reflexivity|]. apply Z.mod_pos_bound. vm_compute. reflexivity.
    - unfold oprf_Finalize. rewrite Z.mod_small by (change (2 ^ 16) with 65536; lia).
      rewrite Nat2Z.id, sub_all. cbn [of_opt bind]. rewrite finalize_input_rfc by apply (ok_enc_len _ HR).
      reflexivity.
  Qed.

  (** perfect hiding *)
  Lemma blind_hiding x1 x2 r1 :
    (length x1 <= 255)%nat -> (length x2 <= 255)%nat ->
    HashToGroup R H x1 <> rzero R -> HashToGroup R H x2 <> rzero R -> random_scalar r1 ->
    exists! r2, random_scalar r2 /\
      (do (_, _, b1) <- oprf_Blind R H true true x1 (Z.of_nat (length x1)) r1 ;; Ok b1) =
      (do (_, _, b2) <- oprf_Blind R H true true x2 (Z.of_nat (length x2)) r2 ;; Ok b2).
  Proof.
    intros Hx1 Hx2 Hh1 Hh2 Hr1.
    destruct (gmul_between R HR _ (gmul R (of_Z r1) (HashToGroup R H x1)) Hh2) as (k & Hk).
    assert (Hk0 : k <> 0%fq).
    { intros ->. rewrite (gmul_0 R) in Hk. apply (gmul_eq_0 R HR) in Hk.
      destruct Hk; [|contradiction]. apply (random_scalar_neq_0 r1); assumption. }
    pose proof (fv_range k) as Hkr.
    assert (Hrk : random_scalar (fv k)).
    { unfold random_scalar. assert (fv k <> 0); [|lia].
      intros E. apply Hk0. rewrite <- (of_Z_fv k), E. reflexivity. }
    exists (fv k). split.
    - split; [assumption|]. rewrite !blind_eq by assumption. cbn [bind].
      rewrite of_Z_fv, Hk. reflexivity.
    - intros r2 (Hr2 & E). rewrite !blind_eq in E by assumption. cbn [bind] in E.
      inversion E as [E']. apply (renc_inj R HR) in E'. rewrite Hk in E'.
      apply (gmul_inj R HR) in E'; [|assumption]. rewrite E'. rewrite fv_of_Z_small; [reflexivity|].
      unfold random_scalar in Hr2. lia.
  Qed.

  (** exact acceptance condition of Unblind *)
  Lemma unblind_iff r Zb : scalar_buf r ->
    (fst (oprf_Unblind R true r Zb) = 0 <->
     (exists P, rdec R Zb = Some P /\ P <> rzero R) /\ r mod L <> 0).
  Proof.
    intros Hr. split.
    - intros Hret. unfold oprf_Unblind, is_valid_point in Hret.
      destruct (rdec R Zb) as [P|] eqn:ED; [|cbn in Hret; lia].
      destruct (scalar_invert r) as [iret ir] eqn:EI.
      assert (Eir : ir = snd (scalar_invert r)) by (rewrite EI; reflexivity).
      destruct (Z.eqb_spec iret 0) as [->|]; [|cbn in Hret; lia].
      apply (ok_enc_dec _ HR) in ED. subst Zb.
      rewrite (scalarmult_enc_gen R HR) in Hret
        by (subst ir; pose proof (scalar_invert_range r); pose proof L_lt_2_255; lia).
      destruct (bytes_eqb (renc R (gmul R (of_Z ir) P)) (zeros 32)) eqn:EB; [cbn in Hret; lia|].
      assert (Hne : gmul R (of_Z ir) P <> rzero R).
      { intros E. apply (renc_zero_iff R HR) in E. congruence. }
      split.
      + exists P. split; [reflexivity|]. intros ->. apply Hne. apply (gmul_zero R HR).
      + intros E0. apply Hne. subst ir. rewrite of_Z_scalar_invert.
        assert (Ez : of_Z r = 0%fq). { apply of_Z_eq_0. apply Z.mod_divide; [pose proof L_pos; lia|assumption]. }
        rewrite Ez, finv_0. apply (gmul_0 R).
    - intros [(P & ED & HP) Hr0].
      apply (ok_enc_dec _ HR) in ED. subst Zb. unfold scalar_buf in Hr.
      rewrite unblind_eq; [reflexivity|lia| |assumption].
      intros E. apply of_Z_eq_0 in E. apply Znumtheory.Zdivide_mod in E. contradiction.
  Qed.

  Lemma unblind_result r Zb N : scalar_buf r ->
    oprf_Unblind R true r Zb = (0, Some N) ->
    exists P Q, rdec R Zb = Some P /\ rdec R N = Some Q /\ rsmul R r Q = P /\
      (forall Q', rsmul R r Q' = P -> Q' = Q).
  Proof.
    intros Hr HU. assert (H0 : fst (oprf_Unblind R true r Zb) = 0) by (rewrite HU; reflexivity).
    apply unblind_iff in H0; [|assumption]. destruct H0 as [(P & ED & HP) Hr0].
    unfold scalar_buf in Hr.
    assert (Hr0' : of_Z r <> 0%fq).
    { intros E. apply of_Z_eq_0 in E. apply Znumtheory.Zdivide_mod in E. contradiction. }
    pose proof ED as ED'. apply (ok_enc_dec _ HR) in ED'. subst Zb.
    rewrite unblind_eq in HU by (try lia; assumption).
    inversion HU; subst N. exists P, (gmul R (finv (of_Z r)) P).
    split; [assumption|]. split; [apply (ok_dec_enc _ HR)|].
    assert (Ecancel : forall Q', rsmul R r Q' = gmul R (of_Z r) Q').
    { intros Q'. apply (gmul_of_Z R HR). lia. }
    split.
    - rewrite Ecancel, <- (gmul_mul R HR).
      replace (of_Z r * finv (of_Z r))%fq with 1%fq by (field; assumption). apply (gmul_1 R).
    - intros Q' HQ'. rewrite Ecancel in HQ'. rewrite <- HQ', <- (gmul_mul R HR), finv_l by assumption.
      symmetry. apply (gmul_1 R).
  Qed.

  (** what oprf_Blind does for any buffer and any length argument *)
  Lemma blind_any_length x len r : (Z.to_nat (len mod 2 ^ 8) <= length x)%nat ->
    random_scalar r ->
    oprf_Blind R H true true x len r =
    oprf_Blind R H true true (firstn (Z.to_nat (len mod 2 ^ 8)) x) (len mod 2 ^ 8) r.
  Proof.
    intros Hx Hr. unfold oprf_Blind. rewrite Zmod_mod.
    rewrite !sub_in_range; [|rewrite firstn_length; lia|lia].
    cbn [skipn]. rewrite firstn_firstn, Nat.min_id. reflexivity.
  Qed.
End Oprf.

Lemma xmd_all : forall H, hashes_ok H ->
  forall msg dst len, 0 <= len <= 255 -> (length msg <= 255)%nat ->
  ((length dst <= 254)%nat ->
     expand_message_xmd H msg dst len = Ok (0, rfc_expand_message_xmd (sha512 H) msg dst len) /\
     length (rfc_expand_message_xmd (sha512 H) msg dst len) = Z.to_nat len) /\
  (length dst = 255%nat -> expand_message_xmd H msg dst len = Ok (-1, [])).
Proof.
  intros H HH msg dst len Hl _. split.
  - intros Hd. split; [apply xmd_correct; assumption|apply xmd_length; assumption].
  - intros Hd. apply xmd_long_dst; assumption.
Qed.

Lemma htg_dst_rfc : htg_dst = rfc_dst.
Proof. vm_compute. reflexivity. Qed.

Lemma finalize_encoding : forall H x N,
  Z.of_nat (length x) < 2 ^ 16 -> length N = 32%nat ->
  oprf_Finalize H true x (Z.of_nat (length x)) N = Ok (0, Some (sha512 H (rfc_hashInput x N))) /\
  forall x' N', Z.of_nat (length x') < 2 ^ 16 -> length N' = 32%nat ->
    rfc_hashInput x N = rfc_hashInput x' N' -> x = x' /\ N = N'.
Proof.
  intros H x N Hx HN. split; [apply finalize_eq; assumption|].
  intros x' N' Hx' HN' E. apply hashInput_inj; assumption.
Qed.

Lemma blind_hiding' : forall R H, ristretto_ok R -> hashes_ok H ->
  forall x1 x2 r1 b,
  (length x1 <= 255)%nat -> (length x2 <= 255)%nat ->
  HashToGroup R H x1 <> rzero R -> HashToGroup R H x2 <> rzero R -> random_scalar r1 ->
  oprf_Blind R H true true x1 (Z.of_nat (length x1)) r1 = Ok (0, Some r1, Some b) ->
  exists! r2, random_scalar r2 /\
    oprf_Blind R H true true x2 (Z.of_nat (length x2)) r2 = Ok (0, Some r2, Some b).
Proof.
  intros R H HR HH x1 x2 r1 b Hx1 Hx2 Hh1 Hh2 Hr1 HB.
  destruct (blind_hiding R H HR HH x1 x2 r1 Hx1 Hx2 Hh1 Hh2 Hr1) as (r2 & (Hr2 & E) & U).
  rewrite HB in E. cbn [bind] in E. exists r2. split.
  - split; [assumption|]. rewrite blind_eq in * by assumption. cbn [bind] in E. congruence.
  - intros r' (Hr' & E'). apply U. split; [assumption|]. rewrite HB, E'. reflexivity.
Qed.

Lemma blind_short : forall R H, ristretto_ok R -> hashes_ok H ->
  forall x r, (length x <= 255)%nat -> random_scalar r -> HashToGroup R H x <> rzero R ->
  oprf_Blind R H true true x (Z.of_nat (length x)) r =
    Ok (0, Some r, Some (renc R (rsmul R r (HashToGroup R H x)))).
Proof.
  intros R H HR HH x r Hx Hr Hh. rewrite blind_eq by assumption.
  rewrite (gmul_of_Z R HR); [reflexivity|]. unfold random_scalar in Hr. lia.
Qed.

Lemma blind_truncates : forall R H, ristretto_ok R -> hashes_ok H ->
  forall x r, random_scalar r ->
  let x' := firstn (length x mod 256) x in
  HashToGroup R H x' <> rzero R ->
  oprf_Blind R H true true x (Z.of_nat (length x)) r =
    Ok (0, Some r, Some (renc R (rsmul R r (HashToGroup R H x')))).
Proof.
  intros R H HR HH x r Hr x' Hh.
  assert (Em : Z.of_nat (length x) mod 2 ^ 8 = Z.of_nat (length x mod 256)).
  { rewrite Nat2Z.inj_mod. reflexivity. }
  pose proof (Nat.mod_upper_bound (length x) 256 ltac:(lia)) as Hu.
  pose proof (Nat.mod_le (length x) 256 ltac:(lia)) as Hle.
  rewrite (blind_any_length R H); [|rewrite Em, Nat2Z.id; assumption|assumption].
  rewrite Em, Nat2Z.id. fold x'.
  assert (Hl' : length x' = (length x mod 256)%nat) by (unfold x'; rewrite firstn_length; lia).
  rewrite <- Hl'. apply blind_short; try assumption. lia.
Qed.

Lemma unblind_all : forall R, ristretto_ok R ->
  forall r Zb, scalar_buf r ->
  (fst (oprf_Unblind R true r Zb) = 0 <->
     (exists P, rdec R Zb = Some P /\ P <> rzero R) /\ r mod L <> 0) /\
  (forall N, oprf_Unblind R true r Zb = (0, Some N) ->
     exists P Q, rdec R Zb = Some P /\ rdec R N = Some Q /\ rsmul R r Q = P /\
       (forall Q', rsmul R r Q' = P -> Q' = Q)) /\
  (fst (oprf_Unblind R true r Zb) = 0 -> exists N, oprf_Unblind R true r Zb = (0, Some N)).
Proof.
  intros R HR r Zb Hr. split; [apply unblind_iff; assumption|]. split.
  - intros N. apply unblind_result; assumption.
  - intros E. pose proof E as E'. apply unblind_iff in E'; [|assumption|assumption].
    destruct E' as [(P & HD & HP) Hr0]. apply (ok_enc_dec _ HR) in HD. subst Zb.
    eexists. apply (unblind_eq R HR); [unfold scalar_buf in Hr; lia| |assumption].
    intros E0. apply of_Z_eq_0 in E0. apply Znumtheory.Zdivide_mod in E0. contradiction.
Qed.

(** examples *)
Definition ex_pwd : bytes := ascii "correct horse battery staple".
Definition ex_pwd2 : bytes := ascii "hunter2".

Lemma toy_htg_neq x : fv (HashToGroup toyR toyH x) <> 0 -> HashToGroup toyR toyH x <> rzero toyR.
Proof. intros H E. apply H. rewrite E. cbn [rzero toyR]. unfold fzero. rewrite fv_of_Z. apply Zmod_0_l. Qed.

Lemma small_random_scalar z : 0 < z < 65536 -> random_scalar z.
Proof. unfold random_scalar. pose proof L_gt_65536. lia. Qed.

Lemma C01_example : exists x k r,
  (length x <= 255)%nat /\ HashToGroup toyR toyH x <> rzero toyR /\
  scalar_buf k /\ (k mod 2 ^ 255) mod L <> 0 /\ random_scalar r /\ ristretto_ok toyR /\ hashes_ok toyH.
Proof.
  exists ex_pwd, (2 ^ 255 + 5), 77.
  split; [vm_compute; repeat constructor|].
  split; [apply toy_htg_neq; vm_compute; discriminate|].
  split; [split; vm_compute; [discriminate|reflexivity]|].
  split; [vm_compute; discriminate|].
  split; [apply small_random_scalar; lia|].
  split; [exact toyR_ok|exact toyH_ok].
Qed.

Lemma C02_example : exists x1 x2 r1,
  x1 <> x2 /\ (length x1 <= 255)%nat /\ (length x2 <= 255)%nat /\
  HashToGroup toyR toyH x1 <> rzero toyR /\ HashToGroup toyR toyH x2 <> rzero toyR /\ random_scalar r1.
Proof.
  exists ex_pwd, ex_pwd2, 77. split; [vm_compute; discriminate|]. split; [vm_compute; repeat constructor|].
  split; [vm_compute; repeat constructor|].
  split; [apply toy_htg_neq; vm_compute; discriminate|].
  split; [apply toy_htg_neq; vm_compute; discriminate|].
  apply small_random_scalar. lia.
Qed.

Lemma C03_example : exists (msg dst : bytes) (len : Z),
  0 <= len <= 255 /\ (length msg <= 255)%nat /\ (length dst <= 254)%nat /\ len = 255 /\ length dst = 40%nat.
Proof.
  exists ex_pwd, rfc_dst, 255. split; [lia|]. split; [vm_compute; repeat constructor|].
  split; [vm_compute; repeat constructor|]. split; reflexivity.
Qed.

Lemma C04_example : exists x1 N1 x2 N2,
  Z.of_nat (length x1) < 2 ^ 16 /\ Z.of_nat (length x2) < 2 ^ 16 /\
  length N1 = 32%nat /\ length N2 = 32%nat /\ (x1, N1) <> (x2, N2) /\
  oprf_Finalize toyH true x1 (Z.of_nat (length x1)) N1 <>
  oprf_Finalize toyH true x2 (Z.of_nat (length x2)) N2.
Proof.
  exists ex_pwd, (zeros 32), ex_pwd2, (zeros 32). repeat split; vm_compute; discriminate.
Qed.

Lemma C05_witness :
  exists R H x r, ristretto_ok R /\ hashes_ok H /\ random_scalar r /\
    HashToGroup R H x <> rzero R /\
    exists b, oprf_Blind R H true true x (Z.of_nat (length x)) r = Ok (0, Some r, Some b) /\
              b <> renc R (rsmul R r (HashToGroup R H x)).
Proof.
  exists toyR, toyH, (ascii "a" ++ zeros 255), 1.
  split; [exact toyR_ok|]. split; [exact toyH_ok|].
  assert (Hr : random_scalar 1) by (apply small_random_scalar; lia).
  split; [exact Hr|].
  split; [apply toy_htg_neq; vm_compute; discriminate|].
  eexists. split.
  - apply blind_truncates; [exact toyR_ok|exact toyH_ok|exact Hr|].
    apply toy_htg_neq. vm_compute. discriminate.
  - vm_compute. discriminate.
Qed.

Lemma C05_example : exists x r, (length x <= 255)%nat /\ random_scalar r /\ HashToGroup toyR toyH x <> rzero toyR.
Proof.
  exists ex_pwd, 5. split; [vm_compute; repeat constructor|].
  split; [apply small_random_scalar; lia|]. apply toy_htg_neq. vm_compute. discriminate.
Qed.

Lemma C06_example : exists r Zb N, scalar_buf r /\ oprf_Unblind toyR true r Zb = (0, Some N).
Proof.
  exists 7, (renc toyR (rbase toyR)). eexists. split; [unfold scalar_buf; split; vm_compute; [discriminate|reflexivity]|].
  apply (unblind_eq toyR toyR_ok); [lia| |exact (ok_base _ toyR_ok)].
  apply random_scalar_neq_0. apply small_random_scalar. lia.
Qed.
