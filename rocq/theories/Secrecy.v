(** C86, C87: proofs. *)
From Coq Require Import ZArith Lia List Bool Field.
From Coq.Strings Require Import Byte.
From Verif Require Import PrimeL Fq Bytes Res Sodium OprfModel OprfSpec OprfProofs ToprfModel ToprfSpec ToprfProofs DkgModel DkgSpec DkgProofs MpmultModel SecrecySpec.
Import ListNotations.
Open Scope list_scope.
Open Scope Z_scope.

(** ** The answer *)
Lemma answer R H : ristretto_ok R -> hashes_ok H -> forall k z alpha P ssid v,
  rdec R alpha = Some P -> 0 <= s_value k < 2 ^ 255 -> 0 <= s_value z < 2 ^ 255 ->
  (toprf_3hashtdh R H true k z alpha ssid = Ok (0, (s_index k, Some v)) <->
   v = renc R (masked R P (mask_point R H ssid alpha) k z) /\ rsmul R (s_value k) P <> rzero R /\ rsmul R (s_value z) (mask_point R H ssid alpha) <> rzero R).
Proof.
  intros HR HH k z alpha P ssid v HD Hk Hz. unfold toprf_3hashtdh, mask_point, masked. change (tdh_hash H ssid alpha) with (blake2b H 64 (mask_input ssid alpha)).
  set (h := HashToGroup R H (blake2b H 64 (mask_input ssid alpha))). pose proof HD as HD'. apply (ok_enc_dec _ HR) in HD'. subst alpha.
  unfold oprf_Evaluate. rewrite (scalarmult_enc_gen R HR) by exact Hk. rewrite (htg_eq R H HH). cbn [bind]. fold h. rewrite Z.eqb_refl. cbn [negb].
  rewrite (scalarmult_enc_gen R HR) by exact Hz. rewrite !(gmul_of_Z R HR) by lia.
  destruct (bytes_eqb (renc R (gmul R (of_Z (s_value k)) P)) (zeros 32)) eqn:E1; cbn [Z.eqb negb].
  - split; [discriminate|]. intros (_ & Q & _). apply (renc_zero_iff R HR) in E1. contradiction.
  - assert (N1 : gmul R (of_Z (s_value k)) P <> rzero R) by (intros Q; apply (renc_zero_iff R HR) in Q; congruence).
    destruct (bytes_eqb (renc R (gmul R (of_Z (s_value z)) h)) (zeros 32)) eqn:E2; cbn [Z.eqb negb].
    + split; [discriminate|]. intros (_ & _ & Q). apply (renc_zero_iff R HR) in E2. contradiction.
    + assert (N2 : gmul R (of_Z (s_value z)) h <> rzero R) by (intros Q; apply (renc_zero_iff R HR) in Q; congruence).
      rewrite (core_add_enc R HR). split; [intros Q; split; [congruence|auto]|intros (-> & _); reflexivity].
Qed.

(** ** The mask *)
Lemma mask_input_inj s a s' a' : Z.of_nat (length s) < 2 ^ 16 -> Z.of_nat (length s') < 2 ^ 16 -> mask_input s a = mask_input s' a' -> s = s' /\ a = a'.
Proof.
  intros Hs Hs' E. unfold mask_input, I2OSP in E. 
  assert (E1 : be_bytes 2 (Z.of_nat (length s)) = be_bytes 2 (Z.of_nat (length s'))).
  { apply (f_equal (firstn 2)) in E. rewrite !firstn_app, !be_bytes_length, Nat.sub_diag, !firstn_O, !app_nil_r in E. rewrite !firstn_all2 in E by (rewrite be_bytes_length; lia). exact E. }
  rewrite E1 in E. apply app_inv_head in E. apply be_bytes_inj in E1; [|change (256 ^ Z.of_nat 2) with (2 ^ 16); lia|change (256 ^ Z.of_nat 2) with (2 ^ 16); lia].
  assert (El : length s = length s') by lia. apply app_inj_len in E; [exact E|exact El].
Qed.
Lemma mask_bound R H s a s' a' : Z.of_nat (length s) < 2 ^ 16 -> Z.of_nat (length s') < 2 ^ 16 -> mask_point R H s a = mask_point R H s' a' ->
  (s = s' /\ a = a') \/
  (mask_input s a <> mask_input s' a' /\ blake2b H 64 (mask_input s a) = blake2b H 64 (mask_input s' a')) \/
  (blake2b H 64 (mask_input s a) <> blake2b H 64 (mask_input s' a') /\
   HashToGroup R H (blake2b H 64 (mask_input s a)) = HashToGroup R H (blake2b H 64 (mask_input s' a'))).
Proof.
  intros Hs Hs' E. destruct (list_eq_dec Byte.byte_eq_dec (mask_input s a) (mask_input s' a')) as [Q|N]; [left; apply mask_input_inj; assumption|right].
  destruct (list_eq_dec Byte.byte_eq_dec (blake2b H 64 (mask_input s a)) (blake2b H 64 (mask_input s' a'))) as [Q|N']; auto.
Qed.

(** ** The answers are those of every sharing of the key *)
Fixpoint shifted (c : Z) (z a a' : list Z) : list Z :=
  match z, a, a' with x :: z, y :: a, y' :: a' => ((x + c * (y - y')) mod L) :: shifted c z a a' | _, _, _ => [] end.
Lemma shifted_len c : forall z a a', length a = length z -> length a' = length z -> length (shifted c z a a') = length z.
Proof. induction z as [|x z IH]; intros [|y a] [|y' a'] H H'; cbn in *; try lia. rewrite IH by lia. reflexivity. Qed.
Lemma shifted_range c : forall z a a', Forall (fun x => 0 <= x < L) (shifted c z a a').
Proof. pose proof L_pos. induction z as [|x z IH]; intros [|y a] [|y' a']; constructor; [apply Z.mod_pos_bound; lia|apply IH]. Qed.
Lemma shifted_poly c x : forall z a a', length a = length z -> length a' = length z ->
  of_Z (poly (shifted c z a a') x) = of_Z (poly z x + c * (poly a x - poly a' x)).
Proof.
  induction z as [|u z IH]; intros [|y a] [|y' a'] H H'; cbn [length] in H, H'; try lia; [cbn [shifted poly]; f_equal; lia|].
  cbn [shifted poly]. rewrite of_Z_add, of_Z_mod, of_Z_mul, IH by lia. rewrite <- of_Z_mul, <- of_Z_add. f_equal. ring.
Qed.

Lemma masked_eq R : ristretto_ok R -> forall P h c k z k' z', P = gmul R c h -> 0 <= s_value k -> 0 <= s_value z -> 0 <= s_value k' -> 0 <= s_value z' ->
  (of_Z (s_value z') = of_Z (s_value z) + c * (of_Z (s_value k) - of_Z (s_value k')))%fq -> masked R P h k' z' = masked R P h k z.
Proof.
  intros HR P h c k z k' z' -> H1 H2 H3 H4 E. unfold masked. rewrite !(gmul_of_Z R HR) by assumption. rewrite <- !(gmul_mul R HR), <- !(gmul_add R HR). f_equal. rewrite E. ring.
Qed.
Lemma combine_shares f g : forall l, combine (map (fun i => mkShare i (f i)) l) (map (fun i => mkShare i (g i)) l) = map (fun i => (mkShare i (f i), mkShare i (g i))) l.
Proof. induction l as [|i l IH]; cbn; [reflexivity|]. f_equal. exact IH. Qed.
Lemma answers_shares R P h cs zs n : masked_answers R P h (shares_of cs n) (shares_of zs n) =
  map (fun i => (i, renc R (masked R P h (mkShare i (poly cs i mod L)) (mkShare i (poly zs i mod L))))) (map Z.of_nat (seq 1 (Z.to_nat n))).
Proof.
  unfold masked_answers, shares_of. rewrite (combine_shares (fun i => poly cs i mod L) (fun i => poly zs i mod L)). rewrite map_map. reflexivity.
Qed.
Lemma renc_inj R : ristretto_ok R -> forall a b, renc R a = renc R b -> a = b.
Proof. intros HR a b E. apply (f_equal (rdec R)) in E. rewrite !(ok_dec_enc _ HR) in E. congruence. Qed.

(** For every sharing of the same key there is exactly one sharing of zero with the same answers. *)
Lemma answers_hide R : ristretto_ok R -> forall secret n t a z a' buf buf' kshares zshares kshares' P h,
  sharing_params secret n t a buf -> create_shares secret n t a buf = Ok kshares ->
  sharing_params 0 n t z buf' -> create_shares 0 n t z buf' = Ok zshares ->
  sharing_params secret n t a' buf -> create_shares secret n t a' buf = Ok kshares' ->
  t - 1 <= n -> h <> rzero R ->
  exists! z', scalars (t - 1) z' /\ exists zshares', create_shares 0 n t z' buf' = Ok zshares' /\
    masked_answers R P h kshares' zshares' = masked_answers R P h kshares zshares.
Proof.
  intros HR secret n t a z a' buf buf' kshares zshares kshares' P h Pa Ca Pz Cz Pa' Ca' Hn Hh.
  apply (created _ _ _ _ _ _ Pa) in Ca. apply (created _ _ _ _ _ _ Pz) in Cz. apply (created _ _ _ _ _ _ Pa') in Ca'. subst kshares zshares kshares'.
  destruct Pa as (A1 & A2 & A3 & A4 & A5). destruct Pz as (_ & _ & _ & Z4 & Z5). destruct Pa' as (_ & _ & _ & A4' & _).
  destruct (gmul_between R HR h P Hh) as (c & EP). pose proof L_pos as Lp. set (z' := shifted (fv c) z a a').
  assert (Ln : Z.of_nat (length z') = t - 1) by (unfold z'; rewrite shifted_len; lia).
  assert (Key : forall i, of_Z (poly (0 :: z') i mod L) = (of_Z (poly (0 :: z) i mod L)%Z + c * (of_Z (poly (secret :: a) i mod L)%Z - of_Z (poly (secret :: a') i mod L)%Z))%fq).
  { intros i. rewrite !of_Z_mod. cbn [poly]. rewrite !of_Z_add, !of_Z_mul. unfold z'. rewrite shifted_poly by lia. rewrite !of_Z_add, of_Z_mul, of_Z_sub, of_Z_fv. change (of_Z 0) with 0%fq. ring. }
  assert (Rg : forall cs i, 0 <= poly cs i mod L) by (intros; apply Z.mod_pos_bound; lia).
  exists z'. split.
  - split; [split; [exact Ln|apply shifted_range]|]. exists (shares_of (0 :: z') n). split; [apply create_shares_eq; lia|]. rewrite !answers_shares. apply map_ext. intros i. f_equal. f_equal.
    apply (masked_eq R HR P h c); try exact EP; cbn [s_value]; try apply Rg. apply Key.
  - intros y ((Ly & Ry) & ys & Cy & Ey). rewrite (create_shares_eq 0 n t y buf') in Cy by lia. assert (ys = shares_of (0 :: y) n) by congruence. subst ys. clear Cy.
    rewrite !answers_shares in Ey.
    assert (Vy : forall i, 1 <= i <= n -> poly (0 :: y) i mod L = poly (0 :: z') i mod L).
    { intros i Hi. assert (Ei : masked R P h (mkShare i (poly (secret :: a') i mod L)) (mkShare i (poly (0 :: y) i mod L)) = masked R P h (mkShare i (poly (secret :: a) i mod L)) (mkShare i (poly (0 :: z) i mod L))).
      { apply (renc_inj R HR). assert (Hin : In i (map Z.of_nat (seq 1 (Z.to_nat n)))) by (apply in_map_iff; exists (Z.to_nat i); split; [lia|apply in_seq; lia]).
        assert (Q := ext_in_map Ey i Hin). cbv beta in Q. congruence. }
      assert (Ei' : masked R P h (mkShare i (poly (secret :: a') i mod L)) (mkShare i (poly (0 :: z') i mod L)) = masked R P h (mkShare i (poly (secret :: a) i mod L)) (mkShare i (poly (0 :: z) i mod L))).
      { apply (masked_eq R HR P h c); try exact EP; cbn [s_value]; try apply Rg. apply Key. }
      rewrite <- Ei' in Ei. unfold masked in Ei. cbn [s_value] in Ei. apply (radd_cancel_l R HR) in Ei. rewrite !(gmul_of_Z R HR) in Ei by apply Rg. apply (gmul_inj R HR) in Ei; [|exact Hh].
      apply of_Z_eq in Ei. rewrite !Zmod_mod in Ei. exact Ei. }
    set (known := firstn (Z.to_nat (t - 1)) (shares_of (0 :: z') n)).
    assert (Kin : forall s, In s known -> In s (shares_of (0 :: z') n)) by (intros s Hs; unfold known in Hs; rewrite <- (firstn_skipn (Z.to_nat (t - 1)) (shares_of (0 :: z') n)); apply in_or_app; left; exact Hs).
    assert (Ki : map s_index known = map Z.of_nat (seq 1 (Z.to_nat (t - 1)))).
    { unfold known. rewrite <- firstn_map. unfold shares_of. rewrite map_map. cbn [s_index]. rewrite map_id, firstn_map. f_equal.
      replace (Z.to_nat n) with (Z.to_nat (t - 1) + (Z.to_nat n - Z.to_nat (t - 1)))%nat by lia. rewrite seq_app, firstn_app, seq_length, Nat.sub_diag, firstn_O, app_nil_r. apply firstn_all2. rewrite seq_length. lia. }
    assert (Hnd : NoDup (map s_index known)) by (rewrite Ki; apply FinFun.Injective_map_NoDup; [intros u v; lia|apply seq_NoDup]).
    assert (HF : Forall (fun s => 1 <= s_index s <= n /\ 0 <= s_value s < L) known).
    { apply Forall_forall. intros s Hs. apply Kin in Hs. apply shares_of_In in Hs; [|lia]. destruct Hs as (Q1 & ->). split; [exact Q1|]. apply Z.mod_pos_bound. lia. }
    assert (Hl : Z.of_nat (length known) = t - 1) by (rewrite <- (map_length s_index), Ki, map_length, seq_length; lia).
    destruct (secrecy 0 n t buf' known ltac:(lia) A2 A3 Z5 Hnd HF Hl) as (u & _ & Uu).
    transitivity u; [symmetry|]; apply Uu; (split; [|split]); try assumption; try apply shifted_range.
    + exists (shares_of (0 :: z') n). split; [apply create_shares_eq; lia|]. intros s Hs. apply Kin. exact Hs.
    + exists (shares_of (0 :: y) n). split; [apply create_shares_eq; lia|]. intros s Hs. apply Kin in Hs. apply shares_of_In in Hs; [|lia]. apply shares_of_In; [lia|]. destruct Hs as (Q1 & Q2). split; [exact Q1|]. rewrite Vy by exact Q1. exact Q2.
Qed.

(** ** The shares a dealer hands out *)
Lemma dealer_secrecy R secret n t cbuf sbuf known :
  0 <= secret < L -> 1 <= n <= 254 -> 1 <= t <= 255 -> Z.of_nat (length cbuf) = t -> Z.of_nat (length sbuf) = n ->
  NoDup (map s_index known) -> Forall (fun s => 1 <= s_index s <= n /\ 0 <= s_value s < L) known -> Z.of_nat (length known) = t - 1 ->
  exists! a, scalars t a /\ nth_error a 0 = Some secret /\ exists cs shares, dkg_start R true n t a cbuf sbuf = Ok (0, cs, shares) /\ incl known shares.
Proof.
  intros Hs Hn Ht Hc Hb Hnd HF Hk. destruct (secrecy secret n t sbuf known Hs Hn Ht Hb Hnd HF Hk) as (a & (La & Ra & shares & Cs & In1) & U).
  rewrite create_shares_eq in Cs by lia. assert (shares = shares_of (secret :: a) n) by congruence. subst shares. exists (secret :: a). split.
  - split; [split; [cbn [length]; lia|constructor; assumption]|]. split; [reflexivity|]. exists (commitments_of R (secret :: a)), (shares_of (secret :: a) n).
    split; [|exact In1]. apply dkg_start_eq; [exact Hn|exact Ht|cbn [length]; lia|constructor; assumption|exact Hc|exact Hb].
  - intros y ((Ly & Ry) & Y0 & cs & sh & Dy & In2). destruct y as [|y0 y]; [discriminate|]. cbn in Y0. assert (y0 = secret) by congruence. subst y0. f_equal. apply U.
    cbn [length] in Ly. pose proof (Forall_inv_tail Ry) as R2. split; [lia|]. split; [exact R2|]. rewrite (dkg_start_eq R n t (secret :: y) cbuf sbuf) in Dy; [|exact Hn|exact Ht|cbn [length]; lia|exact Ry|exact Hc|exact Hb].
    exists (shares_of (secret :: y) n). split; [apply create_shares_eq; lia|]. assert (sh = shares_of (secret :: y) n) by congruence. subst sh. exact In2.
Qed.
Lemma commitments_bind R : ristretto_ok R -> forall n t a a' cbuf sbuf cs sh sh', 1 <= n <= 254 -> 1 <= t <= 255 -> scalars t a -> scalars t a' ->
  Z.of_nat (length cbuf) = t -> Z.of_nat (length sbuf) = n ->
  dkg_start R true n t a cbuf sbuf = Ok (0, cs, sh) -> dkg_start R true n t a' cbuf sbuf = Ok (0, cs, sh') -> a = a'.
Proof.
  intros HR n t a a' cbuf sbuf cs sh sh' Hn Ht (La & Ra) (La' & Ra') Hc Hb D1 D2. rewrite dkg_start_eq in D1, D2 by assumption.
  assert (E : commitments_of R a = commitments_of R a') by congruence. clear D1 D2. assert (Ln : length a = length a') by lia. clear La La'.
  revert a' Ra' E Ln. induction Ra as [|x a Hx Ra IH]; intros [|y a'] Ra' E Ln; cbn [length] in Ln; try lia; [reflexivity|]. inversion Ra' as [|? ? Hy Ra2]; subst.
  unfold commitments_of in E. cbn [map] in E. assert (E1 : renc R (rsmul R x (rbase R)) = renc R (rsmul R y (rbase R))) by congruence. apply (renc_inj R HR) in E1.
  rewrite !(gmul_of_Z R HR) in E1 by lia. apply (gmul_inj R HR) in E1; [|apply (ok_base _ HR)]. apply of_Z_inj in E1; try lia. subst y. f_equal. apply IH; [exact Ra2| |lia]. unfold commitments_of. congruence.
Qed.

(** ** The shares of a local product *)
Lemma product_secrecy a b peers t buf known :
  s_index a = s_index b -> 1 <= t <= peers -> peers <= 254 -> Z.of_nat (length buf) = peers ->
  NoDup (map s_index known) -> Forall (fun s => 1 <= s_index s <= peers /\ 0 <= s_value s < L) known -> Z.of_nat (length known) = t - 1 ->
  exists! r, scalars (t - 1) r /\ exists shares, mpc_mul_start a b peers t r buf = Ok (0, shares) /\ incl known shares.
Proof.
  intros Hi Ht Hp Hb Hnd HF Hk. pose proof L_pos.
  destruct (secrecy (scalar_mul (s_value a) (s_value b)) peers t buf known ltac:(unfold scalar_mul; apply Z.mod_pos_bound; lia) ltac:(lia) ltac:(lia) Hb Hnd HF Hk) as (r & (Lr & Rr & sh & Cs & In1) & U).
  assert (Eq : forall r, mpc_mul_start a b peers t r buf = (do shares <- create_shares (scalar_mul (s_value a) (s_value b)) peers t r buf ;; Ok (0, shares))).
  { intros r'. unfold mpc_mul_start. rewrite (proj2 (Z.eqb_eq _ _) Hi), (proj2 (Z.ltb_ge peers t)), (proj2 (Z.eqb_neq t 0)) by lia. reflexivity. }
  exists r. split.
  - split; [split; assumption|]. exists sh. split; [|exact In1]. rewrite Eq, Cs. reflexivity.
  - intros y ((Ly & Ry) & sy & Dy & In2). apply U. split; [exact Ly|]. split; [exact Ry|]. rewrite Eq in Dy. destruct (create_shares _ peers t y buf) as [s|] eqn:E; [|discriminate]. cbn [bind] in Dy. exists s. split; [reflexivity|]. assert (s = sy) by congruence. subst s. exact In2.
Qed.
