(** Proofs about the model of src/dkg.c *)
From Coq Require Import ZArith Lia List Bool Permutation Sorting.Sorted.
From Coq.Strings Require Import Byte.
From Verif Require Import PrimeL Fq Poly Bytes Res Sodium OprfModel OprfSpec OprfProofs.
From Verif Require Import ToprfModel ToprfSpec ToprfProofs DkgModel DkgSpec.
Import ListNotations.
Open Scope list_scope.
Open Scope Z_scope.

(** ** polynom and dkg_start *)
Lemma polynom_aux a x m : forall l2 l1 acc,
  a = l1 ++ l2 -> length l2 = m -> 0 <= acc < L ->
  exists v, foldM (fun t acc =>
                   let tmp := mul_times (Z.to_nat t) 1 x in
                   do at_ <- getz a t ;;
                   let tmp := scalar_mul at_ tmp in
                   Ok (scalar_add acc tmp)) (zrange (Z.of_nat (length l1)) m) acc = Ok v /\
    of_Z v = (of_Z acc + fpow (of_Z x) (length l1) * peval (map of_Z l2) (of_Z x))%fq /\
    0 <= v < L.
Proof.
  induction m as [|m IH]; intros l2 l1 acc Ha Hl Hacc.
  - destruct l2; [|discriminate]. exists acc. cbn. split; [reflexivity|]. split; [ring|assumption].
  - destruct l2 as [|c l2]; [discriminate|]. rewrite zrange_S. cbn [foldM].
    assert (E : getz a (Z.of_nat (length l1)) = Ok c).
    { unfold getz. destruct (Z.ltb_spec (Z.of_nat (length l1)) 0); [lia|]. rewrite Nat2Z.id, Ha.
      rewrite nth_error_app2, Nat.sub_diag by lia. reflexivity. }
    cbv zeta. rewrite E. cbn [bind].
    destruct (IH l2 (l1 ++ [c]) (scalar_add acc (scalar_mul c (mul_times (Z.to_nat (Z.of_nat (length l1))) 1 x))))
      as (v & Ev & Hv & Hr).
    + rewrite <- app_assoc. assumption.
    + cbn in Hl. lia.
    + apply scalar_add_range.
    + rewrite app_length in Ev. cbn [length] in Ev.
      replace (Z.of_nat (length l1 + 1)) with (Z.of_nat (length l1) + 1) in Ev by lia.
      exists v. split; [exact Ev|]. split; [|assumption].
      rewrite Hv, of_Z_scalar_add_L, of_Z_scalar_mul, of_Z_mul_times, Nat2Z.id; [|assumption|apply scalar_mul_range].
      rewrite app_length. cbn [length map peval]. rewrite Nat.add_1_r. cbn [fpow].
      change (of_Z 1) with 1%fq. ring.
Qed.

Lemma polynom_eq j t a : 1 <= t -> Z.of_nat (length a) = t -> Forall (fun x => 0 <= x < L) a ->
  polynom j t a = Ok (mkShare j (poly a j mod L)).
Proof.
  intros Ht Ha HF. destruct a as [|a0 a]; [cbn in Ha; lia|]. unfold polynom.
  change (getz (a0 :: a) 0) with (Ok a0). cbn [bind]. inversion HF as [|? ? Ha0 HF']; subst.
  destruct (polynom_aux (a0 :: a) j (length a) a [a0] a0 eq_refl eq_refl Ha0) as (v & E & Ev & Hv).
  replace (Z.to_nat (Z.of_nat (length (a0 :: a)) - 1)) with (length a) by (cbn [length]; lia).
  cbn [length] in E. change (Z.of_nat 1) with 1 in E. rewrite E. cbn [bind]. do 2 f_equal.
  apply eq_mod_of_Z; [assumption|]. rewrite Ev, of_Z_poly. cbn [length map peval fpow]. ring.
Qed.

Lemma fill_loop0 {A} (f : Z -> A) (body : Z -> list A -> res (list A)) k buf :
  length buf = k ->
  (forall i b, In i (zrange 0 k) -> body i b = updz b i (f i)) ->
  foldM body (zrange 0 k) buf = Ok (map f (zrange 0 k)).
Proof.
  intros Hlen Hbody.
  assert (G : forall r m done rest, length done = m -> length rest = r -> (m + r = k)%nat ->
    foldM body (zrange (Z.of_nat m) r) (done ++ rest) = Ok (done ++ map f (zrange (Z.of_nat m) r))).
  { induction r as [|r IH]; intros m done rest Hd Hr Hm.
    - destruct rest; [|discriminate]. reflexivity.
    - destruct rest as [|x rest]; [discriminate|]. rewrite zrange_S. cbn [foldM map].
      rewrite Hbody by (apply zrange_In; lia).
      unfold updz. destruct (Z.ltb_spec (Z.of_nat m) 0); [lia|]. rewrite Nat2Z.id, <- Hd, upd_app_mid.
      cbn [of_opt bind]. rewrite Hd. replace (Z.of_nat m + 1) with (Z.of_nat (S m)) by lia.
      change (done ++ f (Z.of_nat m) :: rest) with (done ++ [f (Z.of_nat m)] ++ rest). rewrite app_assoc.
      rewrite IH; [|rewrite app_length; cbn; lia|cbn in Hr; lia|lia]. rewrite <- app_assoc. reflexivity. }
  apply (G k O [] buf); auto.
Qed.

Lemma map_zrange0_nth {A B} (f : A -> B) (g : Z -> B) (l : list A) :
  (forall i x, nth_error l i = Some x -> g (Z.of_nat i) = f x) ->
  map g (zrange 0 (length l)) = map f l.
Proof.
  intros H. unfold zrange. rewrite map_map. revert g H.
  induction l as [|x l IH]; intros g H; [reflexivity|]. cbn [length seq map]. f_equal.
  - apply (H O). reflexivity.
  - rewrite <- seq_shift, map_map.
    rewrite <- (IH (fun z => g (z + 1))).
    + apply map_ext. intros i. f_equal. lia.
    + intros i y E. rewrite <- (H (S i) y E). f_equal. lia.
Qed.

Lemma dkg_start_eq R n t a cbuf sbuf :
  1 <= n <= 254 -> 1 <= t <= 255 -> Z.of_nat (length a) = t -> Forall (fun x => 0 <= x < L) a ->
  Z.of_nat (length cbuf) = t -> Z.of_nat (length sbuf) = n ->
  dkg_start R true n t a cbuf sbuf = Ok (0, commitments_of R a, shares_of a n).
Proof.
  intros Hn Ht Ha HF Hc Hs. unfold dkg_start. cbn [negb].
  rewrite (fill_loop0 (fun k => match nth_error a (Z.to_nat k) with
                                | Some x => renc R (rsmul R (x mod 2 ^ 255) (rbase R)) | None => [] end)).
  2:{ lia. }
  2:{ intros i b Hi. apply zrange_In in Hi. unfold getz. destruct (Z.ltb_spec i 0); [lia|].
      destruct (nth_error a (Z.to_nat i)) as [x|] eqn:E; [reflexivity|]. apply nth_error_None in E. lia. }
  cbn [bind]. replace (Z.to_nat t) with (length a) by lia.
  rewrite (map_zrange0_nth (fun x => renc R (rsmul R (x mod 2 ^ 255) (rbase R)))).
  2:{ intros i x E. rewrite Nat2Z.id, E. reflexivity. }
  rewrite (loop_u8_le_foldM _ _ _ _ _ (Z.to_nat n)) by lia.
  rewrite (fill_loop (fun j => mkShare j (poly a j mod L))); [|lia|].
  2:{ intros i b _ _. rewrite (polynom_eq i t a) by (assumption || lia). reflexivity. }
  cbn [bind]. unfold shares_of. rewrite <- (zrange_seq 1).
  assert (EC : map (fun x => renc R (rsmul R (x mod 2 ^ 255) (rbase R))) a = commitments_of R a).
  { unfold commitments_of. apply map_ext_in. intros x Hx.
    pose proof (proj1 (Forall_forall _ _) HF x Hx). cbv beta in *. pose proof L_lt_2_255.
    rewrite Z.mod_small by lia. reflexivity. }
  rewrite EC. reflexivity.
Qed.

(** ** bounds and termination (C15) *)
Lemma share_value_is_ok secret t a x : 1 <= t -> Z.of_nat (length a) = t - 1 -> is_ok (share_value secret t a x).
Proof.
  intros Ht Ha. unfold share_value.
  destruct (foldM_is_ok (fun (j acc : Z) => do aj <- getz a j ;;
           let tmp := mul_times (Z.to_nat j) (scalar_mul aj x) x in Ok (scalar_add acc tmp))
           (fun _ => True) (zrange 0 (Z.to_nat (t - 1))) secret I) as (v & E & _).
  - intros i s1 Hi _. apply zrange_In in Hi. unfold getz. destruct (Z.ltb_spec i 0); [lia|].
    destruct (nth_error a (Z.to_nat i)) eqn:E; [|apply nth_error_None in E; lia].
    cbn [of_opt bind]. eexists; split; [reflexivity|exact I].
  - exists v. exact E.
Qed.

Lemma updz_ok {A} (l : list A) i v : 0 <= i < Z.of_nat (length l) ->
  exists l', updz l i v = Ok l' /\ length l' = length l.
Proof.
  intros Hi. unfold updz. destruct (Z.ltb_spec i 0); [lia|].
  destruct (upd_some l (Z.to_nat i) v) as (l' & E); [lia|]. rewrite E. exists l'. split; [reflexivity|].
  eapply upd_length; eassumption.
Qed.

Lemma create_shares_safe secret n t a buf : 0 <= n <= 254 -> 1 <= t <= 255 ->
  Z.of_nat (length a) = t - 1 -> Z.of_nat (length buf) = n ->
  exists shares, create_shares secret n t a buf = Ok shares /\ length shares = length buf.
Proof.
  intros Hn Ht Ha Hb. unfold create_shares. destruct (Z.ltb_spec (t - 1) 0); [lia|].
  rewrite (loop_u8_le_foldM _ _ _ _ _ (Z.to_nat n)) by lia.
  apply (foldM_is_ok _ (fun b => length b = length buf)); [reflexivity|].
  intros i b Hi Hl. apply zrange_In in Hi. destruct (share_value_is_ok secret t a i) as (v & ->); [lia|assumption|].
  cbn [bind]. destruct (updz_ok b (i - 1) (mkShare i v)) as (b' & -> & Hb'); [lia|]. exists b'. split; [reflexivity|lia].
Qed.

Lemma polynom_is_ok i t a : 1 <= t -> Z.of_nat (length a) = t -> is_ok (polynom i t a).
Proof.
  intros Ht Ha. unfold polynom. destruct a as [|a0 a]; [cbn in Ha; lia|].
  change (getz (a0 :: a) 0) with (Ok a0). cbn [bind]. apply bind_is_ok; [|intros v _; eexists; reflexivity].
  match goal with |- is_ok (foldM ?f ?l ?s) => destruct (foldM_is_ok f (fun _ => True) l s I) as (v & E & _) end.
  - intros k s1 Hk _. apply zrange_In in Hk. cbv zeta. unfold getz. destruct (Z.ltb_spec k 0); [lia|].
    destruct (nth_error (a0 :: a) (Z.to_nat k)) eqn:E; [|apply nth_error_None in E; lia].
    cbn [of_opt bind]. eexists; split; [reflexivity|exact I].
  - exists v. exact E.
Qed.

Lemma dkg_start_safe R n t a cbuf sbuf : 0 <= n <= 254 -> 1 <= t <= 255 ->
  Z.of_nat (length a) = t -> Z.of_nat (length cbuf) = t -> Z.of_nat (length sbuf) = n ->
  exists cs ss, dkg_start R true n t a cbuf sbuf = Ok (0, cs, ss) /\ length cs = length cbuf /\ length ss = length sbuf.
Proof.
  intros Hn Ht Ha Hc Hs. unfold dkg_start. cbn [negb].
  destruct (foldM_is_ok (fun (k : Z) (cs : list bytes) => do ak <- getz a k ;;
                                       updz cs k (snd (scalarmult_base R ak)))
             (fun b => length b = length cbuf) (zrange 0 (Z.to_nat t)) cbuf eq_refl) as (cs & Ec & Hcs).
  { intros i b Hi Hl. apply zrange_In in Hi. unfold getz. destruct (Z.ltb_spec i 0); [lia|].
    destruct (nth_error a (Z.to_nat i)) eqn:E; [|apply nth_error_None in E; lia]. cbn [of_opt bind].
    destruct (updz_ok b i (snd (scalarmult_base R z))) as (b' & -> & Hb'); [lia|]. exists b'. split; [reflexivity|lia]. }
  rewrite Ec. cbn [bind]. rewrite (loop_u8_le_foldM _ _ _ _ _ (Z.to_nat n)) by lia.
  destruct (foldM_is_ok (fun (j : Z) (ss : list share) => do s <- polynom j t a ;; updz ss (j - 1) s)
             (fun b => length b = length sbuf) (zrange 1 (Z.to_nat n)) sbuf eq_refl) as (ss & Es & Hss).
  { intros i b Hi Hl. apply zrange_In in Hi.
    destruct (polynom_is_ok i t a) as (v & ->); [lia|assumption|].
    cbn [bind]. destruct (updz_ok b (i - 1) v) as (b' & -> & Hb'); [lia|]. exists b'. split; [reflexivity|lia]. }
  rewrite Es. cbn [bind]. exists cs, ss. auto.
Qed.

Lemma create_shares_t0_UB secret n a buf : create_shares secret n 0 a buf = UB.
Proof. reflexivity. Qed.

Lemma dkg_start_255_UB R t a cbuf sbuf : dkg_start R true 255 t a cbuf sbuf = UB.
Proof.
  unfold dkg_start. cbn [negb]. destruct (foldM _ _ cbuf) as [cs|]; [|reflexivity]. cbn [bind].
  rewrite loop_u8_le_255_UB by lia. reflexivity.
Qed.

Lemma dkg_start_t0_UB R n cbuf sbuf : 1 <= n <= 254 -> dkg_start R true n 0 [] cbuf sbuf = UB.
Proof.
  intros Hn. unfold dkg_start. change 257%nat with (S 256). cbn [negb]. change (zrange 0 (Z.to_nat 0)) with (@nil Z). cbn [foldM bind].
  generalize 256%nat as fuel. intros fuel. unfold loop_u8_le at 1. fold (@loop_u8_le (list share)).
  destruct (Z.leb_spec 1 n); [|lia]. reflexivity.
Qed.

(** ** reconstruction (C08) *)
Lemma reconstruct_fold (f : share -> Z) l acc : 0 <= acc < L -> (forall s, 0 <= f s < L) ->
  of_Z (fold_left (fun result r => scalar_add result (f r)) l acc) =
    (of_Z acc + fsum (map (fun s => of_Z (f s)) l))%fq /\
  0 <= fold_left (fun result r => scalar_add result (f r)) l acc < L.
Proof.
  revert acc. induction l as [|s l IH]; intros acc Hacc Hf; cbn [fold_left map].
  - split; [|assumption]. cbn. ring.
  - destruct (IH (scalar_add acc (f s)) (scalar_add_range _ _) Hf) as (E & Hr).
    split; [|assumption]. rewrite E, of_Z_scalar_add_L by auto. rewrite fsum_cons. ring.
Qed.

Lemma dkg_reconstruct_spec cs qs :
  NoDup (map s_index qs) -> Forall index_ok (map s_index qs) -> (length cs <= length qs)%nat ->
  (forall s, In s qs -> of_Z (s_value s) = of_Z (poly cs (s_index s))) ->
  dkg_reconstruct qs = poly cs 0 mod L.
Proof.
  intros Hnd HF Hlen Hv. unfold dkg_reconstruct. cbv zeta.
  destruct (reconstruct_fold (fun r => scalar_mul (s_value r) (coeff (s_index r) (map s_index qs))) qs 0)
    as (E & Hr); [pose proof L_pos; lia|intros; apply scalar_mul_range|].
  apply eq_mod_of_Z; [exact Hr|]. rewrite E. rewrite <- (coeff_interpolate cs qs) by assumption.
  change (of_Z 0) with 0%fq. transitivity (fsum (map (fun s => of_Z (scalar_mul (s_value s) (coeff (s_index s) (map s_index qs)))) qs)); [ring|].
  f_equal. apply map_ext. intros s. rewrite of_Z_scalar_mul. ring.
Qed.

Lemma reconstruct_quorum secret n t a buf shares qs :
  sharing_params secret n t a buf -> create_shares secret n t a buf = Ok shares ->
  quorum t shares qs -> dkg_reconstruct qs = secret.
Proof.
  intros HP HC HQ. apply (created _ _ _ _ _ _ HP) in HC. subst shares.
  destruct (quorum_ready _ _ _ _ _ _ HP HQ) as (Q1 & Q2 & Q3 & Q4 & Q5).
  rewrite (dkg_reconstruct_spec (secret :: a)); try assumption.
  - rewrite poly_cons_0. apply Z.mod_small. destruct HP. assumption.
  - intros s Hs. apply Q5. assumption.
Qed.

(** ** verification *)
Section Verify.
  Variable R : ristretto.
  Hypothesis HR : ristretto_ok R.

  Lemma gpoly_gmul Cs x : 0 <= x -> gpoly R Cs x = match Cs with [] => rzero R | C :: Cs' => radd R C (gmul R (of_Z x) (gpoly R Cs' x)) end.
  Proof. intros Hx. destruct Cs; [reflexivity|]. cbn [gpoly]. rewrite (gmul_of_Z R HR) by assumption. reflexivity. Qed.

  Lemma verify_mult j k : index_ok j -> (1 <= k)%nat ->
    0 <= mul_times (k - 1) j j < 2 ^ 255 /\ of_Z (mul_times (k - 1) j j) = fpow (of_Z j) k.
  Proof.
    intros Hj Hk. unfold index_ok in Hj. pose proof L_gt_65536. pose proof L_lt_2_255.
    pose proof (mul_times_range (k - 1) j j ltac:(lia)). split; [lia|].
    rewrite of_Z_mul_times. destruct k as [|k]; [lia|]. cbn [fpow]. rewrite Nat.sub_0_r || idtac.
    replace (S k - 1)%nat with k by lia. reflexivity.
  Qed.

  Lemma verify_loop_ok j cs Cs : index_ok j -> decode_all R cs Cs -> Forall (fun C => C <> rzero R) Cs ->
    forall k V, (1 <= k)%nat ->
    verify_loop R j k cs (renc R V) = Some (renc R (radd R V (gmul R (fpow (of_Z j) k) (gpoly R Cs j)))).
  Proof.
    intros Hj HD. induction HD as [|c C cs Cs Hc HD IH]; intros HF k V Hk; cbn [verify_loop gpoly].
    - rewrite (gmul_zero R HR), (radd_0_r R HR). reflexivity.
    - inversion HF as [|? ? HC HF']; subst. destruct (verify_mult j k Hj Hk) as (Hr & Ek).
      apply (ok_enc_dec _ HR) in Hc. subst c.
      rewrite (scalarmult_enc R HR); [|assumption| |assumption].
      2:{ rewrite Ek. apply fpow_neq_0. apply of_Z_index_neq_0. assumption. }
      rewrite Z.eqb_refl, (core_add_enc R HR), Ek.
      rewrite IH by (assumption || lia). do 2 f_equal.
      rewrite (gmul_of_Z R HR) by (unfold index_ok in Hj; lia).
      rewrite (gmul_add_distr R HR), (radd_assoc R HR). f_equal.
      rewrite <- (gmul_mul R HR). f_equal. cbn [fpow]. ring.
  Qed.

  Lemma verify_loop_bad j cs : index_ok j ->
    forall k v, (1 <= k)%nat ->
    (verify_loop R j k cs v = None <->
     ~ exists Cs, decode_all R cs Cs /\ Forall (fun C => C <> rzero R) Cs).
  Proof.
    intros Hj. induction cs as [|c cs IH]; intros k v Hk; cbn [verify_loop].
    - split; [discriminate|]. intros H. exfalso. apply H. exists []. split; constructor.
    - destruct (verify_mult j k Hj Hk) as (Hr & Ek).
      destruct (rdec R c) as [C|] eqn:Ec.
      + pose proof (ok_enc_dec _ HR _ _ Ec) as Ec'. subst c. clear Ec.
        pose proof (ok_dec_enc _ HR C) as Ec.
        destruct (bytes_eqb (renc R C) (zeros 32)) eqn:E0.
        * apply (renc_zero_iff R HR) in E0. subst C. rewrite (scalarmult_enc_gen R HR) by assumption.
          rewrite (gmul_zero R HR), (proj2 (renc_zero_iff R HR (rzero R)) eq_refl). cbn [Z.eqb].
          split; [intros _|reflexivity]. intros (Cs & HD & HF). inversion HD as [|? C' ? ? HC' HD']; subst.
          rewrite Ec in HC'. inversion HC'; subst. inversion HF; subst. contradiction.
        * assert (HC : C <> rzero R). { intros E. apply (renc_zero_iff R HR) in E. congruence. }
          rewrite (scalarmult_enc R HR); [|assumption| |assumption].
          2:{ rewrite Ek. apply fpow_neq_0. apply of_Z_index_neq_0. assumption. }
          rewrite Z.eqb_refl, IH by lia. split; intros H (Cs & HD & HF).
          -- inversion HD as [|? C' ? Cs' HC' HD']; subst. inversion HF; subst. apply H. exists Cs'. auto.
          -- apply H. exists (C :: Cs). split; [constructor; assumption|constructor; assumption].
      + unfold scalarmult. rewrite Ec. cbn [Z.eqb]. split; [intros _|reflexivity].
        intros (Cs & HD & HF). inversion HD as [|? C' ? ? HC' HD']; subst. congruence.
  Qed.

  (** an undecodable starting point survives the loop *)
  Lemma verify_loop_stuck j cs v : rdec R v = None -> forall k r, verify_loop R j k cs v = Some r -> r = v.
  Proof.
    intros Hv. induction cs as [|c cs IH]; intros k r E; cbn [verify_loop] in E; [congruence|].
    destruct (scalarmult R _ c) as (ret & tmP). destruct (ret =? 0); [|discriminate].
    destruct tmP as [P|]; [|discriminate]. unfold core_add in E. rewrite Hv in E. eapply IH; eassumption.
  Qed.

  Lemma verify_classify self i cs s : index_ok self -> i <> self -> cs <> [] ->
    exists ret, dkg_verify_commitment R self i cs s = Ok ret /\
      (ret = 0 \/ ret = 1 \/ ret = -1) /\
      (ret = 0 <-> matches R self cs (s_value s)) /\
      (ret = -1 <-> ~ usable R cs).
  Proof.
    intros Hself Hne Hcs. unfold usable. destruct cs as [|c cs]; [contradiction|].
    unfold dkg_verify_commitment. rewrite (proj2 (Z.eqb_neq i self)) by assumption.
    change (getz (c :: cs) 0) with (Ok c). cbn [bind tl].
    destruct (verify_loop R self 1 cs c) as [v1|] eqn:EL.
    - assert (HU : exists Cs, decode_all R cs Cs /\ Forall (fun C => C <> rzero R) Cs).
      { assert (HN : verify_loop R self 1 cs c <> None) by congruence.
        assert (D : forall l, (exists Cs, decode_all R l Cs /\ Forall (fun C => C <> rzero R) Cs) \/
                              ~ (exists Cs, decode_all R l Cs /\ Forall (fun C => C <> rzero R) Cs)).
        { clear -HR. induction l as [|x l IH].
          - left. exists []. split; constructor.
          - destruct (rdec R x) as [X|] eqn:EX.
            + destruct (bytes_eqb (renc R X) (zeros 32)) eqn:E0.
              * right. apply (renc_zero_iff R HR) in E0. subst. intros (Cs & HD & HF).
                inversion HD as [|? C' ? ? HC' HD']; subst. rewrite EX in HC'. inversion HC'; subst. inversion HF; subst. contradiction.
              * assert (HX : X <> rzero R). { intros E. apply (renc_zero_iff R HR) in E. congruence. }
                destruct IH as [(Cs & HD & HF)|IH].
                -- left. exists (X :: Cs). split; constructor; assumption.
                -- right. intros (Cs & HD & HF). inversion HD as [|? C' ? Cs' HC' HD']; subst. inversion HF; subst. apply IH. exists Cs'. auto.
            + right. intros (Cs & HD & HF). inversion HD as [|? C' ? Cs' HC' HD']; subst. congruence. }
        destruct (D cs) as [|Hn]; [assumption|]. exfalso. apply HN.
        apply (verify_loop_bad self cs Hself 1 c ltac:(lia)). assumption. }
      destruct HU as (Cs & HD & HF).
      assert (Hnm : forall P : Prop, P <-> P /\ True) by tauto.
      set (v0 := snd (scalarmult_base R (s_value s))).
      exists (if bytes_eqb v0 v1 then 0 else 1).
      split; [destruct (bytes_eqb v0 v1); reflexivity|].
      split; [destruct (bytes_eqb v0 v1); auto|].
      split.
      2:{ split; [destruct (bytes_eqb v0 v1); discriminate|]. intros Hn. exfalso. apply Hn. exists Cs. auto. }
      assert (E0 : (if bytes_eqb v0 v1 then 0 else 1) = 0 <-> v0 = v1).
      { rewrite <- bytes_eqb_eq. destruct (bytes_eqb v0 v1); split; congruence || discriminate. }
      rewrite E0. unfold v0, scalarmult_base. cbn [snd].
      destruct (rdec R c) as [C|] eqn:Ec.
      + pose proof (ok_enc_dec _ HR _ _ Ec) as Ec'. rewrite <- Ec' in EL.
        rewrite (verify_loop_ok self cs Cs Hself HD HF 1 C ltac:(lia)) in EL. inversion EL as [EL']; clear EL.
        cbn [fpow]. split.
        * intros E. apply (renc_inj R HR) in E. exists (C :: Cs). split; [constructor; assumption|]. split; [exact HF|].
          rewrite E. cbn [gpoly]. rewrite (gmul_of_Z R HR) by (unfold index_ok in Hself; lia).
          f_equal. f_equal. ring.
        * intros (Cs' & HD' & _ & E). rewrite E. f_equal.
          assert (Cs' = C :: Cs).
          { inversion HD' as [|? C2 ? Cs2 HC2 HD2]; subst. f_equal; [congruence|].
            clear -HD HD2. revert Cs2 HD2. induction HD as [|x X l Ls Hx HD IH]; intros Cs2 HD2; inversion HD2; subst; [reflexivity|].
            f_equal; [congruence|]. apply IH. assumption. }
          subst Cs'. cbn [gpoly]. rewrite (gmul_of_Z R HR) by (unfold index_ok in Hself; lia). f_equal. f_equal. ring.
      + apply (verify_loop_stuck self cs c Ec) in EL. subst v1. split.
        * intros E. exfalso. rewrite <- E in Ec. rewrite (ok_dec_enc _ HR) in Ec. discriminate.
        * intros (Cs' & HD' & _). exfalso. inversion HD'; subst. congruence.
    - apply (verify_loop_bad self cs Hself 1 c ltac:(lia)) in EL. exists (-1). split; [reflexivity|].
      split; [auto|]. split; [|tauto]. split; [discriminate|]. intros (Cs & HD & HF & _). exfalso. apply EL.
      inversion HD as [|? C ? Cs' HC HD']; subst. exists Cs'. auto.
  Qed.

  (** honest shares (C17) *)
  Lemma decode_commitments a : decode_all R (commitments_of R a) (map (fun c => rsmul R c (rbase R)) a).
  Proof. induction a as [|c a IH]; constructor; [apply (ok_dec_enc _ HR)|exact IH]. Qed.

  Lemma gpoly_base a x : 0 <= x -> Forall (fun c => 0 <= c) a ->
    gpoly R (map (fun c => rsmul R c (rbase R)) a) x = gmul R (of_Z (poly a x)) (rbase R).
  Proof.
    intros Hx HF. induction HF as [|c a Hc HF IH]; cbn [map gpoly poly].
    - symmetry. apply (gmul_0 R).
    - rewrite IH, of_Z_add, of_Z_mul, (gmul_add R HR), (gmul_mul R HR), (gmul_of_Z R HR c), (gmul_of_Z R HR x) by assumption. reflexivity.
  Qed.

  Lemma honest_matches a self v : index_ok self -> Forall random_scalar a ->
    v = poly a self mod L -> matches R self (commitments_of R a) v.
  Proof.
    intros Hs HF ->. exists (map (fun c => rsmul R c (rbase R)) a). split; [apply decode_commitments|].
    assert (HF0 : Forall (fun c => 0 <= c) a) by (eapply Forall_impl; [|exact HF]; unfold random_scalar; intros; lia).
    split.
    - destruct a as [|a0 a]; [constructor|]. cbn [map tl]. inversion HF as [|? ? _ HF']; subst.
      apply Forall_forall. intros C HC. apply in_map_iff in HC. destruct HC as (c & <- & Hc).
      pose proof (proj1 (Forall_forall _ _) HF' c Hc) as Hr. intros E.
      rewrite (gmul_of_Z R HR) in E by (unfold random_scalar in Hr; lia).
      apply (gmul_eq_0 R HR) in E. destruct E as [E|E]; [|apply (ok_base _ HR); assumption].
      revert E. apply random_scalar_neq_0. assumption.
    - rewrite gpoly_base by (assumption || (unfold index_ok in Hs; lia)).
      pose proof (mod_L_range (poly a self)). pose proof L_lt_2_255.
      rewrite Z.mod_small by lia. rewrite (gmul_of_Z R HR) by lia. rewrite of_Z_mod. reflexivity.
  Qed.

  Lemma decode_all_fun cs Cs Cs' : decode_all R cs Cs -> decode_all R cs Cs' -> Cs = Cs'.
  Proof.
    intros HD. revert Cs'. induction HD as [|x X l Ls Hx HD IH]; intros Cs' HD'; inversion HD'; subst; [reflexivity|].
    f_equal; [congruence|]. apply IH. assumption.
  Qed.

  Lemma commitments_exist cs Cs : decode_all R cs Cs ->
    exists! a, length a = length cs /\ Forall (fun c => 0 <= c < L) a /\ commitments_of R a = cs.
  Proof.
    induction 1 as [|c C cs Cs Hc HD (a & (H1 & H2 & H3) & HU)].
    - exists []. split; [repeat split; constructor|]. intros a' (E & _). destruct a'; [reflexivity|discriminate].
    - destruct (gen_Fq R HR C) as (k & Ek). exists (fv k :: a). split.
      + cbn [length commitments_of map]. split; [lia|]. split; [constructor; [apply fv_range|assumption]|].
        rewrite <- H3. f_equal. apply (ok_enc_dec _ HR) in Hc. rewrite <- Hc, Ek. reflexivity.
      + intros a' (E1 & E2 & E3). destruct a' as [|x a']; [discriminate|]. cbn [commitments_of map] in E3.
        inversion E2 as [|? ? Hx E2']; subst. injection E3 as E4 E5. cbn [length] in E1. f_equal.
        * rewrite <- E4, (ok_dec_enc _ HR) in Hc. inversion Hc as [Hc']. rewrite (gmul_of_Z R HR) in Hc' by lia.
          apply (gmul_inj R HR) in Hc'; [|apply (ok_base _ HR)]. rewrite <- Hc'. apply fv_of_Z_small. assumption.
        * apply HU. split; [|split; assumption]. rewrite <- E5. unfold commitments_of. rewrite !map_length in *. lia.
  Qed.

  Lemma finish_fold l acc : 0 <= acc < L -> Forall (fun s => 0 <= s_value s < 2 ^ 255) l ->
    of_Z (fold_left (fun acc s => scalar_add acc (s_value s)) l acc) =
      (of_Z acc + fsum (map (fun s => of_Z (s_value s)) l))%fq /\
    0 <= fold_left (fun acc s => scalar_add acc (s_value s)) l acc < L.
  Proof.
    intros Hacc HF. revert acc Hacc. induction HF as [|s l Hs HF IH]; intros acc Hacc; cbn [fold_left map].
    - split; [cbn; ring|assumption].
    - destruct (IH (scalar_add acc (s_value s)) (scalar_add_range _ _)) as (E & Hr).
      split; [|assumption]. rewrite E. pose proof L_lt_2_255.
      rewrite of_Z_scalar_add by (replace (2 ^ 256) with (2 ^ 255 + 2 ^ 255) by reflexivity; lia).
      rewrite fsum_cons. ring.
  Qed.

  Lemma finish_range l : 0 <= dkg_finish l < L.
  Proof.
    assert (G : forall acc, 0 <= acc < L -> 0 <= fold_left (fun acc s => scalar_add acc (s_value s)) l acc < L).
    { induction l as [|s l IH]; intros acc Hacc; cbn [fold_left]; [assumption|]. apply IH. apply scalar_add_range. }
    apply G. pose proof L_pos. lia.
  Qed.

  Lemma finish_snoc l s : 0 <= s_value s < 2 ^ 255 ->
    dkg_finish (l ++ [s]) = (dkg_finish l + s_value s) mod L.
  Proof.
    intros Hs. pose proof (finish_range l) as Hr. unfold dkg_finish in *. rewrite fold_left_app. cbn [fold_left].
    unfold scalar_add at 1. pose proof L_lt_2_255.
    rewrite (Z.mod_small _ (2 ^ 256)) by (replace (2 ^ 256) with (2 ^ 255 + 2 ^ 255) by reflexivity; lia). reflexivity.
  Qed.

  (** the committed polynomial takes the verified value *)
  Lemma matches_poly self cs v a : index_ok self -> matches R self cs v ->
    Forall (fun c => 0 <= c < L) a -> commitments_of R a = cs ->
    of_Z (v mod 2 ^ 255) = of_Z (poly a self).
  Proof.
    intros Hs (Cs & HD & _ & E) Ha Hc. subst cs.
    rewrite (decode_all_fun _ _ _ HD (decode_commitments a)) in E.
    assert (HF0 : Forall (fun c => 0 <= c) a) by (eapply Forall_impl; [|exact Ha]; cbv beta; intros; lia).
    rewrite gpoly_base in E by (assumption || (unfold index_ok in Hs; lia)).
    rewrite (gmul_of_Z R HR) in E by (apply Z.mod_pos_bound; reflexivity).
    apply (gmul_inj R HR) in E; [assumption|apply (ok_base _ HR)].
  Qed.

  Lemma mod_add_of_Z x y z : of_Z y = of_Z z -> (x + y) mod L = (x + z) mod L.
  Proof.
    intros E. pose proof (mod_L_range (x + y)). apply eq_mod_of_Z; [assumption|].
    rewrite of_Z_mod, !of_Z_add, E. reflexivity.
  Qed.

  (** C18 *)
  Lemma verified_share_committed self i cs s : index_ok self -> i <> self -> cs <> [] ->
    0 <= s_value s < 2 ^ 255 ->
    dkg_verify_commitment R self i cs s = Ok 0 ->
    exists a, (length a = length cs /\ Forall (fun c => 0 <= c < L) a /\ commitments_of R a = cs) /\
      (forall a', length a' = length cs -> Forall (fun c => 0 <= c < L) a' -> commitments_of R a' = cs -> a' = a) /\
      forall others, dkg_finish (others ++ [s]) = (dkg_finish others + poly a self) mod L.
  Proof.
    intros Hs Hne Hcs Hv HV. destruct (verify_classify self i cs s Hs Hne Hcs) as (ret & E & _ & Hm & _).
    rewrite HV in E. inversion E; subst ret. destruct (proj1 Hm eq_refl) as (Cs & HD & HF & EE).
    destruct (commitments_exist cs Cs HD) as (a & (H1 & H2 & H3) & HU). exists a.
    split; [auto|]. split; [intros; symmetry; apply HU; auto|].
    intros others. rewrite finish_snoc by assumption. apply mod_add_of_Z.
    rewrite <- (matches_poly self cs (s_value s) a Hs); [rewrite Z.mod_small by lia; reflexivity| |assumption|assumption].
    exists Cs. auto.
  Qed.

  Lemma bit255_accepted self i a v : index_ok self -> i <> self -> a <> [] -> Forall random_scalar a ->
    v = poly a self mod L ->
    let s := mkShare self (v + 2 ^ 255) in
    0 <= s_value s < 2 ^ 256 /\
    dkg_verify_commitment R self i (commitments_of R a) s = Ok 0 /\
    dkg_finish [s] <> v.
  Proof.
    intros Hs Hne Ha HF Ev s. pose proof (mod_L_range (poly a self)) as Hr. pose proof L_lt_2_255.
    assert (E256 : 2 ^ 256 = 2 ^ 255 + 2 ^ 255) by reflexivity.
    assert (HC : commitments_of R a <> []) by (destruct a; [contradiction|discriminate]).
    split; [unfold s; cbn [s_value]; lia|]. split.
    - destruct (verify_classify self i (commitments_of R a) s Hs Hne HC) as (ret & E & _ & Hm & _).
      rewrite E. f_equal. apply Hm.
      destruct (honest_matches a self v Hs HF Ev) as (Cs & HD & HF' & EE). exists Cs. split; [assumption|]. split; [assumption|].
      rewrite <- EE. unfold s. cbn [s_value]. f_equal. rewrite <- (Z.mul_1_l (2 ^ 255)) at 1. apply Z_mod_plus_full.
    - unfold dkg_finish, s. cbn [fold_left s_value]. unfold scalar_add. rewrite Z.add_0_l, (Z.mod_small _ (2 ^ 256)) by lia.
      intros E. assert (D : (L | 2 ^ 255)).
      { exists ((v + 2 ^ 255) / L). pose proof (Z.div_mod (v + 2 ^ 255) L ltac:(lia)) as DM. rewrite E in DM. lia. }
      apply Znumtheory.Zdivide_mod in D. vm_compute in D. discriminate.
  Qed.

  (** C19 *)
  Lemma verify_all_spec n t self commitments shares :
    1 <= n <= 254 -> 1 <= t -> index_ok self ->
    Z.of_nat (length commitments) = n -> Forall (fun cs => Z.of_nat (length cs) = t) commitments ->
    Z.of_nat (length shares) = n ->
    forall k fuel i fails len, i + Z.of_nat k = n + 1 -> 1 <= i -> (k < fuel)%nat ->
    Z.of_nat (length fails) = n -> 0 <= len < i ->
    exists ret fails' new,
      verify_all fuel R n self commitments shares i fails len = Ok (ret, fails', len + Z.of_nat (length new)) /\
      length fails' = length fails /\
      firstn (Z.to_nat len + length new) fails' = firstn (Z.to_nat len) fails ++ new /\
      StronglySorted Z.lt new /\ Forall (fun j => i <= j) new /\
      ((exists u, i <= u <= n /\ unusable_dealer R self commitments shares u /\
          (forall j, i <= j < u -> ~ unusable_dealer R self commitments shares j) /\ ret = -1 /\
          (forall j, In j new <-> i <= j < u /\ cheated R self commitments shares j)) \/
       ((forall j, i <= j <= n -> ~ unusable_dealer R self commitments shares j) /\
        ret = (if len + Z.of_nat (length new) =? 0 then 0 else 1) /\
        (forall j, In j new <-> i <= j <= n /\ cheated R self commitments shares j))).
  Proof.
    intros Hn Ht Hself HC HCt HS. induction k as [|k IH]; intros fuel i fails len Hik Hi Hk HL Hlen;
      (destruct fuel as [|fuel]; [lia|]); cbn [verify_all].
    - destruct (Z.leb_spec i n); [lia|]. exists (if len =? 0 then 0 else 1), fails, []. cbn [length].
      change (Z.of_nat 0) with 0. rewrite Z.add_0_r, Nat.add_0_r, app_nil_r.
      split; [reflexivity|]. split; [reflexivity|]. split; [reflexivity|]. split; [constructor|]. split; [constructor|].
      right. split; [intros; lia|]. split; [reflexivity|]. intros j. split; [intros []|intros (? & _); lia].
    - destruct (Z.leb_spec i n); [|lia]. rewrite (Z.mod_small (i + 1)) by lia.
      specialize (IH fuel (i + 1)).
      destruct (nth_error commitments (Z.to_nat (i - 1))) as [cs|] eqn:Ecs; [|apply nth_error_None in Ecs; lia].
      destruct (nth_error shares (Z.to_nat (i - 1))) as [s|] eqn:Es; [|apply nth_error_None in Es; lia].
      assert (Hd : dealt commitments shares i cs s) by (repeat split; assumption).
      assert (Hdf : forall cs' s', dealt commitments shares i cs' s' -> cs' = cs /\ s' = s).
      { intros cs' s' (_ & E1 & E2). split; congruence. }
      assert (Hstep : forall (i_le : forall j, i <= j <-> j = i \/ i + 1 <= j), True) by auto. clear Hstep.
      destruct (Z.eqb_spec i self) as [Eself|Hne].
      + (* own share: skipped *)
        destruct (IH fails len) as (ret & fails' & new & E & Hl & Hf & Hso & Hge & Hcase); try lia.
        exists ret, fails', new. split; [exact E|]. split; [assumption|]. split; [assumption|]. split; [assumption|].
        split; [eapply Forall_impl; [|exact Hge]; cbv beta; intros; lia|].
        assert (Hnu : ~ unusable_dealer R self commitments shares i) by (intros (H' & _); contradiction).
        assert (Hnc : ~ cheated R self commitments shares i) by (intros (H' & _); contradiction).
        destruct Hcase as [(u & Hu & Hun & Hmin & Hret & Hin)|(Hall & Hret & Hin)].
        * left. exists u. split; [lia|]. split; [assumption|]. split; [|split; [assumption|]].
          -- intros j Hj. destruct (Z.eq_dec j i) as [->|]; [assumption|]. apply Hmin. lia.
          -- intros j. rewrite Hin. split; intros (H1 & H2); (split; [|assumption]); [lia|].
             destruct (Z.eq_dec j i) as [->|]; [contradiction|lia].
        * right. split; [|split; [assumption|]].
          -- intros j Hj. destruct (Z.eq_dec j i) as [->|]; [assumption|]. apply Hall. lia.
          -- intros j. rewrite Hin. split; intros (H1 & H2); (split; [|assumption]); [lia|].
             destruct (Z.eq_dec j i) as [->|]; [contradiction|lia].
      + unfold getz at 1 2. destruct (Z.ltb_spec (i - 1) 0); [lia|]. rewrite Ecs, Es. cbn [of_opt bind].
        assert (Hcs0 : cs <> []).
        { apply nth_error_In in Ecs. pose proof (proj1 (Forall_forall _ _) HCt cs Ecs) as Hlt. cbv beta in Hlt.
          intros ->. cbn in Hlt. lia. }
        destruct (verify_classify self i cs s Hself ltac:(assumption) Hcs0) as (ret & E & H3 & Hz0 & Hm1).
        rewrite E. cbn [bind].
        assert (Hu_iff : unusable_dealer R self commitments shares i <-> ~ usable R cs).
        { split; [intros (_ & cs' & s' & Hd' & Hu); destruct (Hdf _ _ Hd') as (-> & ->); assumption|].
          intros Hu. split; [assumption|]. exists cs, s. auto. }
        assert (Hc_iff : cheated R self commitments shares i <-> ~ matches R self cs (s_value s)).
        { split; [intros (_ & cs' & s' & Hd' & Hu); destruct (Hdf _ _ Hd') as (-> & ->); assumption|].
          intros Hu. split; [assumption|]. exists cs, s. auto. }
        destruct (Z.eqb_spec ret (-1)) as [->|Hret1].
        * exists (-1), fails, []. cbn [length]. change (Z.of_nat 0) with 0. rewrite Z.add_0_r, Nat.add_0_r, app_nil_r.
          split; [reflexivity|]. split; [reflexivity|]. split; [reflexivity|]. split; [constructor|]. split; [constructor|].
          left. exists i. split; [lia|]. split; [apply Hu_iff, Hm1; reflexivity|]. split; [intros; lia|]. split; [reflexivity|].
          intros j. split; [intros []|intros (? & _); lia].
        * assert (Hnu : ~ unusable_dealer R self commitments shares i) by (rewrite Hu_iff, <- Hm1; assumption).
          destruct (Z.eqb_spec ret 0) as [->|Hret0].
          -- assert (Hnc : ~ cheated R self commitments shares i).
             { rewrite Hc_iff. intros Hx. apply Hx. apply Hz0. reflexivity. }
             destruct (IH fails len) as (ret & fails' & new & E' & Hl & Hf & Hso & Hge & Hcase); try lia.
             exists ret, fails', new. split; [exact E'|]. split; [assumption|]. split; [assumption|]. split; [assumption|].
             split; [eapply Forall_impl; [|exact Hge]; cbv beta; intros; lia|].
             destruct Hcase as [(u & Hu & Hun & Hmin & Hret & Hin)|(Hall & Hret & Hin)].
             ++ left. exists u. split; [lia|]. split; [assumption|]. split; [|split; [assumption|]].
                ** intros j Hj. destruct (Z.eq_dec j i) as [->|]; [assumption|]. apply Hmin. lia.
                ** intros j. rewrite Hin. split; intros (H1 & H2); (split; [|assumption]); [lia|].
                   destruct (Z.eq_dec j i) as [->|]; [contradiction|lia].
             ++ right. split; [|split; [assumption|]].
                ** intros j Hj. destruct (Z.eq_dec j i) as [->|]; [assumption|]. apply Hall. lia.
                ** intros j. rewrite Hin. split; intros (H1 & H2); (split; [|assumption]); [lia|].
                   destruct (Z.eq_dec j i) as [->|]; [contradiction|lia].
          -- assert (Hc : cheated R self commitments shares i).
             { rewrite Hc_iff, <- Hz0. assumption. }
             destruct (upd_some fails (Z.to_nat len) i) as (f1 & Ef1); [lia|].
             pose proof (upd_length _ _ _ _ Ef1) as Hl1.
             assert (Eu : updz fails len i = Ok f1).
             { unfold updz. destruct (Z.ltb_spec len 0); [lia|]. rewrite Ef1. reflexivity. }
             rewrite Eu. cbn [bind].
             destruct (IH f1 (len + 1)) as (ret' & fails' & new & E' & Hl & Hf & Hso & Hge & Hcase); try lia.
             exists ret', fails', (i :: new). split; [rewrite E'; do 2 f_equal; cbn [length]; lia|].
             split; [lia|]. split.
             { cbn [length]. replace (Z.to_nat len + S (length new))%nat with (Z.to_nat (len + 1) + length new)%nat by lia.
               rewrite Hf. rewrite upd_eq in Ef1 by lia. injection Ef1 as Ef1'. rewrite <- Ef1'.
               assert (Hla : length (firstn (Z.to_nat len) fails) = Z.to_nat len) by (rewrite firstn_length; lia).
               rewrite firstn_app, firstn_all2 by lia. rewrite Hla.
               replace (Z.to_nat (len + 1) - Z.to_nat len)%nat with 1%nat by lia.
               cbn [firstn]. rewrite <- app_assoc. reflexivity. }
             split; [constructor; [assumption|]; eapply Forall_impl; [|exact Hge]; cbv beta; intros; lia|].
             split; [constructor; [lia|]; eapply Forall_impl; [|exact Hge]; cbv beta; intros; lia|].
             destruct Hcase as [(u & Hu & Hun & Hmin & Hret & Hin)|(Hall & Hret & Hin)].
             ++ left. exists u. split; [lia|]. split; [assumption|]. split; [|split; [assumption|]].
                ** intros j Hj. destruct (Z.eq_dec j i) as [->|]; [assumption|]. apply Hmin. lia.
                ** intros j. cbn [In]. rewrite Hin. split.
                   --- intros [<-|(H1 & H2)]; (split; [lia|assumption]).
                   --- intros (H1 & H2). destruct (Z.eq_dec j i) as [->|]; [left; reflexivity|right; split; [lia|assumption]].
             ++ right. split; [|split; [rewrite Hret; cbn [length]; replace (len + 1 + Z.of_nat (length new)) with (len + Z.of_nat (S (length new))) by lia; reflexivity|]].
                ** intros j Hj. destruct (Z.eq_dec j i) as [->|]; [assumption|]. apply Hall. lia.
                ** intros j. cbn [In]. rewrite Hin. split.
                   --- intros [<-|(H1 & H2)]; (split; [lia|assumption]).
                   --- intros (H1 & H2). destruct (Z.eq_dec j i) as [->|]; [left; reflexivity|right; split; [lia|assumption]].
  Qed.

  Lemma verify_commitments_spec n t self commitments shares fails :
    verify_args n t self commitments shares fails ->
    exists ret fails' named,
      dkg_verify_commitments R n self commitments shares fails = Ok (ret, fails', Z.of_nat (length named)) /\
      length fails' = length fails /\
      firstn (length named) fails' = named /\ StronglySorted Z.lt named /\
      ((exists u, 1 <= u <= n /\ unusable_dealer R self commitments shares u /\
          (forall j, 1 <= j < u -> ~ unusable_dealer R self commitments shares j) /\ ret = -1 /\
          (forall j, In j named <-> 1 <= j < u /\ cheated R self commitments shares j)) \/
       ((forall j, ~ unusable_dealer R self commitments shares j) /\
        ret = (match named with [] => 0 | _ => 1 end) /\
        (forall j, In j named <-> cheated R self commitments shares j))).
  Proof.
    intros (Hn & Ht & Hs & HC & HCt & HS & HL).
    destruct (verify_all_spec n t self commitments shares Hn Ht Hs HC HCt HS (Z.to_nat n) 257 1 fails 0)
      as (ret & fails' & new & E & Hl & Hf & Hso & Hge & Hcase); try lia.
    assert (Hrange : forall j cs s, dealt commitments shares j cs s -> 1 <= j <= n).
    { intros j cs s (H1 & H2 & _). split; [assumption|].
      assert (Z.to_nat (j - 1) < length commitments)%nat by (apply nth_error_Some; congruence). lia. }
    exists ret, fails', new. split; [exact E|]. split; [assumption|]. split; [exact Hf|]. split; [assumption|].
    destruct Hcase as [(u & Hu)|(Hall & Hret & Hin)]; [left; exists u; exact Hu|right].
    split; [|split].
    - intros j Hj. assert (1 <= j <= n) by (destruct Hj as (_ & cs & s & Hd & _); eapply Hrange; eassumption).
      eapply Hall; eassumption.
    - rewrite Hret. destruct new; [reflexivity|]. cbn [length]. destruct (Z.eqb_spec (0 + Z.of_nat (S (length new))) 0); [lia|reflexivity].
    - intros j. rewrite Hin. split; [tauto|]. intros Hc. split; [|assumption].
      destruct Hc as (_ & cs & s & Hd & _). eapply Hrange; eassumption.
  Qed.
End Verify.

(** ** C20 *)
Fixpoint padd_Z (a b : list Z) : list Z :=
  match a, b with
  | [], _ => b
  | _, [] => a
  | x :: a', y :: b' => (x + y) :: padd_Z a' b'
  end.

Lemma padd_Z_poly a b x : poly (padd_Z a b) x = poly a x + poly b x.
Proof.
  revert b. induction a as [|c a IH]; intros [|d b]; cbn [padd_Z poly]; try lia. rewrite IH. lia.
Qed.

Lemma padd_Z_length a b m : (length a <= m -> length b <= m -> length (padd_Z a b) <= m)%nat.
Proof.
  revert b m. induction a as [|c a IH]; intros [|d b] m; cbn [padd_Z length]; try lia.
  intros. destruct m; [lia|]. pose proof (IH b m). lia.
Qed.

Definition psum (A : list (list Z)) : list Z := fold_right padd_Z [] A.

Lemma psum_poly A x : poly (psum A) x = zsum (map (fun a => poly a x) A).
Proof.
  unfold zsum. induction A as [|a A IH]; [reflexivity|].
  change (psum (a :: A)) with (padd_Z a (psum A)). rewrite padd_Z_poly, IH. reflexivity.
Qed.

Lemma psum_length A m : (Forall (fun a => length a <= m) A -> length (psum A) <= m)%nat.
Proof. induction 1 as [|a A Ha HF IH]; cbn; [lia|]. apply padd_Z_length; assumption. Qed.

Lemma Forall2_nth {A B} (Q : A -> B -> Prop) l l' : length l = length l' ->
  (forall i x y, nth_error l i = Some x -> nth_error l' i = Some y -> Q x y) -> Forall2 Q l l'.
Proof.
  revert l'. induction l as [|x l IH]; intros [|y l'] Hl H; cbn in Hl; try discriminate; constructor.
  - apply (H O); reflexivity.
  - apply IH; [lia|]. intros i. apply (H (S i)).
Qed.

Section Consistent.
  Variable R : ristretto.
  Hypothesis HR : ristretto_ok R.

  Lemma matches_dec self i cs s : index_ok self -> i <> self -> cs <> [] ->
    matches R self cs (s_value s) \/ ~ matches R self cs (s_value s).
  Proof.
    intros Hs Hne Hcs. destruct (verify_classify R HR self i cs s Hs Hne Hcs) as (ret & _ & _ & H & _).
    destruct (Z.eq_dec ret 0) as [E|E]; [left; apply H; assumption|right]. intros Hm. apply E, H. assumption.
  Qed.

  Lemma recipient_matches n t commitments j ss :
    recipient_ok R n t commitments (j, ss) ->
    forall i cs s, dealt commitments ss i cs s -> matches R j cs (s_value s).
  Proof.
    intros ((fails0 & (Hn & Ht & Hj & HC & HCt & HS & _)) & (fails & fails' & HL & HV) & Hown & HF) i cs s Hd.
    destruct (Z.eq_dec i j) as [->|Hne]; [apply Hown; assumption|].
    assert (Hargs : verify_args n t j commitments ss fails) by (repeat split; try assumption; lia || apply Hj).
    destruct (verify_commitments_spec R HR n t j commitments ss fails Hargs)
      as (ret & f' & named & E & _ & _ & _ & Hcase).
    rewrite HV in E. injection E as E1 E2 E3. destruct named as [|x named]; [|cbn in E3; lia].
    destruct Hcase as [(u & _ & _ & _ & Hr & _)|(_ & _ & Hin)]; [lia|].
    assert (Hcs : cs <> []).
    { destruct Hd as (_ & Ec & _). apply nth_error_In in Ec. pose proof (proj1 (Forall_forall _ _) HCt cs Ec) as Hlt.
      cbv beta in Hlt. intros ->. cbn in Hlt. lia. }
    destruct (matches_dec j i cs s Hj Hne Hcs) as [|Hn']; [assumption|]. exfalso.
    apply (Hin i). split; [assumption|]. exists cs, s. auto.
  Qed.

  Lemma commitments_matrix t commitments :
    Forall (fun cs => Z.of_nat (length cs) = t) commitments ->
    (forall cs, In cs commitments -> exists Cs, decode_all R cs Cs) ->
    exists A, commitments = map (commitments_of R) A /\ Forall (fun a => Z.of_nat (length a) = t) A /\
      Forall (Forall (fun c => 0 <= c < L)) A.
  Proof.
    induction commitments as [|cs commitments IH]; intros HF HD.
    - exists []. repeat split; constructor.
    - inversion HF as [|? ? Hl HF']; subst. destruct (HD cs (or_introl eq_refl)) as (Cs & HCs).
      destruct (commitments_exist R HR cs Cs HCs) as (a & (H1 & H2 & H3) & _).
      destruct IH as (A & E & HA & HA'); [assumption|intros; apply HD; right; assumption|].
      exists (a :: A). cbn [map]. rewrite H3, E. repeat split; constructor; (assumption || lia).
  Qed.

  Lemma finish_poly A j ss : Forall (fun s => 0 <= s_value s < 2 ^ 255) ss ->
    Forall2 (fun a s => of_Z (s_value s) = of_Z (poly a j)) A ss ->
    dkg_finish ss = poly (psum A) j mod L.
  Proof.
    intros HF HM. destruct (finish_fold ss 0 ltac:(pose proof L_pos; lia) HF) as (E & Hr).
    apply eq_mod_of_Z; [exact Hr|]. unfold dkg_finish. rewrite E, psum_poly, of_Z_zsum, map_map.
    change (of_Z 0) with 0%fq. transitivity (fsum (map (fun s => of_Z (s_value s)) ss)); [ring|].
    clear -HM. induction HM as [|a s A ss H HM IH]; [reflexivity|]. cbn [map]. rewrite !fsum_cons, IH, H. reflexivity.
  Qed.

  (** the value of the sum polynomial at 0, in the exponent *)
  Lemma psum_base A : Forall (Forall (fun c => 0 <= c < L)) A -> Forall (fun a => a <> []) A ->
    exists Cs0, decode_all R (map (hd []) (map (commitments_of R) A)) Cs0 /\
      gmul R (of_Z (poly (psum A) 0)) (rbase R) = gsum R Cs0.
  Proof.
    intros HF HN. induction HF as [|a A Ha HF IH].
    - exists []. split; [constructor|]. cbn. apply (gmul_0 R).
    - inversion HN as [|? ? Hn HN']; subst. destruct (IH HN') as (Cs0 & HD & E).
      destruct a as [|c a]; [contradiction|]. inversion Ha as [|? ? Hc Ha']; subst.
      exists (rsmul R c (rbase R) :: Cs0). split.
      + cbn [map]. constructor; [apply (ok_dec_enc _ HR)|exact HD].
      + rewrite gsum_cons, <- E. rewrite (gmul_of_Z R HR c) by lia. rewrite <- (gmul_add R HR). f_equal.
        cbn [psum fold_right]. fold (psum A). rewrite padd_Z_poly, of_Z_add, poly_cons_0. reflexivity.
  Qed.

  Lemma dkg_consistent n t commitments parties :
    Forall (recipient_ok R n t commitments) parties ->
    NoDup (map fst parties) -> t <= Z.of_nat (length parties) -> parties <> [] ->
    exists Cs0, decode_all R (map (hd []) commitments) Cs0 /\
      let x := dkg_reconstruct (map (fun p => mkShare (fst p) (dkg_finish (snd p))) parties) in
      0 <= x < L /\ rsmul R x (rbase R) = gsum R Cs0.
  Proof.
    intros HF Hnd Hlen Hne.
    destruct parties as [|(j0 & ss0) parties'] eqn:EP; [contradiction|]. rewrite <- EP in *.
    assert (H0 : recipient_ok R n t commitments (j0, ss0)).
    { eapply Forall_forall; [exact HF|]. rewrite EP. left. reflexivity. }
    pose proof (recipient_matches n t commitments j0 ss0 H0) as HM0.
    destruct H0 as ((fails0 & (Hn & Ht & Hj0 & HC & HCt & HS0 & _)) & _).
    destruct (commitments_matrix t commitments HCt) as (A & EA & HA & HA').
    { intros cs Hin. apply In_nth_error in Hin. destruct Hin as (i & Ei).
      destruct (nth_error ss0 i) as [s|] eqn:Es.
      - destruct (HM0 (Z.of_nat i + 1) cs s) as (Cs & HD & _); [|exists Cs; exact HD].
        split; [lia|]. replace (Z.to_nat (Z.of_nat i + 1 - 1)) with i by lia. auto.
      - apply nth_error_None in Es. assert (i < length commitments)%nat by (apply nth_error_Some; congruence). lia. }
    assert (HAn : Forall (fun a => a <> []) A).
    { eapply Forall_impl; [|exact HA]. cbv beta. intros a Hl ->. cbn in Hl. lia. }
    destruct (psum_base A HA' HAn) as (Cs0 & HD0 & E0). rewrite EA. exists Cs0. split; [exact HD0|].
    assert (HR0 : dkg_reconstruct (map (fun p => mkShare (fst p) (dkg_finish (snd p))) parties) = poly (psum A) 0 mod L).
    { apply dkg_reconstruct_spec; rewrite ?map_map.
      - exact Hnd.
      - apply Forall_forall. intros i Hi. apply in_map_iff in Hi. destruct Hi as ((j & ss) & <- & Hp).
        pose proof (proj1 (Forall_forall _ _) HF _ Hp) as ((? & (_ & _ & Hj & _)) & _). exact Hj.
      - rewrite map_length. apply Nat2Z.inj_le. etransitivity; [|exact Hlen]. rewrite <- (Z2Nat.id t) by lia.
        apply Nat2Z.inj_le. apply psum_length. eapply Forall_impl; [|exact HA]. cbv beta. intros; lia.
      - intros s Hs. apply in_map_iff in Hs. destruct Hs as ((j & ss) & <- & Hp). cbn [s_value s_index fst snd].
        pose proof (proj1 (Forall_forall _ _) HF _ Hp) as Hok.
        pose proof (recipient_matches n t commitments j ss Hok) as HM.
        destruct Hok as ((f & (_ & _ & Hj & _ & _ & HS & _)) & _ & _ & Hv).
        rewrite (finish_poly A j ss Hv); [apply of_Z_mod|].
        apply Forall2_nth.
        + apply Nat2Z.inj. rewrite HS, <- HC, EA, map_length. reflexivity.
        + intros i a s Ea Es.
          rewrite <- (matches_poly R HR j (commitments_of R a) (s_value s) a Hj).
          * rewrite Z.mod_small; [reflexivity|]. exact (proj1 (Forall_forall _ _) Hv s (nth_error_In _ _ Es)).
          * apply (HM (Z.of_nat i + 1)). split; [lia|]. replace (Z.to_nat (Z.of_nat i + 1 - 1)) with i by lia.
            split; [|assumption]. rewrite EA. apply map_nth_error. assumption.
          * exact (proj1 (Forall_forall _ _) HA' a (nth_error_In _ _ Ea)).
          * reflexivity. }
    cbv zeta. rewrite HR0. split; [apply mod_L_range|].
    rewrite (gmul_of_Z R HR) by apply mod_L_range. rewrite of_Z_mod. exact E0.
  Qed.

  Lemma dkg_agree n t commitments parties parties' :
    Forall (recipient_ok R n t commitments) parties ->
    Forall (recipient_ok R n t commitments) parties' ->
    NoDup (map fst parties) -> NoDup (map fst parties') ->
    t <= Z.of_nat (length parties) -> t <= Z.of_nat (length parties') -> parties <> [] -> parties' <> [] ->
    dkg_reconstruct (map (fun p => mkShare (fst p) (dkg_finish (snd p))) parties) =
    dkg_reconstruct (map (fun p => mkShare (fst p) (dkg_finish (snd p))) parties').
  Proof.
    intros H1 H2 N1 N2 L1 L2 E1 E2.
    destruct (dkg_consistent n t commitments parties H1 N1 L1 E1) as (Cs & HD & Hr & E).
    destruct (dkg_consistent n t commitments parties' H2 N2 L2 E2) as (Cs' & HD' & Hr' & E').
    rewrite (decode_all_fun R _ _ _ HD' HD), <- E in E'.
    rewrite !(gmul_of_Z R HR) in E' by lia. apply (gmul_inj R HR) in E'; [|apply (ok_base _ HR)].
    symmetry. apply of_Z_inj; assumption.
  Qed.

  (** the honest run *)
  Lemma honest_shares_verify n t a self i cbuf sbuf cs ss s :
    1 <= n <= 254 -> 1 <= t <= 255 -> Z.of_nat (length a) = t -> Forall random_scalar a ->
    Z.of_nat (length cbuf) = t -> Z.of_nat (length sbuf) = n ->
    dkg_start R true n t a cbuf sbuf = Ok (0, cs, ss) ->
    1 <= self <= n -> nth_error ss (Z.to_nat (self - 1)) = Some s ->
    s_index s = self /\ dkg_verify_commitment R self i cs s = Ok 0 /\ matches R self cs (s_value s) /\
    0 <= s_value s < L.
  Proof.
    intros Hn Ht Ha HF Hc Hs HE Hself Hnth.
    assert (HFL : Forall (fun x => 0 <= x < L) a) by (eapply Forall_impl; [|exact HF]; unfold random_scalar; intros; lia).
    rewrite (dkg_start_eq R n t a cbuf sbuf) in HE by assumption. injection HE as <- <-.
    unfold shares_of in Hnth. rewrite <- (zrange_seq 1) in Hnth.
    erewrite map_nth_error in Hnth by (apply zrange_nth; lia). injection Hnth as <-. cbn [s_index s_value].
    change (Z.of_nat 1) with 1. replace (1 + Z.of_nat (Z.to_nat (self - 1))) with self by lia.
    assert (Hix : index_ok self) by (unfold index_ok; lia).
    pose proof (honest_matches R HR a self _ Hix HF eq_refl) as HM.
    split; [reflexivity|]. split; [|split; [exact HM|apply mod_L_range]].
    destruct (Z.eq_dec i self) as [->|Hne].
    - unfold dkg_verify_commitment. rewrite Z.eqb_refl. reflexivity.
    - destruct (verify_classify R HR self i (commitments_of R a) (mkShare self (poly a self mod L)) Hix Hne) as (ret & E & _ & H0 & _).
      + destruct a; [cbn in Ha; lia|discriminate].
      + rewrite E. f_equal. apply H0. exact HM.
  Qed.
End Consistent.

(** ** an honest run from dkg_start to dkg_reconstruct *)
(** the shares recipient j gets when the dealers hold the polynomials A *)
Definition column (A : list (list Z)) (j : Z) : list share := map (fun a => mkShare j (poly a j mod L)) A.

Section Honest.
  Variable R : ristretto.
  Hypothesis HR : ristretto_ok R.

  Lemma honest_recipient n t A j : 1 <= n <= 254 -> 1 <= t <= 255 -> Z.of_nat (length A) = n ->
    Forall (fun a => Z.of_nat (length a) = t /\ Forall random_scalar a) A -> index_ok j ->
    recipient_ok R n t (map (commitments_of R) A) (j, column A j).
  Proof.
    intros Hn Ht HA HF Hj.
    assert (Hargs : forall fails, Z.of_nat (length fails) = n ->
      verify_args n t j (map (commitments_of R) A) (column A j) fails).
    { intros fails HL. unfold verify_args, column. rewrite !map_length. repeat split; try lia; try apply Hj.
      apply Forall_forall. intros cs Hcs. apply in_map_iff in Hcs. destruct Hcs as (a & <- & Ha).
      unfold commitments_of. rewrite map_length. apply (proj1 (Forall_forall _ _) HF a Ha). }
    assert (HM : forall i cs s, dealt (map (commitments_of R) A) (column A j) i cs s -> matches R j cs (s_value s)).
    { intros i cs s (Hi & E1 & E2). unfold column in E2.
      destruct (nth_error A (Z.to_nat (i - 1))) as [a|] eqn:Ea.
      - rewrite (map_nth_error _ _ _ Ea) in E1. rewrite (map_nth_error _ _ _ Ea) in E2.
        injection E1 as <-. injection E2 as <-. cbn [s_value].
        apply honest_matches; [assumption|assumption| |reflexivity].
        apply nth_error_In in Ea. apply (proj1 (Forall_forall _ _) HF a Ea).
      - exfalso. apply nth_error_None in Ea. assert (Z.to_nat (i - 1) < length (map (commitments_of R) A))%nat
          by (apply nth_error_Some; congruence). rewrite map_length in H. lia. }
    split; [|split; [|split]].
    - exists (repeat 0 (Z.to_nat n)). apply Hargs. rewrite repeat_length. lia.
    - assert (HL : Z.of_nat (length (repeat 0 (Z.to_nat n))) = n) by (rewrite repeat_length; lia).
      exists (repeat 0 (Z.to_nat n)).
      destruct (verify_commitments_spec R HR n t j _ _ _ (Hargs _ HL)) as (ret & f' & named & E & _ & _ & _ & Hcase).
      exists f'. split; [assumption|]. rewrite E.
      assert (Hnc : forall i, ~ cheated R j (map (commitments_of R) A) (column A j) i).
      { intros i (_ & cs & s & Hd & Hm). apply Hm. eapply HM; eassumption. }
      destruct Hcase as [(u & Hu & (_ & cs & s & Hd & Hus) & _)|(_ & Hret & Hin)].
      + exfalso. apply Hus. destruct (HM u cs s Hd) as (Cs & HD & HF' & _).
        destruct Hd as (_ & Ec & _). apply nth_error_In in Ec. apply in_map_iff in Ec. destruct Ec as (a & <- & Ha).
        destruct HD as [|c C cs' Cs' Hc HD']; [exists []; split; constructor|]. exists Cs'. split; assumption.
      + destruct named as [|x named]; [rewrite Hret; reflexivity|].
        exfalso. apply (Hnc x). apply Hin. left. reflexivity.
    - intros cs s Hd. eapply HM; eassumption.
    - apply Forall_forall. intros s Hs. unfold column in Hs. apply in_map_iff in Hs. destruct Hs as (a & <- & _).
      cbn [s_value]. pose proof (mod_L_range (poly a j)). pose proof L_lt_2_255. lia.
  Qed.

  Lemma honest_reconstruct n t A js : 1 <= n <= 254 -> 1 <= t <= 255 -> Z.of_nat (length A) = n ->
    Forall (fun a => Z.of_nat (length a) = t /\ Forall random_scalar a) A ->
    NoDup js -> Forall index_ok js -> t <= Z.of_nat (length js) ->
    dkg_reconstruct (map (fun j => mkShare j (dkg_finish (column A j))) js) = zsum (map (hd 0) A) mod L.
  Proof.
    intros Hn Ht HA HF Hnd Hjs Hlen.
    rewrite (dkg_reconstruct_spec (psum A)).
    - f_equal. rewrite psum_poly. f_equal. apply map_ext_in. intros a Ha.
      pose proof (proj1 (Forall_forall _ _) HF a Ha) as (Hl & _). destruct a; [cbn in Hl; lia|]. apply poly_cons_0.
    - rewrite map_map. cbn [s_index]. rewrite map_id. assumption.
    - rewrite map_map. cbn [s_index]. rewrite map_id. assumption.
    - rewrite map_length. apply Nat2Z.inj_le. etransitivity; [|exact Hlen]. rewrite <- (Z2Nat.id t) by lia.
      apply Nat2Z.inj_le. apply psum_length. eapply Forall_impl; [|exact HF]. cbv beta. intros a (Hl & _). lia.
    - intros s Hs. apply in_map_iff in Hs. destruct Hs as (j & <- & Hj). cbn [s_value s_index].
      rewrite (finish_poly A j (column A j)); [apply of_Z_mod| |].
      + apply Forall_forall. intros s Hs. unfold column in Hs. apply in_map_iff in Hs. destruct Hs as (a & <- & _).
        cbn [s_value]. pose proof (mod_L_range (poly a j)). pose proof L_lt_2_255. lia.
      + unfold column. clear. induction A as [|a A IH]; constructor; [cbn [s_value]; apply of_Z_mod|exact IH].
  Qed.

  (** every dealer runs dkg_start, recipient j collects the j-th share of each *)
  Lemma honest_column n t A cbuf sbuf outs : 1 <= n <= 254 -> 1 <= t <= 255 ->
    Forall (fun a => Z.of_nat (length a) = t /\ Forall random_scalar a) A ->
    Z.of_nat (length cbuf) = t -> Z.of_nat (length sbuf) = n ->
    Forall2 (fun a o => dkg_start R true n t a cbuf sbuf = Ok (0, fst o, snd o)) A outs ->
    map fst outs = map (commitments_of R) A /\
    forall j, 1 <= j <= n -> Forall2 (fun o s => nth_error (snd o) (Z.to_nat (j - 1)) = Some s) outs (column A j).
  Proof.
    intros Hn Ht HF Hc Hs HO. induction HO as [|a o A outs Ho HO IH].
    - split; [reflexivity|]. intros. constructor.
    - inversion HF as [|? ? (Ha & Har) HF']; subst. destruct (IH HF') as (E & H).
      assert (HFL : Forall (fun x => 0 <= x < L) a) by (eapply Forall_impl; [|exact Har]; unfold random_scalar; intros; lia).
      rewrite dkg_start_eq in Ho by (assumption || lia). injection Ho as E1 E2. split.
      + cbn [map]. rewrite E, <- E1. reflexivity.
      + intros j Hj. constructor; [|apply H; assumption]. rewrite <- E2. unfold shares_of. rewrite <- (zrange_seq 1).
        erewrite map_nth_error by (apply zrange_nth; lia). change (Z.of_nat 1) with 1.
        replace (1 + Z.of_nat (Z.to_nat (j - 1))) with j by lia. reflexivity.
  Qed.
End Honest.

Lemma Forall2_fun {A B} (Q : A -> B -> Prop) l l1 l2 : (forall a b b', Q a b -> Q a b' -> b = b') ->
  Forall2 Q l l1 -> Forall2 Q l l2 -> l1 = l2.
Proof.
  intros HQ H. revert l2. induction H as [|a b l l1 Hab H IH]; intros l2 H2; inversion H2; subst; [reflexivity|].
  f_equal; [eapply HQ; eassumption|apply IH; assumption].
Qed.

Lemma honest_run R : ristretto_ok R -> forall n t A cbuf sbuf outs parties,
  1 <= n <= 254 -> 1 <= t <= 255 -> Z.of_nat (length A) = n ->
  Forall (fun a => Z.of_nat (length a) = t /\ Forall random_scalar a) A ->
  Z.of_nat (length cbuf) = t -> Z.of_nat (length sbuf) = n ->
  Forall2 (fun a o => dkg_start R true n t a cbuf sbuf = Ok (0, fst o, snd o)) A outs ->
  Forall (fun p => 1 <= fst p <= n /\
            Forall2 (fun o s => nth_error (snd o) (Z.to_nat (fst p - 1)) = Some s) outs (snd p)) parties ->
  NoDup (map fst parties) -> t <= Z.of_nat (length parties) ->
  Forall (recipient_ok R n t (map fst outs)) parties /\
  dkg_reconstruct (map (fun p => mkShare (fst p) (dkg_finish (snd p))) parties) = zsum (map (hd 0) A) mod L.
Proof.
  intros HR n t A cbuf sbuf outs parties Hn Ht HA HF Hc Hs HO HP Hnd Hlen.
  destruct (honest_column R n t A cbuf sbuf outs Hn Ht HF Hc Hs HO) as (EC & Hcol).
  assert (Ecol : forall p, In p parties -> 1 <= fst p <= n /\ snd p = column A (fst p)).
  { intros p Hp. destruct (proj1 (Forall_forall _ _) HP p Hp) as (Hj & HF2). split; [assumption|].
    eapply (Forall2_fun (fun (o : list bytes * list share) s => nth_error (snd o) (Z.to_nat (fst p - 1)) = Some s));
      [intros; congruence|exact HF2|apply Hcol; assumption]. }
  split.
  - apply Forall_forall. intros (j & ss) Hp. destruct (Ecol _ Hp) as (Hj & E). cbn [fst snd] in Hj, E. subst ss.
    rewrite EC. apply honest_recipient; try assumption. unfold index_ok. lia.
  - transitivity (dkg_reconstruct (map (fun j => mkShare j (dkg_finish (column A j))) (map fst parties))).
    + f_equal. rewrite map_map. apply map_ext_in. intros p Hp. destruct (Ecol p Hp) as (_ & ->). reflexivity.
    + apply (honest_reconstruct n t); try assumption.
      * apply Forall_forall. intros j Hj. apply in_map_iff in Hj. destruct Hj as (p & <- & Hp).
        destruct (Ecol p Hp) as (Hj & _). unfold index_ok. lia.
      * rewrite map_length. assumption.
Qed.
