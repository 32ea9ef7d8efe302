(** Proofs for property C95. *)
From Coq Require Import ZArith Lia List Bool.
From Coq.Strings Require Import Byte.
From Verif Require Import PrimeL Fq Bytes Res Sodium OprfModel OprfProofs ToprfModel ToprfSpec ToprfProofs DkgModel LockModel LockSpec.
Import ListNotations.
Open Scope list_scope.
Open Scope Z_scope.

(** * the runs compute what the model computes *)
Lemma rounds_run_eq fuel H ell b_0 dp : forall i b_i out rest,
  snd (rounds_run fuel H ell b_0 dp i b_i out rest) = expand_rounds fuel H ell b_0 dp i b_i out rest.
Proof.
  induction fuel as [|f IH]; intros i b_i out rest; [reflexivity|].
  cbn [rounds_run expand_rounds]. destruct (i <=? ell); [|reflexivity].
  unfold loop_run. destruct (emit out rest _) as [o1 r1]. destruct (emit o1 r1 _) as [o2 r2].
  specialize (IH ((i + 2) mod 256) (expand_loop H b_0 (expand_loop H b_0 b_i i dp) (i + 1) dp) o2 r2).
  destruct (rounds_run f H ell b_0 dp _ _ o2 r2) as [ev r]. exact IH.
Qed.

Lemma expand_run_eq H msg dst len t : snd (expand_run H msg dst len t) = expand_message_xmd H msg dst len.
Proof.
  unfold expand_run, expand_message_xmd. destruct (_ >? 255); [reflexivity|]. destruct (_ =? 255); [reflexivity|].
  cbv zeta. destruct (emit [] len _) as [out rest]. rewrite <- rounds_run_eq.
  destruct (rounds_run _ _ _ _ _ _ _ _ _) as [ev r]. reflexivity.
Qed.

Lemma hash_to_group_run_eq R H lk msg p : snd (hash_to_group_run R H lk msg p) = voprf_hash_to_group R H lk msg.
Proof.
  unfold hash_to_group_run, voprf_hash_to_group. destruct lk; [|reflexivity].
  rewrite <- (expand_run_eq H msg htg_dst 64 t_uniform). destruct (expand_run _ _ _ _ _) as [ev [[ret ub]|]]; [|reflexivity].
  cbn [snd bind]. destruct (ret =? 0); reflexivity.
Qed.

Lemma Blind_run_eq R H lk1 lk2 x len r : snd (Blind_run R H lk1 lk2 x len r) = oprf_Blind R H lk1 lk2 x len r.
Proof.
  unfold Blind_run, oprf_Blind. destruct lk1; [|reflexivity]. destruct (sub x 0 _) as [m|]; [|reflexivity].
  cbn [of_opt bind]. rewrite <- (hash_to_group_run_eq R H lk2 m (Some t_H0)).
  destruct (hash_to_group_run _ _ _ _ _) as [ev [[ret [H0|]]|]]; [| reflexivity | reflexivity].
  cbn [snd bind]. destruct (ret =? 0); [|reflexivity]. destruct (scalarmult R r H0) as [sret q]. reflexivity.
Qed.

Lemma Finalize_run_eq H lk x len N : snd (Finalize_run H lk x len N) = oprf_Finalize H lk x len N.
Proof. unfold Finalize_run, oprf_Finalize. destruct lk; [|reflexivity]. destruct (sub x 0 _); reflexivity. Qed.

Lemma Unblind_run_eq R lk r Zb : snd (Unblind_run R lk r Zb) = oprf_Unblind R lk r Zb.
Proof.
  unfold Unblind_run, oprf_Unblind. destruct (is_valid_point R Zb); [|reflexivity]. destruct lk; [|reflexivity].
  destruct (scalar_invert r) as [iret ir]. reflexivity.
Qed.

Lemma start_run_eq R lk n t a cbuf sbuf : snd (start_run R lk n t a cbuf sbuf) = dkg_start R lk n t a cbuf sbuf.
Proof. unfold start_run. destruct lk; reflexivity. Qed.

Lemma create_shares_run_eq s n t a buf : snd (create_shares_run s n t a buf) = create_shares s n t a buf.
Proof. reflexivity. Qed.

Lemma runs_refine : forall R H,
  (forall lk1 lk2 x len r, snd (Blind_run R H lk1 lk2 x len r) = oprf_Blind R H lk1 lk2 x len r) /\
  (forall lk x len N, snd (Finalize_run H lk x len N) = oprf_Finalize H lk x len N) /\
  (forall lk r Zb, snd (Unblind_run R lk r Zb) = oprf_Unblind R lk r Zb) /\
  (forall lk n t a cbuf sbuf, snd (start_run R lk n t a cbuf sbuf) = dkg_start R lk n t a cbuf sbuf) /\
  (forall s n t a buf, snd (create_shares_run s n t a buf) = create_shares s n t a buf) /\
  (forall msg dst len t, snd (expand_run H msg dst len t) = expand_message_xmd H msg dst len).
Proof.
  intros R H. split; [intros; apply Blind_run_eq|]. split; [intros; apply Finalize_run_eq|]. split; [intros; apply Unblind_run_eq|].
  split; [intros; apply start_run_eq|]. split; [intros; apply create_shares_run_eq|]. intros; apply expand_run_eq.
Qed.

(** * the events *)
Definition htg_prime : bytes := htg_dst ++ [zb (Z.of_nat (length htg_dst))].

Lemma htg_events R H msg p : exists b0 bi u,
  hash_to_group_run R H true msg p =
  (Lock t_uniform :: Holds t_msg_prime (msg_prime msg htg_prime 64) :: Holds t_b_0 b0 :: Holds t_b_i bi ::
   Holds t_uniform u :: Holds t_uniform u ::
   match p with Some t => [Holds t (from_hash R u)] | None => [] end ++ [Unlock t_uniform], Ok (0, Some (from_hash R u))).
Proof.
  unfold hash_to_group_run, expand_run. change ((64 + 64 - 1) / 64 >? 255) with false.
  change (Z.of_nat (length htg_dst) =? 255) with false. cbv zeta. cbv iota.
  fold htg_prime. unfold emit.
  change ((64 + 64 - 1) / 64) with 1. cbn [rounds_run]. change (2 <=? 1) with false. cbv iota.
  cbn [bind]. change (0 =? 0) with true. cbv iota. cbn [app].
  do 3 eexists. destruct p; reflexivity.
Qed.

Definition poly_events (t : temp) (l : list bytes) : list event := map (Holds t) l.

(** every list of events a call can have *)
Inductive shape (R : ristretto) (H : hashes) : call -> list event -> Prop :=
| sh_blind_fail lk2 x len r : shape R H (Blind false lk2 x len r) [LockFails t_H0]
| sh_blind_UB lk2 x len r : sub x 0 (Z.to_nat (len mod 2 ^ 8)) = None -> shape R H (Blind true lk2 x len r) [Lock t_H0]
| sh_blind_fail2 x len r : shape R H (Blind true false x len r) [Lock t_H0; LockFails t_uniform]
| sh_blind x len r m b0 bi u h : sub x 0 (Z.to_nat (len mod 2 ^ 8)) = Some m ->
    shape R H (Blind true true x len r)
      [Lock t_H0; Lock t_uniform; Holds t_msg_prime (msg_prime m htg_prime 64); Holds t_b_0 b0; Holds t_b_i bi;
       Holds t_uniform u; Holds t_uniform u; Holds t_H0 h; Unlock t_uniform; Unlock t_H0]
| sh_fin_fail x len N : shape R H (Finalize false x len N) [LockFails t_state]
| sh_fin_UB x len N : sub x 0 (Z.to_nat (len mod 2 ^ 16)) = None -> shape R H (Finalize true x len N) [Lock t_state]
| sh_fin x len N c : shape R H (Finalize true x len N) [Lock t_state; Holds t_state c; Unlock t_state]
| sh_unb_inv lk r Zb : shape R H (Unblind lk r Zb) []
| sh_unb_fail r Zb : shape R H (Unblind false r Zb) [LockFails t_ir]
| sh_unb r Zb c : shape R H (Unblind true r Zb) [Lock t_ir; Holds t_ir c; Unlock t_ir]
| sh_start_fail n t a cb sb : shape R H (Start false n t a cb sb) [LockFails t_poly]
| sh_start_UB n t a cb sb l : dkg_start R true n t a cb sb = UB -> shape R H (Start true n t a cb sb) (Lock t_poly :: poly_events t_poly l)
| sh_start n t a cb sb l : shape R H (Start true n t a cb sb) (Lock t_poly :: poly_events t_poly l ++ [Unlock t_poly])
| sh_create s n t a buf l : shape R H (CreateShares s n t a buf) (poly_events t_coeff l).

Lemma events_shape R H c : shape R H c (events R H c).
Proof.
  destruct c as [lk1 lk2 x len r | lk x len N | lk r Zb | lk n t a cb sb | s n t a buf]; cbn [events].
  - unfold Blind_run. destruct lk1; [|apply sh_blind_fail].
    destruct (sub x 0 (Z.to_nat (len mod 2 ^ 8))) as [m|] eqn:E; [|apply sh_blind_UB, E].
    destruct lk2.
    + destruct (htg_events R H m (Some t_H0)) as (b0 & bi & u & Eq). rewrite Eq. change (0 =? 0) with true. cbv iota.
      destruct (scalarmult R r (from_hash R u)) as [sret q]. cbn [fst app]. apply sh_blind, E.
    + cbn [hash_to_group_run fst]. apply sh_blind_fail2.
  - unfold Finalize_run. destruct lk; [|apply sh_fin_fail]. destruct (sub x 0 (Z.to_nat (len mod 2 ^ 16))) eqn:E; [apply sh_fin|apply sh_fin_UB, E].
  - unfold Unblind_run. destruct (is_valid_point R Zb); [|apply sh_unb_inv]. destruct lk; [|apply sh_unb_fail].
    destruct (scalar_invert r) as [iret ir]. apply sh_unb.
  - unfold start_run. destruct lk; cbn [negb]; [|apply sh_start_fail]. cbn [fst].
    rewrite <- (map_map (fun k => concat (map (le_bytes 32) (firstn (S k) a))) (Holds t_poly)).
    destruct (dkg_start R true n t a cb sb) eqn:E; [apply sh_start|]. rewrite app_nil_r. apply sh_start_UB, E.
  - unfold create_shares_run. cbn [fst].
    rewrite <- (map_map (fun k => concat (map (le_bytes 32) (firstn (S k) a))) (Holds t_coeff)). apply sh_create.
Qed.

(** * a lock that fails *)
Lemma lock_failure : forall R H c, defined R H c -> lock_failed (events R H c) -> refused R H c.
Proof.
  intros R H c HD (t & Hin). pose proof (events_shape R H c) as HS. revert HD. 
  destruct HS; cbn [defined refused]; intros HD; try reflexivity;
    try (cbn [In] in Hin; exfalso; intuition discriminate).
  - unfold oprf_Blind in *. destruct (sub x 0 _) as [m|]; [reflexivity|]. exfalso. apply HD. reflexivity.
  - unfold oprf_Unblind. destruct (is_valid_point R Zb); reflexivity.
  - exfalso. destruct Hin as [E|Hin]; [discriminate|]. apply in_app_iff in Hin. destruct Hin as [Hin|[E|[]]]; [|discriminate].
    apply in_map_iff in Hin. destruct Hin as (y & E & _). discriminate.
  - exfalso. apply in_map_iff in Hin. destruct Hin as (y & E & _). discriminate.
Qed.

(** * wiped *)
Lemma temp_eqb_eq t u : temp_eqb t u = true <-> t = u.
Proof. split; [destruct t, u; cbn; congruence|intros ->; destruct u; reflexivity]. Qed.

Lemma left_in_app a b t : left_in (a ++ b) t = fold_left (hold_event t) b (left_in a t).
Proof. apply fold_left_app. Qed.

Lemma hold_other t u l : t <> u -> forall c, fold_left (hold_event t) (poly_events u l) c = c.
Proof.
  intros N. induction l as [|x l IH]; intros c; [reflexivity|]. cbn [poly_events map fold_left hold_event].
  destruct (temp_eqb t u) eqn:E; [apply temp_eqb_eq in E; contradiction|]. apply IH.
Qed.

Lemma wiped : forall R H c t, defined R H c -> guarded t -> left_in (events R H c) t = None.
Proof.
  intros R H c t HD HG. pose proof (events_shape R H c) as HS. revert HD.
  assert (HT : t <> t_coeff /\ t <> t_msg_prime /\ t <> t_b_0 /\ t <> t_b_i) by (destruct HG as [ -> |[ -> |[ -> |[ -> | -> ]]]]; repeat split; discriminate).
  destruct HS; cbn [defined]; intros HD; try (destruct HG as [ -> |[ -> |[ -> |[ -> | -> ]]]]; reflexivity).
  - contradiction.
  - change (Lock t_poly :: poly_events t_poly l ++ [Unlock t_poly]) with ((Lock t_poly :: poly_events t_poly l) ++ [Unlock t_poly]).
    rewrite left_in_app. cbn [fold_left hold_event]. destruct (temp_eqb t t_poly) eqn:E; [reflexivity|].
    unfold left_in. cbn [fold_left hold_event]. apply hold_other. intros ->. discriminate.
  - apply hold_other. apply HT.
Qed.

(** * locked while used *)
Fixpoint safe_from (L : layout) (t : temp) (lk : Z -> bool) (c : option bytes) (tr : list event) : Prop :=
  (c <> None -> forall p, on_page L t p -> lk p = true) /\
  match tr with [] => True | e :: tr' => safe_from L t (lock_event L lk e) (hold_event t c e) tr' end.

Lemma safe_from_ok L t : forall tr lk c, safe_from L t lk c tr ->
  forall a b, tr = a ++ b -> fold_left (hold_event t) a c <> None -> forall p, on_page L t p -> fold_left (lock_event L) a lk p = true.
Proof.
  induction tr as [|e tr IH]; intros lk c (H1 & H2) a b E Hc p Hp.
  - destruct a; [|discriminate]. apply H1; assumption.
  - destruct a as [|e' a]; [apply H1; assumption|]. cbn [app] in E. assert (e' = e) by congruence. subst e'.
    cbn [fold_left] in *. apply (IH _ _ H2 a b); [congruence|exact Hc|exact Hp].
Qed.

Lemma safe_locked L before tr t : safe_from L t before None tr -> locked_while_used L before tr t.
Proof. intros S a b E c Hc p Hp. apply (safe_from_ok L t tr before None S a b E); [|exact Hp]. unfold left_in in Hc. congruence. Qed.

Lemma on_page_iff L t p : on_page_b L t p = true <-> on_page L t p.
Proof. unfold on_page_b, on_page. rewrite andb_true_iff, !Z.leb_le. tauto. Qed.

Lemma safe_poly L t u tr : forall l lk c, (t = u -> forall p, on_page L t p -> lk p = true) -> (c <> None -> t = u) ->
  (forall c', (c' <> None -> t = u) -> safe_from L t lk c' tr) -> safe_from L t lk c (poly_events u l ++ tr).
Proof.
  induction l as [|x l IH]; intros lk c Hl Hc Htr; cbn [poly_events map app]; [apply Htr, Hc|].
  cbn [safe_from lock_event hold_event]. split; [intros E; apply Hl, Hc, E|].
  apply IH; [exact Hl| |exact Htr]. destruct (temp_eqb t u) eqn:E; [intros _; apply temp_eqb_eq, E|exact Hc].
Qed.

Lemma locked : forall R H c L before t, pages_apart L t_H0 t_uniform -> guarded t ->
  locked_while_used L before (events R H c) t.
Proof.
  intros R H c L before t HA HG. apply safe_locked. pose proof (events_shape R H c) as HS.
  assert (HP : forall u p, on_page L u p -> on_page_b L u p = true) by (intros; apply on_page_iff; assumption).
  assert (HN : forall p, on_page L t_H0 p -> on_page_b L t_uniform p = false).
  { intros p Hp. destruct (on_page_b L t_uniform p) eqn:E; [|reflexivity]. apply on_page_iff in E. destruct (HA p Hp E). }
  assert (HT : t <> t_coeff) by (destruct HG as [ -> |[ -> |[ -> |[ -> | -> ]]]]; discriminate).
  destruct HS.
  all: try (destruct HG as [ -> |[ -> |[ -> |[ -> | -> ]]]]; cbn [safe_from lock_event hold_event temp_eqb];
    repeat split; try (intros Hf; exfalso; apply Hf; reflexivity);
    intros _ p Hp; try (rewrite (HP _ _ Hp)); try rewrite (HN _ Hp); rewrite ?orb_true_r; reflexivity).
  - cbn [safe_from lock_event hold_event]. split; [congruence|]. rewrite <- (app_nil_r (poly_events t_poly l)).
    apply safe_poly; [intros -> p Hp; rewrite (HP _ _ Hp); reflexivity|congruence|].
    intros c' Hc'. cbn [safe_from]. split; [|exact I]. intros E p Hp. rewrite <- (Hc' E), (HP _ _ Hp). reflexivity.
  - cbn [safe_from lock_event hold_event]. split; [congruence|].
    apply safe_poly; [intros -> p Hp; rewrite (HP _ _ Hp); reflexivity|congruence|].
    intros c' Hc'. cbn [safe_from lock_event hold_event]. split; [intros E p Hp; rewrite <- (Hc' E), (HP _ _ Hp); reflexivity|].
    split; [|exact I]. destruct (temp_eqb t t_poly) eqn:E; [congruence|]. intros E'. apply Hc' in E'. subst t. discriminate.
  - rewrite <- (app_nil_r (poly_events t_coeff l)). apply safe_poly; [intros E; contradiction|congruence|].
    intros c' Hc'. cbn [safe_from]. split; [|exact I]. intros E. destruct (HT (Hc' E)).
Qed.

(** * released *)
Lemma locked_poly L u l : forall lk p, fold_left (lock_event L) (poly_events u l) lk p = lk p.
Proof. induction l as [|x l IH]; intros lk p; [reflexivity|]. apply IH. Qed.

Lemma released : forall R H c L before p, defined R H c -> (forall x len r, c <> Blind true false x len r) ->
  (locked_after L before (events R H c) p = true <->
   before p = true /\ forall t, In (Lock t) (events R H c) -> ~ on_page L t p).
Proof.
  intros R H c L before p HD HB. pose proof (events_shape R H c) as HS. revert HD HB.
  destruct HS; cbn [defined]; intros HD HB.
  all: try (exfalso; apply HD; unfold oprf_Blind, oprf_Finalize; rewrite H0; reflexivity).
  all: try (exfalso; eapply HB; reflexivity).
  all: try contradiction.
  all: try (unfold locked_after; cbn [fold_left lock_event]; split; [intros E; split; [exact E|cbn [In]; intuition discriminate]|tauto]).
  - unfold locked_after. cbn [fold_left lock_event].
    rewrite !andb_true_iff, !orb_true_iff, !negb_true_iff, <- !not_true_iff_false, !on_page_iff. split.
    + intros (A & B & C). split; [tauto|]. intros t Ht. cbn [In] in Ht.
      intuition (try discriminate); match goal with E : Lock _ = Lock _ |- _ => assert (t = t_H0 \/ t = t_uniform) by (revert E; clear; intros E; inversion E; tauto) end; intuition (subst; tauto).
    + intros (A & B). pose proof (B t_H0 ltac:(cbn [In]; tauto)). pose proof (B t_uniform ltac:(cbn [In]; tauto)). tauto.
  - unfold locked_after. cbn [fold_left lock_event].
    rewrite !andb_true_iff, !orb_true_iff, !negb_true_iff, <- !not_true_iff_false, !on_page_iff. split.
    + intros (A & B). split; [tauto|]. intros t [E|[E|[E|[]]]]; try discriminate. inversion E; subst; exact A.
    + intros (A & B). pose proof (B t_state ltac:(cbn [In]; tauto)). tauto.
  - unfold locked_after. cbn [fold_left lock_event].
    rewrite !andb_true_iff, !orb_true_iff, !negb_true_iff, <- !not_true_iff_false, !on_page_iff. split.
    + intros (A & B). split; [tauto|]. intros t [E|[E|[E|[]]]]; try discriminate. inversion E; subst; exact A.
    + intros (A & B). pose proof (B t_ir ltac:(cbn [In]; tauto)). tauto.
  - unfold locked_after. cbn [fold_left lock_event]. rewrite fold_left_app. cbn [fold_left lock_event]. rewrite locked_poly.
    rewrite !andb_true_iff, !orb_true_iff, !negb_true_iff, <- !not_true_iff_false, !on_page_iff. split.
    + intros (A & B). split; [tauto|]. intros u Ht. destruct Ht as [E|Ht]; [inversion E; subst; exact A|].
      apply in_app_iff in Ht. destruct Ht as [Ht|[E|[]]]; [|discriminate]. apply in_map_iff in Ht. destruct Ht as (y & E & _). discriminate.
    + intros (A & B). pose proof (B t_poly (or_introl eq_refl)). tauto.
  - unfold locked_after. rewrite locked_poly. split; [|tauto]. intros A. split; [exact A|]. intros u Ht.
    apply in_map_iff in Ht. destruct Ht as (y & E & _). discriminate.
Qed.

(** the exception: the second lock of oprf_Blind fails *)
Lemma leaked : forall R H x len r L before p, defined R H (Blind true false x len r) -> on_page L t_H0 p ->
  locked_after L before (events R H (Blind true false x len r)) p = true.
Proof.
  intros R H x len r L before p HD Hp. cbn [defined] in HD. cbn [events]. unfold Blind_run, oprf_Blind in *.
  destruct (sub x 0 _) as [m|]; [|destruct (HD eq_refl)]. cbn [hash_to_group_run fst]. unfold locked_after. cbn [fold_left lock_event].
  apply on_page_iff in Hp. rewrite Hp. reflexivity.
Qed.

(** * what stays behind *)
Lemma input_left : forall R H x len r m, sub x 0 (Z.to_nat (len mod 2 ^ 8)) = Some m ->
  exists before after, left_in (events R H (Blind true true x len r)) t_msg_prime = Some (before ++ m ++ after) /\ length before = 128%nat.
Proof.
  intros R H x len r m E. cbn [events]. unfold Blind_run. rewrite E.
  destruct (htg_events R H m (Some t_H0)) as (b0 & bi & u & Eq). rewrite Eq. change (0 =? 0) with true. cbv iota.
  destruct (scalarmult R r (from_hash R u)) as [sret q]. cbn [fst app].
  unfold left_in. cbn [fold_left hold_event temp_eqb]. unfold msg_prime. do 2 eexists. split; [reflexivity|]. reflexivity.
Qed.

Lemma left_seq a t : forall k, left_in (map (fun j => Holds t (concat (map (le_bytes 32) (firstn (S j) a)))) (seq 0 (S k))) t =
  Some (concat (map (le_bytes 32) (firstn (S k) a))).
Proof.
  intros k. rewrite seq_S, map_app, left_in_app. cbn [map fold_left hold_event].
  assert (E : temp_eqb t t = true) by (apply temp_eqb_eq; reflexivity). cbn [Nat.add]. rewrite E. reflexivity.
Qed.

Lemma coeff_left : forall R H secret n t a buf, 2 <= t -> Z.of_nat (length a) = t - 1 ->
  left_in (events R H (CreateShares secret n t a buf)) t_coeff = Some (concat (map (le_bytes 32) a)).
Proof.
  intros R H secret n t a buf Ht Ha. cbn [events]. unfold create_shares_run. cbn [fst].
  replace (Z.to_nat (t - 1)) with (S (Z.to_nat (t - 2))) by lia. rewrite left_seq.
  rewrite firstn_all2 by lia. reflexivity.
Qed.

Lemma concat_le_inj : forall a b, (forall z, In z a -> 0 <= z < 256 ^ 32) -> (forall z, In z b -> 0 <= z < 256 ^ 32) ->
  concat (map (le_bytes 32) a) = concat (map (le_bytes 32) b) -> a = b.
Proof.
  induction a as [|x a IH]; intros [|y b] Ha Hb E; cbn [map concat] in E.
  - reflexivity.
  - exfalso. apply (f_equal (@length _)) in E. rewrite app_length, le_bytes_length in E. cbn [length] in E. lia.
  - exfalso. apply (f_equal (@length _)) in E. rewrite app_length, le_bytes_length in E. cbn [length] in E. lia.
  - assert (E1 : le_bytes 32 x = le_bytes 32 y /\ concat (map (le_bytes 32) a) = concat (map (le_bytes 32) b)).
    { apply (f_equal (firstn 32)) in E as F. apply (f_equal (skipn 32)) in E.
      rewrite !firstn_app, !le_bytes_length, !Nat.sub_diag, !firstn_O, !app_nil_r in F.
      rewrite !skipn_app, !le_bytes_length, !Nat.sub_diag, !skipn_O in E.
      rewrite !firstn_all2 in F by (rewrite le_bytes_length; lia). rewrite !skipn_all2 in E by (rewrite le_bytes_length; lia).
      split; [exact F|exact E]. }
    destruct E1 as (E1 & E2). f_equal.
    + apply (le_bytes_inj 32); [apply Ha; left; reflexivity|apply Hb; left; reflexivity|exact E1].
    + apply IH; [intros z Hz; apply Ha; right; exact Hz|intros z Hz; apply Hb; right; exact Hz|exact E2].
Qed.

(** with what toprf_create_shares leaves behind, one share gives away the key *)
Lemma coeff_left_key : forall R H n t secret1 a1 buf1 all1 secret2 a2 buf2 all2 s,
  2 <= t -> sharing_params secret1 n t a1 buf1 -> sharing_params secret2 n t a2 buf2 ->
  (forall z, In z a1 -> 0 <= z < L) -> (forall z, In z a2 -> 0 <= z < L) ->
  create_shares secret1 n t a1 buf1 = Ok all1 -> create_shares secret2 n t a2 buf2 = Ok all2 ->
  left_in (events R H (CreateShares secret1 n t a1 buf1)) t_coeff = left_in (events R H (CreateShares secret2 n t a2 buf2)) t_coeff ->
  In s all1 -> In s all2 -> secret1 = secret2.
Proof.
  intros R H n t s1 a1 b1 l1 s2 a2 b2 l2 s Ht (P1 & P2 & P3 & P4 & P5) (Q1 & Q2 & Q3 & Q4 & Q5) R1 R2 C1 C2 E I1 I2.
  rewrite create_shares_eq in C1 by assumption. rewrite create_shares_eq in C2 by assumption.
  rewrite !coeff_left in E by assumption.
  assert (B : forall z, 0 <= z < L -> 0 <= z < 256 ^ 32) by (intros z; pose proof L_lt_2_255; change (256 ^ 32) with (2 ^ 256); assert (2 ^ 255 < 2 ^ 256) by reflexivity; lia).
  assert (Ea : a1 = a2) by (apply concat_le_inj; [intros z Hz; apply B, R1, Hz|intros z Hz; apply B, R2, Hz|congruence]).
  subst a2. assert (l1 = shares_of (s1 :: a1) n) by congruence. assert (l2 = shares_of (s2 :: a1) n) by congruence. subst l1 l2.
  apply shares_of_In in I1; [|lia]. apply shares_of_In in I2; [|lia]. destruct I1 as (_ & V1), I2 as (_ & V2).
  rewrite V1 in V2. cbn [poly] in V2. set (k := s_index s * poly a1 (s_index s)) in *.
  assert (E1 : ((s1 + k) - k) mod L = ((s2 + k) - k) mod L) by (rewrite Zminus_mod, V2, <- Zminus_mod; reflexivity).
  rewrite !Z.add_simpl_r, !Z.mod_small in E1 by assumption. exact E1.
Qed.

(** H0 and uniform_bytes on one page: H0 is used unlocked *)
Lemma shared_page : forall R H x len r m L before p, sub x 0 (Z.to_nat (len mod 2 ^ 8)) = Some m ->
  on_page L t_H0 p -> on_page L t_uniform p -> ~ locked_while_used L before (events R H (Blind true true x len r)) t_H0.
Proof.
  intros R H x len r m L before p E H1 H2 HL.
  assert (ES : exists a h b, events R H (Blind true true x len r) = (a ++ [Holds t_H0 h; Unlock t_uniform]) ++ b).
  { cbn [events]. unfold Blind_run. rewrite E.
    destruct (htg_events R H m (Some t_H0)) as (b0 & bi & u & Eq). rewrite Eq. change (0 =? 0) with true. cbv iota.
    destruct (scalarmult R r (from_hash R u)) as [sret q]. cbn [fst app].
    exists [Lock t_H0; Lock t_uniform; Holds t_msg_prime (msg_prime m htg_prime 64); Holds t_b_0 b0; Holds t_b_i bi; Holds t_uniform u; Holds t_uniform u],
      (from_hash R u), [Unlock t_H0]. reflexivity. }
  destruct ES as (a & h & b & ES). specialize (HL _ _ ES h).
  rewrite left_in_app in HL. specialize (HL eq_refl p H1). unfold locked_after in HL. rewrite fold_left_app in HL.
  cbn [fold_left lock_event] in HL. apply on_page_iff in H2. rewrite H2 in HL. discriminate.
Qed.
