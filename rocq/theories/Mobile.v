(** C106: what one server less than needed sees, in each epoch, fits every key. *)
From Coq Require Import ZArith Lia List Bool Permutation.
From Verif Require Import PrimeL Fq Bytes Res Mem Sodium ToprfModel ToprfSpec ToprfProofs DkgModel DkgSpec MpmultModel MpmultProofs SecrecySpec Secrecy.
From Verif Require Import MulSpec MulUse UpdateSpec Update MobileSpec.
Import ListNotations.
Open Scope list_scope.
Open Scope Z_scope.

(** ** lists of shares in the order of their numbers *)
Lemma shares_nth cs n j : 1 <= j <= n -> nth_error (shares_of cs n) (Z.to_nat (j - 1)) = Some (mkShare j (poly cs j mod L)).
Proof.
  intros Hj. unfold shares_of. rewrite map_map, nth_error_map. rewrite (nth_error_nth' _ 0%nat) by (rewrite seq_length; lia). cbn [option_map]. f_equal.
  rewrite seq_nth by lia. f_equal; [lia|]. do 2 f_equal. lia.
Qed.

Lemma shares_in cs n s : In s (shares_of cs n) -> 1 <= s_index s <= n /\ s = mkShare (s_index s) (poly cs (s_index s) mod L).
Proof.
  unfold shares_of. intros H. apply in_map_iff in H. destruct H as (i & <- & H). apply in_map_iff in H. destruct H as (m & <- & H). apply in_seq in H. cbn [s_index]. split; [lia|reflexivity].
Qed.

Lemma mine_in T s : mine T s = true <-> In (s_index s) T.
Proof. unfold mine. rewrite existsb_exists. split; [intros (x & Hx & E); apply Z.eqb_eq in E; subst; exact Hx|intros H; exists (s_index s); split; [exact H|apply Z.eqb_refl]]. Qed.

Lemma same_filter T cs cs' n : (forall i, In i T -> 1 <= i <= n -> poly cs i mod L = poly cs' i mod L) -> filter (mine T) (shares_of cs n) = filter (mine T) (shares_of cs' n).
Proof.
  intros H. unfold shares_of. set (l := map Z.of_nat (seq 1 (Z.to_nat n))). assert (Hl : forall i, In i l -> 1 <= i <= n) by (unfold l; intros i Hi; apply in_map_iff in Hi; destruct Hi as (m & <- & Hm); apply in_seq in Hm; lia).
  clearbody l. induction l as [|i l IH]; [reflexivity|]. cbn [map filter]. rewrite IH by (intros; apply Hl; right; assumption). change (mine T (mkShare i (poly cs' i mod L))) with (mine T (mkShare i (poly cs i mod L))).
  destruct (mine T (mkShare i (poly cs i mod L))) eqn:E; [|reflexivity]. apply mine_in in E. cbn [s_index] in E. rewrite (H i E (Hl i (or_introl eq_refl))). reflexivity.
Qed.

Lemma filter_same T cs cs' n i : filter (mine T) (shares_of cs n) = filter (mine T) (shares_of cs' n) -> In i T -> 1 <= i <= n -> poly cs i mod L = poly cs' i mod L.
Proof.
  intros E Hi Hn. assert (H : In (mkShare i (poly cs i mod L)) (filter (mine T) (shares_of cs n))) by (apply filter_In; split; [eapply nth_error_In, shares_nth, Hn|apply mine_in; exact Hi]).
  rewrite E in H. apply filter_In in H. destruct H as (H & _). apply shares_in in H. destruct H as (_ & H). cbn [s_index] in H. congruence.
Qed.

Lemma key_shares K d : shares_key K d -> exists a, d_shares d = shares_of (K :: a) (d_n d) /\ sharing_params K (d_n d) (d_t d) a (repeat (mkShare 0 0) (Z.to_nat (d_n d))).
Proof.
  intros (a & buf & SP & E). pose proof SP as (H1 & H2 & H3 & H4 & H5). exists a. rewrite create_shares_eq in E by assumption. injection E as E. split; [symmetry; exact E|].
  repeat split; try lia. rewrite repeat_length. lia.
Qed.

Lemma known_of T cs n t : NoDup T -> Forall (fun i => 1 <= i <= n) T -> Z.of_nat (length T) = t - 1 ->
  let known := map (fun i => mkShare i (poly cs i mod L)) T in
  NoDup (map s_index known) /\ Forall (fun s => 1 <= s_index s <= n /\ 0 <= s_value s < L) known /\ Z.of_nat (length known) = t - 1.
Proof.
  intros H1 H2 H3. cbv zeta. rewrite map_map. cbn [s_index]. rewrite map_id. split; [exact H1|]. split; [|rewrite map_length; exact H3].
  apply Forall_forall. intros s Hs. apply in_map_iff in Hs. destruct Hs as (i & <- & Hi). cbn [s_index s_value]. split; [exact (proj1 (Forall_forall _ _) H2 i Hi)|apply Z.mod_pos_bound, L_pos].
Qed.

Lemma known_kept T cs cs' n : incl (map (fun i => mkShare i (poly cs i mod L)) T) (shares_of cs' n) -> filter (mine T) (shares_of cs n) = filter (mine T) (shares_of cs' n).
Proof.
  intros H. apply same_filter. intros i Hi _. assert (X : In (mkShare i (poly cs i mod L)) (shares_of cs' n)) by (apply H, in_map_iff; exists i; split; [reflexivity|exact Hi]).
  apply shares_in in X. destruct X as (_ & X). cbn [s_index] in X. congruence.
Qed.

(** ** the first deployment *)
Lemma other_key K K' d T : shares_key K d -> 0 <= K' < L -> one_short T d -> exists d', shares_key K' d' /\ sees_shares T d' = sees_shares T d.
Proof.
  intros HK HK' (T1 & T2 & T3). destruct (key_shares _ _ HK) as (a & E & SP). pose proof SP as (H1 & H2 & H3 & H4 & H5).
  destruct (known_of T (K :: a) (d_n d) (d_t d) T1 T2 T3) as (N1 & N2 & N3).
  destruct (secrecy K' (d_n d) (d_t d) _ _ HK' H2 H3 H5 N1 N2 N3) as (a' & (La & _ & shares & C & I) & _).
  exists (mkDep (d_n d) (d_t d) shares). split; [exists a', (repeat (mkShare 0 0) (Z.to_nat (d_n d))); cbn [d_n d_t d_shares]; split; [repeat split; assumption || lia|exact C]|].
  unfold sees_shares. cbn [d_n d_t d_shares]. rewrite create_shares_eq in C by assumption. injection C as <-. rewrite E. f_equal. symmetry. apply known_kept. exact I.
Qed.

(** ** one dealer *)
Lemma same_deal K K' d d1 T dsh n t i shs T' : shares_key K d -> shares_key K' d1 -> sees_shares T d1 = sees_shares T d -> 1 <= n <= 254 ->
  NoDup T' -> Forall (fun j => 1 <= j <= n) T' -> Z.of_nat (length T') = t - 1 ->
  (exists sa sb r buf, In sa (d_shares d) /\ In sb dsh /\ s_index sa = i /\ s_index sb = i /\ Z.of_nat (length r) = t - 1 /\ Z.of_nat (length buf) = n /\ mpc_mul_start sa sb n t r buf = Ok (0, shs)) ->
  exists shs', (exists sa sb r buf, In sa (d_shares d1) /\ In sb dsh /\ s_index sa = i /\ s_index sb = i /\ Z.of_nat (length r) = t - 1 /\ Z.of_nat (length buf) = n /\ mpc_mul_start sa sb n t r buf = Ok (0, shs')) /\
    (In i T -> shs' = shs) /\ filter (mine T') shs' = filter (mine T') shs /\ (exists cs, shs = shares_of cs n) /\ (exists cs, shs' = shares_of cs n).
Proof.
  intros HK HK' HS Hn N1 N2 N3 (sa & sb & r & buf & A1 & A2 & A3 & A4 & A5 & A6 & A7).
  pose proof (mul_start_ok _ _ _ _ _ _ _ Hn A5 A6 A7) as (Ht & Ei & Es).
  assert (Htn : t <= n). { destruct (mul_start_rejects sa sb n t r buf) as (Hbad & _). destruct (Z_lt_le_dec n t) as [Hlt|]; [|assumption]. rewrite Hbad in A7 by auto. apply (f_equal (fun o => match o with Ok x => fst x | _ => 0 end)) in A7. cbn in A7. lia. }
  unfold sees_shares in HS. injection HS as Sn St Sf.
  destruct (in_dec Z.eq_dec i T) as [Hi|Hi].
  - exists shs. split; [|split; [reflexivity|split; [reflexivity|split; eexists; exact Es]]].
    exists sa, sb, r, buf. split; [|auto 7]. assert (X : In sa (filter (mine T) (d_shares d1))) by (rewrite Sf; apply filter_In; split; [exact A1|apply mine_in; rewrite A3; exact Hi]). apply filter_In in X. apply X.
  - destruct (key_shares _ _ HK) as (a & Ed & _). destruct (key_shares _ _ HK') as (a' & Ed' & _).
    assert (Hr : 1 <= i <= d_n d) by (rewrite Ed in A1; apply shares_in in A1; rewrite A3 in A1; apply A1).
    destruct (numbers_held _ _ i HK' ltac:(lia)) as (sa' & B1 & B2).
    destruct (known_of T' (scalar_mul (s_value sa) (s_value sb) :: r) n t N1 N2 N3) as (Q1 & Q2 & Q3).
    destruct (product_secrecy sa' sb n t buf _ ltac:(congruence) ltac:(lia) ltac:(lia) A6 Q1 Q2 Q3) as (r' & ((Lr & _) & shs' & M & I) & _).
    pose proof (mul_start_ok _ _ _ _ _ _ _ Hn Lr A6 M) as (_ & _ & Es').
    exists shs'. split; [exists sa', sb, r', buf; auto 8|]. split; [intros; contradiction|]. split; [|split; eexists; [exact Es|exact Es']].
    rewrite Es, Es'. symmetry. apply known_kept. rewrite <- Es'. exact I.
Qed.

(** ** one update *)
Lemma same_dealing K K' d d1 T dsh n t T' : shares_key K d -> shares_key K' d1 -> sees_shares T d1 = sees_shares T d -> 1 <= n <= 254 ->
  NoDup T' -> Forall (fun j => 1 <= j <= n) T' -> Z.of_nat (length T') = t - 1 -> forall dealers dealt, dealt_products (d_shares d) dsh n t dealers dealt ->
  exists dealt', dealt_products (d_shares d1) dsh n t dealers dealt' /\
    map (fun p => if existsb (Z.eqb (fst p)) T then Some (snd p) else None) (combine dealers dealt') = map (fun p => if existsb (Z.eqb (fst p)) T then Some (snd p) else None) (combine dealers dealt) /\
    Forall2 (fun shs shs' => filter (mine T') shs' = filter (mine T') shs /\ (exists cs, shs = shares_of cs n) /\ exists cs, shs' = shares_of cs n) dealt dealt'.
Proof.
  intros HK HK' HS Hn N1 N2 N3 dealers dealt HF. induction HF as [|i shs ds dl Hd _ (dl' & I1 & I2 & I3)]; [exists []; repeat split; constructor|].
  destruct (same_deal K K' d d1 T dsh n t i shs T' HK HK' HS Hn N1 N2 N3 Hd) as (shs' & D1 & D2 & D3 & D4). exists (shs' :: dl'). split; [constructor; assumption|]. split; [|constructor; [split; assumption|exact I3]].
  cbn [combine map fst snd]. f_equal; [|exact I2]. destruct (existsb (Z.eqb i) T) eqn:E; [|reflexivity]. rewrite D2; [reflexivity|]. apply existsb_exists in E. destruct E as (x & Hx & E). apply Z.eqb_eq in E. subst x. exact Hx.
Qed.

Lemma same_collected n T' j dl dl' recv recv' : In j T' -> Forall2 (fun shs shs' => filter (mine T') shs' = filter (mine T') shs /\ (exists cs, shs = shares_of cs n) /\ exists cs, shs' = shares_of cs n) dl dl' ->
  collected n dl j recv -> collected n dl' j recv' -> recv = recv'.
Proof.
  intros Hj HF (Hr & H1) (_ & H2). revert recv recv' H1 H2. induction HF as [|shs shs' dl dl' (E & (cs & ->) & (cs' & ->)) _ IH]; intros recv recv' H1 H2; inversion H1; subst; inversion H2; subst; [reflexivity|].
  f_equal; [|apply IH; assumption].
  match goal with A : nth_error (shares_of cs n) _ = Some ?x, B : nth_error (shares_of cs' n) _ = Some ?y |- ?x = ?y => rewrite shares_nth in A, B by exact Hr; injection A as <-; injection B as <- end.
  f_equal. eapply filter_same; [symmetry; exact E|exact Hj|exact Hr].
Qed.

Lemma same_update K K' d d1 T e : shares_key K d -> shares_key K' d1 -> sees_shares T d1 = sees_shares T d -> updates d e -> one_short (e_taken e) (e_new e) ->
  exists e', updates d1 e' /\ sees_update T e' = sees_update T e.
Proof.
  intros HK HK' HS (HD & Hnd & He & Hn & Hdp & HF) (N1 & N2 & N3). set (n := d_n (e_new e)) in *. set (t := d_t (e_new e)) in *. set (T' := e_taken e) in *.
  pose proof HS as HS'. unfold sees_shares in HS'. injection HS' as Sn St _.
  pose proof (dealers_u8 _ _ _ _ _ _ _ HK Hdp) as Hu.
  destruct (same_dealing K K' d d1 T (e_dshares e) n t T' HK HK' HS Hn N1 N2 N3 _ _ Hdp) as (dealt' & P1 & P2 & P3).
  assert (HL : Forall (fun shs => Z.of_nat (length shs) = n) dealt').
  { clear -P3 Hn. induction P3 as [|x y l l' (_ & _ & cs & ->) _ IH]; constructor; [rewrite shares_of_length; lia|exact IH]. }
  assert (G : forall js shs, Forall (fun j => 1 <= j <= n) js -> Forall2 (fun j s => exists recv junk, collected n (e_dealt e) j recv /\ s = mpc_mul_finish (e_dealers e) j recv junk) js shs ->
    exists shs', Forall2 (fun j s => exists recv junk, collected n dealt' j recv /\ s = mpc_mul_finish (e_dealers e) j recv junk) js shs' /\ filter (mine T') shs' = filter (mine T') shs).
  { intros js shs HJ H2. revert HJ. induction H2 as [|j s js shs (recv & junk & Hc & ->) _ IH]; intros HJ; [exists []; split; [constructor|reflexivity]|].
    inversion HJ as [|? ? Hj HJ']; subst. destruct (IH HJ') as (shs' & IH1 & IH2). destruct (can_collect n dealt' j Hj HL) as (recv' & Hc').
    exists (mpc_mul_finish (e_dealers e) j recv' junk :: shs'). split; [constructor; [exists recv', junk; split; [exact Hc'|reflexivity]|exact IH1]|].
    cbn [filter]. rewrite IH2. change (mine T' (mpc_mul_finish (e_dealers e) j recv' junk)) with (existsb (Z.eqb j) T'). change (mine T' (mpc_mul_finish (e_dealers e) j recv junk)) with (existsb (Z.eqb j) T').
    destruct (existsb (Z.eqb j) T') eqn:E; [|reflexivity]. f_equal. apply existsb_exists in E. destruct E as (x & Hx & E). apply Z.eqb_eq in E. subst x.
    rewrite (same_collected n T' j _ _ recv recv' Hx P3 Hc Hc'). reflexivity. }
  assert (HJ : Forall (fun j => 1 <= j <= n) (zrange 1 (Z.to_nat n))) by (apply Forall_forall; intros j Hj; apply zrange_In in Hj; lia).
  destruct (G _ _ HJ HF) as (shs' & G1 & G2).
  exists (mkEpoch (e_dshares e) (e_dealers e) dealt' (mkDep n t shs') T'). split.
  - unfold updates. cbn [e_dshares e_dealers e_dealt e_new d_n d_t d_shares]. rewrite Sn, St. repeat (split; [assumption|]). exact G1.
  - unfold sees_update. cbn [e_dshares e_dealers e_dealt e_new e_taken]. fold T'. rewrite P2. f_equal; [f_equal; f_equal|].
    + clear -P3. induction P3 as [|x y l l' (E & _) _ IH]; [reflexivity|]. cbn [map]. rewrite E, IH. reflexivity.
    + unfold sees_shares. cbn [d_n d_t d_shares]. fold n t. rewrite G2. reflexivity.
Qed.

(** ** any number of updates *)
Lemma updates_key K d e : shares_key K d -> updates d e -> exists K', shares_key K' (e_new e).
Proof.
  intros HK ((delta & HD) & Hnd & He & Hn & Hdp & HF). exists ((K * delta) mod L). eapply updated; [exact HK|exact HD|]. exists (e_dealers e), (e_dealt e). auto.
Qed.

Lemma same_updates es : forall K K' d d1 T, shares_key K d -> shares_key K' d1 -> sees_shares T d1 = sees_shares T d -> all_updates d es -> Forall (fun e => one_short (e_taken e) (e_new e)) es ->
  exists es', all_updates d1 es' /\ sees_updates T es' = sees_updates T es.
Proof.
  induction es as [|e es IH]; intros K K' d d1 T HK HK' HS HU HF; [exists []; split; [exact I|reflexivity]|].
  destruct HU as (HU & HR). inversion HF as [|? ? Ho HF']; subst. destruct (same_update K K' d d1 T e HK HK' HS HU Ho) as (e' & U' & E').
  destruct (updates_key _ _ _ HK HU) as (K2 & HK2). destruct (updates_key _ _ _ HK' U') as (K2' & HK2').
  pose proof (f_equal (fun x => snd (fst x)) E') as Et. pose proof (f_equal snd E') as Es. cbn [sees_update fst snd] in Et, Es.
  destruct (IH K2 K2' (e_new e) (e_new e') (e_taken e) HK2 HK2') as (es' & V1 & V2); [|exact HR|exact HF'|].
  { rewrite Et in Es. exact Es. }
  exists (e' :: es'). split; [split; assumption|]. cbn [sees_updates]. rewrite E', Et, V2. reflexivity.
Qed.

Lemma mobile k k' d T es : shares_key k d -> 0 <= k' < L -> one_short T d -> all_updates d es -> Forall (fun e => one_short (e_taken e) (e_new e)) es ->
  exists d' es', shares_key k' d' /\ all_updates d' es' /\ sees_shares T d' = sees_shares T d /\ sees_updates T es' = sees_updates T es.
Proof.
  intros HK HK' HT HU HF. destruct (other_key k k' d T HK HK' HT) as (d' & Kd & Sd). destruct (same_updates es k k' d d' T HK Kd Sd HU HF) as (es' & U & S). exists d', es'. auto.
Qed.
