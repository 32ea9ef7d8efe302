(** C84: the example program 3hashtdh.py. *)
From Coq Require Import ZArith Lia List Bool Permutation.
From Coq.Strings Require Import Byte.
From Verif Require Import PrimeL Fq Bytes Res Mem Sodium OprfModel OprfSpec OprfProofs ToprfModel ToprfSpec ToprfProofs DkgModel DkgSpec DkgProofs
  WireModel WireSpec TpCrypto TpModel PyModel PySpec PyProofs PyThreshold PyTdhModel PyTdhSpec.
Import ListNotations.
Open Scope list_scope.
Open Scope Z_scope.

Section TDH.
Variables (R : ristretto) (H : hashes).
Hypothesis HR : ristretto_ok R.
Hypothesis HH : hashes_ok H.

(** what one server answers *)
Lemma server_inv alpha ssid s zs b : plain s -> 0 <= s_value s < L -> 0 <= s_value zs < L ->
  tdh_server R H alpha ssid (share_bytes s) (share_bytes zs) = Ret b ->
  exists P, rdec R alpha = Some P /\
    b = zb (s_index s) :: renc R (radd R (gmul R (of_Z (s_value s)) P) (gmul R (of_Z (s_value zs)) (mask R H ssid alpha))).
Proof.
  intros Hp Hs Hz. unfold tdh_server. intros E. apply pbind_ret in E. destruct E as (h2 & E1 & E). apply pbind_ret in E. destruct E as (be & E2 & E).
  apply (py_evaluate_inv R HR) in E1. destruct E1 as (_ & _ & _ & _ & Q & D1 & ->). apply (py_evaluate_inv R HR) in E2. destruct E2 as (_ & _ & _ & _ & P & D2 & ->).
  unfold from_hash in D1. rewrite (ok_dec_enc _ HR) in D1. injection D1 as <-. rewrite (core_add_enc R HR) in E.
  assert (V : forall v, 0 <= v < L -> of_le (le_bytes 32 v) mod 2 ^ 255 = v).
  { intros v Hv. pose proof L_lt_2_255. pose proof L_lt_2_256. rewrite of_le_le_bytes. change (256 ^ Z.of_nat 32) with (2 ^ 256). rewrite (Z.mod_small v (2 ^ 256)) by lia. apply Z.mod_small. lia. }
  change (skipn 1 (share_bytes s)) with (le_bytes 32 (s_value s)) in E. change (skipn 1 (share_bytes zs)) with (le_bytes 32 (s_value zs)) in E.
  change (firstn 1 (share_bytes s)) with [zb (s_index s)] in E. rewrite !V in E by assumption. rewrite !(gmul_of_Z R HR) in E by lia.
  exists P. split; [exact D2|]. symmetry. injection E. intros Q. exact Q.
Qed.

(** ... and that it does *)
Lemma server_ok alpha ssid s zs P : 0 < s_value s < L -> 0 < s_value zs < L -> rdec R alpha = Some P -> P <> rzero R -> mask R H ssid alpha <> rzero R ->
  exists b, tdh_server R H alpha ssid (share_bytes s) (share_bytes zs) = Ret b.
Proof.
  intros Hs Hz D HP Hm. unfold tdh_server, py_evaluate. change (skipn 1 (share_bytes s)) with (le_bytes 32 (s_value s)). change (skipn 1 (share_bytes zs)) with (le_bytes 32 (s_value zs)).
  assert (LA : zlen alpha = 32) by (apply zlen_32; apply (ok_enc_dec _ HR) in D; subst alpha; apply (ok_enc_len _ HR)).
  assert (L1 : zlen (from_hash R (blake2b H 64 (ssid ++ alpha))) = 32) by (apply zlen_32; apply (ok_enc_len _ HR)).
  assert (L2 : forall v, zlen (le_bytes 32 v) = 32) by (intros; apply zlen_32, le_bytes_length). rewrite !L2, L1, LA. cbn [Z.eqb Pos.eqb negb].
  rewrite !le_of by assumption.
  destruct (evaluate_succeeds R HR (s_value zs) (from_hash R (blake2b H 64 (ssid ++ alpha))) (mask R H ssid alpha)) as (v & E); [apply (ok_dec_enc _ HR)|exact Hm|exact Hz|].
  destruct (evaluate_succeeds R HR (s_value s) alpha P D HP Hs) as (v' & E'). rewrite E, E'. cbn [check Z.eqb pbind filled].
  pose proof L_lt_2_255. apply (evaluate_ok R HR _ _ _ _ D) in E'; [|lia]. apply (evaluate_ok R HR _ _ (mask R H ssid alpha)) in E; [|apply (ok_dec_enc _ HR)|lia].
  destruct E as (-> & _). destruct E' as (-> & _). rewrite (core_add_enc R HR). eexists. reflexivity.
Qed.

Definition answer (z : list Z) (P h : rG R) (s : share) : bytes :=
  zb (s_index s) :: renc R (radd R (gmul R (of_Z (s_value s)) P) (gmul R (of_Z (poly (0 :: z) (s_index s) mod L)) h)).

Lemma servers_inv alpha ssid P cs z l bs : rdec R alpha = Some P -> Forall (fun i => 0 <= i < 256) l ->
  tdh_servers R H alpha ssid (map share_bytes (map (fun i => mkShare i (poly cs i mod L)) l)) (map share_bytes (map (fun i => mkShare i (poly (0 :: z) i mod L)) l)) = Ret bs ->
  bs = map (answer z P (mask R H ssid alpha)) (map (fun i => mkShare i (poly cs i mod L)) l).
Proof.
  intros D. revert bs. induction l as [|i l IH]; intros bs F E; [injection E as <-; reflexivity|].
  inversion F as [|? ? F1 F2]; subst. cbn [map tdh_servers] in E. apply pbind_ret in E. destruct E as (b & E1 & E). apply pbind_ret in E. destruct E as (bs' & E2 & E). injection E as <-.
  apply IH in E2; [|exact F2]. apply server_inv in E1.
  - destruct E1 as (P' & D' & ->). rewrite D in D'. injection D' as <-. cbn [map]. rewrite E2. reflexivity.
  - split; cbn [s_index s_value]; [exact F1|]. pose proof (mod_L_range (poly cs i)). pose proof L_lt_2_256. lia.
  - apply mod_L_range.
  - apply mod_L_range.
Qed.

Lemma servers_ok alpha ssid P cs z l : rdec R alpha = Some P -> P <> rzero R -> mask R H ssid alpha <> rzero R ->
  Forall (fun i => poly cs i mod L <> 0 /\ poly (0 :: z) i mod L <> 0) l ->
  exists bs, tdh_servers R H alpha ssid (map share_bytes (map (fun i => mkShare i (poly cs i mod L)) l)) (map share_bytes (map (fun i => mkShare i (poly (0 :: z) i mod L)) l)) = Ret bs.
Proof.
  intros D HP Hm F. induction F as [|i l (F1 & F2) F IH]; [eexists; reflexivity|].
  destruct IH as (bs & E). cbn [map tdh_servers]. pose proof (mod_L_range (poly cs i)). pose proof (mod_L_range (poly (0 :: z) i)).
  destruct (server_ok alpha ssid (mkShare i (poly cs i mod L)) (mkShare i (poly (0 :: z) i mod L)) P) as (b & Eb); try assumption; cbn [s_value]; try lia.
  rewrite Eb. cbn [pbind]. rewrite E. eexists. reflexivity.
Qed.

Lemma incl_map {A B} (f : A -> B) l ps : incl ps (map f l) -> exists qs, ps = map f qs /\ incl qs l.
Proof.
  induction ps as [|p ps IH]; intros I; [exists []; split; [reflexivity|intros x []]|].
  destruct IH as (qs & -> & Iq); [intros x Hx; apply I; right; exact Hx|].
  pose proof (I p (or_introl eq_refl)) as Hp. apply in_map_iff in Hp. destruct Hp as (q & <- & Hq). exists (q :: qs). split; [reflexivity|]. intros x [<-|Hx]; [exact Hq|apply Iq, Hx].
Qed.

Lemma masked_answers K n t a z buf buf' P h ps junk : sharing_params K n t a buf -> sharing_params 0 n t z buf' ->
  NoDup ps -> incl ps (map (answer z P h) (shares_of (K :: a) n)) -> t <= zlen ps -> length junk = length ps ->
  (Forall (fun p => skipn 1 p <> zeros 32) ps -> py_thresholdmult R junk ps = Ret (renc R (rsmul R K P))) /\
  (Exists (fun p => skipn 1 p = zeros 32) ps -> py_thresholdmult R junk ps = Raise).
Proof.
  intros HK HZ N I T J. destruct (incl_map _ _ _ I) as (qs & -> & Iq). apply NoDup_map_inv in N.
  assert (HQ : quorum t (shares_of (K :: a) n) qs) by (repeat split; try assumption; unfold zlen in T; rewrite map_length in T; exact T).
  destruct (quorum_ready _ _ _ _ _ _ HK HQ) as (Q1 & Q2 & Q3 & Q4 & Q5).
  assert (A33 : all_33 (map (answer z P h) qs) = true).
  { apply all_33_Forall. apply Forall_forall. intros b Hb. apply in_map_iff in Hb. destruct Hb as (s & <- & _). unfold answer. cbn [length]. rewrite (ok_enc_len _ HR). reflexivity. }
  assert (PI : forall s, In s qs -> part_of (answer z P h s) = mkPart (s_index s) (skipn 1 (answer z P h s))).
  { intros s Hs. unfold answer. rewrite part_of_cons. cbn [skipn]. f_equal. rewrite bz_zb. apply Z.mod_small.
    rewrite Forall_forall in Q2. pose proof (Q2 (s_index s) (in_map _ _ _ Hs)) as Hi. unfold index_ok in Hi. lia. }
  unfold py_thresholdmult. rewrite A33. cbn [negb]. split.
  - intros F. rewrite (masked_quorum R HR K n t a z buf buf' qs (map part_of (map (answer z P h) qs)) P h junk HK HZ HQ); [reflexivity| |rewrite map_length; exact J].
    clear - HR F PI. induction qs as [|s qs IH]; cbn [map]; constructor.
    + rewrite PI by (left; reflexivity). cbn [ToprfModel.p_index p_value]. split; [reflexivity|]. unfold answer. cbn [skipn]. split; [reflexivity|].
      pose proof (Forall_inv F) as F1. unfold answer in F1. cbn [skipn] in F1. intros E. apply F1. rewrite E. apply (ok_enc_zero _ HR).
    + apply IH; [intros s' Hs; apply PI; right; exact Hs|exact (Forall_inv_tail F)].
  - intros X. apply Exists_exists in X. destruct X as (b & Hb & X). apply in_map_iff in Hb. destruct Hb as (s & <- & Hs).
    assert (J' : length junk = length (map part_of (map (answer z P h) qs))) by (rewrite map_length; exact J).
    destruct (thresholdmult_spec R HR (map part_of (map (answer z P h) qs)) junk ltac:(rewrite !map_length; lia) J') as (_ & B).
    destruct B as (r & E).
    + exists (part_of (answer z P h s)). split; [apply in_map, in_map, Hs|]. rewrite PI by exact Hs. unfold contrib. cbn [p_value]. rewrite X, (rdec_zeros R HR). cbv zeta.
      rewrite (gmul_zero R HR), (ok_enc_zero _ HR). replace (bytes_eqb (zeros 32) (zeros 32)) with true by reflexivity. reflexivity.
    + rewrite E. reflexivity.
Qed.

Lemma answers_nodup z P h cs n : n <= 254 -> NoDup (map (answer z P h) (shares_of cs n)).
Proof.
  intros Hn. apply (NoDup_map_inv (fun b => bz (hd x00 b))). rewrite map_map. unfold answer. cbn [hd]. unfold shares_of. rewrite map_map. cbn [s_index].
  rewrite (map_ext_in _ (fun i => i)).
  - rewrite map_id. apply FinFun.Injective_map_NoDup; [intros u v; lia|apply seq_NoDup].
  - intros i Hi. apply in_map_iff in Hi. destruct Hi as (j & <- & Hj). apply in_seq in Hj. rewrite bz_zb. apply Z.mod_small. lia.
Qed.

Lemma begin_inv al reg reg' k a z r x ssid n t key rb alpha betas b :
  random_scalar k -> zlen a = t - 1 -> zlen z = t - 1 -> n <= 254 ->
  tdh_begin R H al reg reg' k a z r x ssid n t = Ret (key, rb, alpha, betas) -> py_evaluate R key alpha = Ret b ->
  2 <= t <= n /\ zlen betas = n /\ key = le_bytes 32 k /\ py_blind R H true true r x = Ret (rb, alpha) /\ NoDup betas /\
  forall ps junk, NoDup ps -> incl ps betas -> t <= zlen ps -> length junk = length ps ->
    (Forall (fun p => skipn 1 p <> zeros 32) ps -> py_thresholdmult R junk ps = Ret b) /\
    (Exists (fun p => skipn 1 p = zeros 32) ps -> py_thresholdmult R junk ps = Raise).
Proof.
  intros Hk Ha Hz Hn E Eb. unfold tdh_begin, py_keygen in E. cbn [pbind] in E.
  apply pbind_ret in E. destruct E as (shares & E1 & E). apply pbind_ret in E. destruct E as (zs & E2 & E). apply pbind_ret in E. destruct E as ((rb' & al') & E3 & E).
  apply pbind_ret in E. destruct E as (bs & E4 & E).
  assert (X : key = le_bytes 32 k /\ rb = rb' /\ alpha = al' /\ betas = bs) by (repeat split; congruence). clear E. destruct X as (-> & -> & -> & ->).
  assert (Ek : of_le (le_bytes 32 k) = k) by (apply le_of; exact Hk). assert (Ez : of_le (zeros 32) = 0) by reflexivity.
  apply py_create_inv in E1; [|rewrite Ek; apply Hk|exact Hn|exact Ha]. destruct E1 as (_ & Ht & -> & SK & _). rewrite Ek in *.
  apply py_create_inv in E2; [|rewrite Ez; exact L_pos|exact Hn|exact Hz]. destruct E2 as (_ & _ & -> & SZ & _). rewrite Ez in *.
  apply (py_evaluate_inv R HR) in Eb. destruct Eb as (_ & _ & _ & _ & P & D & Eb). rewrite Ek in Eb.
  assert (Kb : k mod 2 ^ 255 = k) by (pose proof L_lt_2_255; unfold random_scalar in Hk; apply Z.mod_small; lia). rewrite Kb in Eb.
  unfold shares_of in E4. apply (servers_inv _ _ P) in E4; [|exact D|].
  2:{ apply Forall_forall. intros i Hi. apply in_map_iff in Hi. destruct Hi as (j & <- & Hj). apply in_seq in Hj. lia. }
  change (bs = map (answer z P (mask R H ssid al')) (shares_of (k :: a) n)) in E4. subst bs.
  split; [exact Ht|]. split; [unfold zlen; rewrite map_length, shares_of_length; lia|]. split; [reflexivity|]. split; [exact E3|]. split; [apply answers_nodup; exact Hn|].
  intros ps junk N I T J. rewrite Eb. exact (masked_answers k n t a z _ _ P _ ps junk SK SZ N I T J).
Qed.

Lemma first_some {A} (l : list A) (t : Z) : NoDup l -> 0 <= t <= zlen l ->
  NoDup (firstn (Z.to_nat t) l) /\ incl (firstn (Z.to_nat t) l) l /\ zlen (firstn (Z.to_nat t) l) = t.
Proof.
  unfold zlen. intros N Ht. split; [|split].
  - clear Ht. revert l N. induction (Z.to_nat t) as [|m IH]; intros l N; [constructor|]. destruct l as [|x l]; [constructor|]. cbn [firstn]. inversion N as [|? ? N1 N2]; subst.
    constructor; [|apply IH, N2]. intros I. apply N1. rewrite <- (firstn_skipn m l). apply in_or_app. left. exact I.
  - intros b Hb. rewrite <- (firstn_skipn (Z.to_nat t) l). apply in_or_app. left. exact Hb.
  - rewrite firstn_length_le; lia.
Qed.

(** the two results are the same *)
Lemma program_agrees al reg reg' k a z r x ssid n t junk N0 N1 :
  random_scalar k -> zlen a = t - 1 -> zlen z = t - 1 -> n <= 254 -> zlen junk = t ->
  tdh_program R H al reg reg' k a z r x ssid n t junk = Ret (N0, N1) -> N0 = N1.
Proof.
  intros Hk Ha Hz Hn J E. unfold tdh_program in E. apply pbind_ret in E. destruct E as ((((key & rb) & alpha) & betas) & E0 & E).
  apply pbind_ret in E. destruct E as (b & E1 & E). apply pbind_ret in E. destruct E as (M0 & E2 & E). apply pbind_ret in E. destruct E as (b' & E3 & E).
  apply pbind_ret in E. destruct E as (M1 & E4 & E). injection E as <- <-.
  destruct (begin_inv al reg reg' k a z r x ssid n t key rb alpha betas b Hk Ha Hz Hn E0 E1) as (Ht & Lb & _ & _ & ND & Q).
  destruct (first_some betas t ND ltac:(lia)) as (F1 & F2 & F3).
  destruct (Q (firstn (Z.to_nat t) betas) junk F1 F2 ltac:(lia)) as (Q1 & Q2); [unfold zlen in *; lia|].
  destruct (Forall_Exists_dec (fun p => skipn 1 p <> zeros 32)) with (l := firstn (Z.to_nat t) betas) as [D|D].
  - intros p. destruct (list_eq_dec Byte.byte_eq_dec (skipn 1 p) (zeros 32)) as [e|e]; [right; tauto|left; exact e].
  - rewrite (Q1 D) in E3. injection E3 as <-. congruence.
  - rewrite Q2 in E3; [discriminate|]. apply Exists_exists in D. destruct D as (p & Hp & D). apply Exists_exists. exists p. split; [exact Hp|].
    destruct (list_eq_dec Byte.byte_eq_dec (skipn 1 p) (zeros 32)) as [e|e]; tauto.
Qed.

(** when the program gets to the comparison *)
Lemma program_returns al k a z r x ssid n t junk : (forall m, al m = true) ->
  random_scalar k -> random_scalar r -> zlen a = t - 1 -> zlen z = t - 1 -> 2 <= t <= n -> n <= 254 -> zlen junk = t -> zlen x <= 255 -> HashToGroup R H x <> rzero R ->
  let P := rsmul R r (HashToGroup R H x) in
  let h := mask R H ssid (renc R P) in
  h <> rzero R ->
  (forall i, 1 <= i <= n -> poly (k :: a) i mod L <> 0 /\ poly (0 :: z) i mod L <> 0) ->
  (forall i, 1 <= i <= t -> radd R (rsmul R (poly (k :: a) i mod L) P) (rsmul R (poly (0 :: z) i mod L) h) <> rzero R) ->
  let N := renc R (rsmul R k (HashToGroup R H x)) in
  tdh_program R H al 0 0 k a z r x ssid n t junk = Ret (N, N).
Proof.
  intros Hal Hk Hr Ha Hz Ht Hn J Hx Hh P h Hm Hs Hb N.
  assert (Ek : of_le (le_bytes 32 k) = k) by (apply le_of; exact Hk). assert (Ez : of_le (zeros 32) = 0) by reflexivity.
  assert (Kb : k mod 2 ^ 255 = k) by (pose proof L_lt_2_255; unfold random_scalar in Hk; apply Z.mod_small; lia).
  assert (KL : k mod L = k) by (unfold random_scalar in Hk; apply Z.mod_small; lia).
  destruct (py_round_trip R H HR HH x (le_bytes 32 k) r) as (rb & alpha & beta & N' & B1 & B2 & B3 & B4 & _); try assumption; [apply zlen_32, le_bytes_length|rewrite Ek, Kb, KL; unfold random_scalar in Hk; lia|].
  rewrite Ek, Kb in B4. fold N in B4. subst N'.
  assert (EA : alpha = renc R P).
  { revert B1. unfold py_blind. unfold zlen in *. rewrite (blind_eq R H HR HH) by (try assumption; lia). cbn [of_res pbind check Z.eqb filled]. intros B1. injection B1 as _ <-. unfold P. rewrite (gmul_of_Z R HR); [reflexivity|]. unfold random_scalar in Hr. lia. }
  assert (D : rdec R alpha = Some P) by (rewrite EA; apply (ok_dec_enc _ HR)).
  assert (HP : P <> rzero R).
  { unfold P. unfold random_scalar in Hr. rewrite (gmul_of_Z R HR) by lia. intros E0. apply (gmul_eq_0 R HR) in E0. destruct E0 as [E0|E0]; [|contradiction]. revert E0. apply random_scalar_neq_0. exact Hr. }
  destruct (py_create_returns al a (le_bytes 32 k) n t) as ((l & C1) & _); try assumption; [apply zlen_32, le_bytes_length|rewrite Ek; apply Hk|apply Hal|].
  destruct (py_create_returns al z (zeros 32) n t) as ((zl & C2) & _); try assumption; [reflexivity|rewrite Ez; exact L_pos|apply Hal|].
  pose proof (py_create_inv _ _ _ _ _ _ _ C1 ltac:(rewrite Ek; apply Hk) Hn Ha) as (_ & _ & El & _). rewrite Ek in El.
  pose proof (py_create_inv _ _ _ _ _ _ _ C2 ltac:(rewrite Ez; exact L_pos) Hn Hz) as (_ & _ & Ezl & _). rewrite Ez in Ezl.
  assert (RI : forall i, In i (map Z.of_nat (seq 1 (Z.to_nat n))) -> 1 <= i <= n).
  { intros i Hi. apply in_map_iff in Hi. destruct Hi as (j & <- & Hj). apply in_seq in Hj. lia. }
  destruct (servers_ok alpha ssid P (k :: a) z (map Z.of_nat (seq 1 (Z.to_nat n))) D HP) as (bs & EB); [rewrite EA; exact Hm|apply Forall_forall; intros i Hi; apply Hs, RI, Hi|].
  assert (E0 : tdh_begin R H al 0 0 k a z r x ssid n t = Ret (le_bytes 32 k, rb, alpha, bs)).
  { unfold tdh_begin, py_keygen. cbn [pbind]. rewrite C1. cbn [pbind]. rewrite C2. cbn [pbind]. rewrite B1. cbn [pbind]. rewrite El, Ezl. unfold shares_of. rewrite EB. reflexivity. }
  destruct (begin_inv al 0 0 k a z r x ssid n t _ rb alpha bs beta Hk Ha Hz Hn E0 B2) as (_ & Lb & _ & _ & ND & Q).
  destruct (first_some bs t ND ltac:(lia)) as (F1 & F2 & F3).
  destruct (Q (firstn (Z.to_nat t) bs) junk F1 F2 ltac:(lia)) as (Q1 & _); [unfold zlen in *; lia|].
  unfold tdh_program. rewrite E0. cbn [pbind]. rewrite B2. cbn [pbind]. rewrite B3. cbn [pbind]. rewrite Q1; [cbn [pbind]; rewrite B3; reflexivity|].
  apply servers_inv with (P := P) in EB; [|exact D|apply Forall_forall; intros i Hi; apply RI in Hi; lia]. subst bs. rewrite map_map, firstn_map.
  apply Forall_forall. intros p Hp. apply in_map_iff in Hp. destruct Hp as (i & <- & Hi). unfold answer. cbn [skipn s_index s_value].
  assert (Hi' : 1 <= i <= t).
  { rewrite firstn_map in Hi. apply in_map_iff in Hi. destruct Hi as (j & <- & Hj). replace (Z.to_nat n) with (Z.to_nat t + Z.to_nat (n - t))%nat in Hj by lia. rewrite seq_app, firstn_app, seq_length, Nat.sub_diag, firstn_O, app_nil_r, firstn_all2 in Hj by (rewrite seq_length; lia). apply in_seq in Hj. lia. }
  specialize (Hb i Hi'). pose proof (mod_L_range (poly (k :: a) i)). pose proof (mod_L_range (poly (0 :: z) i)). rewrite !(gmul_of_Z R HR) in Hb by lia.
  intros E. rewrite <- (ok_enc_zero _ HR) in E. apply (renc_inj R HR) in E. rewrite EA in E. exact (Hb E).
Qed.
End TDH.
