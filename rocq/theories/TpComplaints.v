(** Processing of the complaints by the trusted party (step 16) and by the peers (step 17). *)
From Coq Require Import ZArith Lia List Bool.
From Coq.Strings Require Import Byte.
From Verif Require Import Bytes Res Mem Sodium ToprfModel DkgModel WireModel WireSpec WireProofs TpCrypto TpModel PeerModel.
From Verif Require Import TpFrame PeerFrame TpSpec TpMsg TpContent.
Import ListNotations.
Open Scope list_scope.
Open Scope Z_scope.

Lemma pair16_val i a : 0 <= i < 256 -> 0 <= a < 256 -> pair16 i a = i * 256 + a.
Proof. intros Hi Ha. unfold pair16, u16. apply Z.mod_small. lia. Qed.

Lemma pair_parts i a : 0 <= a < 256 -> complainer_of (i * 256 + a) = i /\ accused_of (i * 256 + a) = a.
Proof.
  intros Ha. unfold complainer_of, accused_of. split.
  - rewrite Z.div_add_l by lia. rewrite Z.div_small by lia. lia.
  - rewrite Z.add_comm, Z.mod_add by lia. apply Z.mod_small. lia.
Qed.

Lemma pair_back x : complainer_of x * 256 + accused_of x = x.
Proof. unfold complainer_of, accused_of. pose proof (Z.div_mod x 256). lia. Qed.

(** all well-formed complaints among n peers *)
Definition all_pairs (n : Z) : list Z := flat_map (fun i => map (fun a => i * 256 + a) (zrange 1 (Z.to_nat n))) (zrange 1 (Z.to_nat n)).

Lemma flat_map_length {A B} (f : A -> list B) l k : (forall x, length (f x) = k) -> length (flat_map f l) = (length l * k)%nat.
Proof. intros H. induction l as [|x l IH]; cbn [flat_map length]; [reflexivity|]. rewrite app_length, H, IH. lia. Qed.

Lemma all_pairs_zlen n : 0 <= n -> zlen (all_pairs n) = n * n.
Proof.
  intros H. unfold zlen, all_pairs. rewrite (flat_map_length _ _ (Z.to_nat n)); [|intros; rewrite map_length, zrange_length; reflexivity].
  rewrite zrange_length. nia.
Qed.

Lemma complaint_ok_In n x : complaint_ok n x -> In x (all_pairs n).
Proof.
  intros (H1 & H2). unfold all_pairs. apply in_flat_map. exists (complainer_of x). split; [apply zrange_In; lia|].
  apply in_map_iff. exists (accused_of x). split; [apply pair_back|apply zrange_In; lia].
Qed.

(** at most n*n different complaints *)
Lemma complaints_bound n l : 0 <= n -> Forall (complaint_ok n) l -> NoDup l -> zlen l <= n * n.
Proof.
  intros Hn Hl Hd. rewrite <- all_pairs_zlen by assumption. unfold zlen.
  enough (length l <= length (all_pairs n))%nat by lia. apply NoDup_incl_length; [assumption|].
  intros x Hx. apply complaint_ok_In. exact (proj1 (Forall_forall _ _) Hl x Hx).
Qed.

Lemma NoDup_snoc {A} (l : list A) x : NoDup l -> ~ In x l -> NoDup (l ++ [x]).
Proof.
  intros H1 H2. rewrite <- (rev_involutive (l ++ [x])). apply NoDup_rev. rewrite rev_app_distr. cbn [rev app].
  constructor; [rewrite <- in_rev; assumption|apply NoDup_rev; assumption].
Qed.

Lemma existsb_eqb_In x l : existsb (Z.eqb x) l = true <-> In x l.
Proof.
  rewrite existsb_exists. split.
  - intros (y & H1 & H2). apply Z.eqb_eq in H2. subst y. assumption.
  - intros H. exists x. split; [assumption|apply Z.eqb_refl].
Qed.

(** the invariant of the complaint list *)
Definition good_complaints (n : Z) (l : list Z) : Prop := Forall (complaint_ok n) l /\ NoDup l.

Section TP.
Variable C : crypto.
Notation S := (cS C).

(** ** C35: any input *)
Lemma complaint_inv input p i lim k c r : 0 <= i < t_n c -> t_n c <= 128 -> good_complaints (t_n c) (t_complaints c) ->
  tp_step16_complaint input p i lim k c = Ok r ->
  good_complaints (t_n c) (t_complaints (ctl_state r)).
Proof.
  intros Hi Hn (G1 & G2). unfold tp_step16_complaint. intros H. destruct (k + 1 <? lim); cbn [negb] in H; [|inv H; split; assumption].
  apply bind_ok in H. destruct H as (d & Ed & H). pose proof (bz_range d).
  destruct ((t_n c <? bz d) || (bz d <? 1)) eqn:Er.
  { destruct (add_cheater _ _ _ _ _) eqn:Ea in H; inv H; [|split; assumption]. apply add_cheater_inv in Ea. destruct Ea as (_ & ->). split; assumption. }
  apply orb_false_iff in Er. destruct Er as (Er1 & Er2). apply Z.ltb_ge in Er1, Er2.
  destruct (existsb _ _) eqn:Ex.
  { destruct (add_cheater _ _ _ _ _) eqn:Ea in H; inv H; [|split; assumption]. apply add_cheater_inv in Ea. destruct Ea as (_ & ->). split; assumption. }
  destruct (_ <? t_cmax c); [|discriminate]. inv H. cbn [ctl_state t_complaints tp_complaints_set].
  rewrite pair16_val in * by lia. split.
  - apply Forall_app. split; [assumption|]. constructor; [|constructor]. unfold complaint_ok.
    destruct (pair_parts (i + 1) (bz d)) as (-> & ->); lia.
  - apply NoDup_snoc; [assumption|]. rewrite <- existsb_eqb_In, Ex. discriminate.
Qed.

Lemma complaints_loop_inv input p i lim ks c r : 0 <= i < t_n c -> t_n c <= 128 -> good_complaints (t_n c) (t_complaints c) ->
  loopM (tp_step16_complaint input p i lim) ks c = Ok r ->
  t_n (ctl_state r) = t_n c /\ good_complaints (t_n c) (t_complaints (ctl_state r)).
Proof.
  intros Hi Hn Hg H.
  pose proof (loopM_inv (tp_step16_complaint input p i lim) (fun s => t_n s = t_n c /\ good_complaints (t_n c) (t_complaints s))
    (fun _ s => t_n s = t_n c /\ good_complaints (t_n c) (t_complaints s)) ks c r) as L.
  assert (Q : match r with Next s2 => t_n s2 = t_n c /\ good_complaints (t_n c) (t_complaints s2)
              | Return _ s2 => t_n s2 = t_n c /\ good_complaints (t_n c) (t_complaints s2) end).
  { apply L; [auto| |exact H]. intros k s1 r1 _ (N1 & G1) E. pose proof (ext_step16_complaint _ _ _ _ _ _ _ E) as X.
    rewrite <- N1 in G1. pose proof E as G2. apply complaint_inv in G2; [|lia|lia|exact G1].
    pose proof (x_n _ _ X) as N2. rewrite N1 in G2, N2. destruct r1; cbn [ctl_state] in *; auto. }
  destruct r; exact Q.
Qed.

Lemma body16_inv e input i s r : let c := fst (fst s) in 0 <= i < t_n c -> t_n c <= 128 -> good_complaints (t_n c) (t_complaints c) ->
  tp_step16_body C e input i s = Ok r ->
  t_n (fst (fst (ctl_state r))) = t_n c /\ good_complaints (t_n c) (t_complaints (fst (fst (ctl_state r)))).
Proof.
  destruct s as [[c out] w]. cbn [fst]. intros Hi Hn Hg. unfold tp_step16_body. intros H.
  apply bind_ok in H. destruct H as (pk & E1 & H). apply bind_ok in H. destruct H as ((ret & c1) & E2 & H).
  apply tp_recv_inv in E2. destruct E2 as (last & last' & l & R1 & R2 & R3 & ->).
  destruct (ret =? 0); cbn [negb] in H.
  2:{ destruct (add_cheater _ _ _ _ _) eqn:Ea in H; inv H; [|cbn; auto]. apply add_cheater_inv in Ea. destruct Ea as (_ & ->). cbn. auto. }
  apply bind_ok in H. destruct H as (flen & E3 & H). apply bind_ok in H. destruct H as (d0 & E4 & H).
  destruct (_ <? bz d0); [inv H; cbn; auto|]. apply bind_ok in H. destruct H as (r1 & E5 & H).
  apply complaints_loop_inv in E5; [|cbn; lia|cbn; lia|exact Hg]. cbn [t_n tp_last_set] in E5.
  destruct r1 as [c2|code c2]; inv H; cbn [ctl_state fst] in *; exact E5.
Qed.

Theorem complaints_well_formed e c input out ret c' out' : 2 <= t_n c <= 128 ->
  tp_step16 C e c input out = Ok (ret, c', out') -> ret <> 1 -> ret <> 2 ->
  good_complaints (t_n c) (t_complaints c') /\ zlen (t_complaints c') <= t_n c * t_n c.
Proof.
  intros Hn. unfold tp_step16. intros H H1 H2.
  destruct (_ =? zlen input); cbn [negb] in H; [|inv H; congruence]. destruct (zlen out =? _); cbn [negb] in H; [|inv H; congruence].
  apply bind_ok in H. destruct H as (r & L & H).
  assert (G : good_complaints (t_n c) (t_complaints (fst (fst (ctl_state r))))).
  { set (P := fun s : tp * bytes * Z => t_n (fst (fst s)) = t_n c /\ good_complaints (t_n c) (t_complaints (fst (fst s)))).
    pose proof (loopM_inv (tp_step16_body C e input) P (fun _ => P) (zrange 0 (Z.to_nat (t_n c)))) as LI.
    assert (Q : match r with Next s2 => P s2 | Return _ s2 => P s2 end).
    { eapply LI; [| |exact L].
      - split; [reflexivity|]. split; constructor.
      - intros i s1 r1 Hi (N1 & G1) E. apply zrange_In in Hi. rewrite <- N1 in G1.
        apply body16_inv in E; [|lia|lia|exact G1]. rewrite N1 in E. destruct r1; exact E. }
    destruct r; apply Q. }
  assert (G' : good_complaints (t_n c) (t_complaints c')).
  { destruct r as [[[c1 out1] w]|code [[c1 out1] w]]; cbn [ctl_state fst] in G; [|inv H; exact G].
    destruct (_ <=? zlen (t_complaints c1)).
    - destruct (add_cheater _ _ _ _ _) eqn:Ea in H; inv H; [|exact G]. apply add_cheater_inv in Ea. destruct Ea as (_ & ->). exact G.
    - destruct (_ <? zlen (t_cheaters c1)); [inv H; exact G|]. inv H. exact G. }
  split; [exact G'|]. apply complaints_bound; [lia|apply G'|apply G'].
Qed.

Theorem complaints_success e c input out c' out' :
  tp_step16 C e c input out = Ok (0, c', out') -> zlen (t_complaints c') < t_t c * t_t c /\ t_cheaters c' = [].
Proof.
  unfold tp_step16. intros H.
  destruct (_ =? zlen input); cbn [negb] in H; [|inv H]. destruct (zlen out =? _); cbn [negb] in H; [|inv H].
  apply bind_ok in H. destruct H as (r & L & H).
  assert (X : tp_ext (fst (fst (tp_complaints_set c [], out, hdr_SIZE))) (fst (fst (ctl_state r)))).
  { eapply (loop_ext (fun s => fst (fst s))); [intros; eapply ext_step16_body; eassumption|exact L]. }
  destruct r as [[[c1 out1] w]|code [[c1 out1] w]]; cbn [ctl_state fst] in X.
  2:{ injection H as -> -> ->. exfalso.
      assert (0 = 6 \/ 0 = 4) by (refine (loopM_code (fun r => r = 6 \/ r = 4) _ _ _ _ _ _ L); intros x s1 r1 s2 E'; destruct s1 as [[a b] q]; unfold tp_step16_body in E'; inv E'; auto;
        match goal with HQ : loopM _ _ _ = Ok (Return _ _) |- _ => refine (loopM_code (fun r => r = 6 \/ r = 4) _ _ _ _ _ _ HQ) end;
        intros x2 s3 r2 s4 E''; unfold tp_step16_complaint in E''; inv E''; auto). lia. }
  pose proof (x_t _ _ X) as Et. cbn [t_t tp_complaints_set] in Et.
  destruct (Z.leb_spec (t_t c1 * t_t c1) (zlen (t_complaints c1))).
  - destruct (add_cheater _ _ _ _ _) in H; inv H.
  - destruct (Z.ltb_spec 0 (zlen (t_cheaters c1))); [inv H|]. inv H. cbn [t_complaints t_cheaters tp_transcript_set].
    rewrite Et in *. split; [lia|]. apply zlen_0. pose proof (zlen_nonneg (t_cheaters c1)). lia.
Qed.

(** ** The clean run *)
Lemma nth_error_firstn_lt {A} n (l : list A) k : (k < n)%nat -> nth_error (firstn n l) k = nth_error l k.
Proof. revert l k. induction n as [|n IH]; intros l k H; [lia|]. destruct l as [|x l]; [reflexivity|]. destruct k; cbn; [reflexivity|]. apply IH. lia. Qed.

Lemma nth_error_skipn_add {A} n (l : list A) k : nth_error (skipn n l) k = nth_error l (n + k).
Proof. revert l. induction n as [|n IH]; intros l; [reflexivity|]. destruct l as [|x l]; [destruct k; reflexivity|]. cbn. apply IH. Qed.

Lemma skipn_nth_error {A} n (l : list A) x : nth_error l n = Some x -> skipn n l = x :: skipn (Datatypes.S n) l.
Proof. revert l. induction n as [|n IH]; intros [|y l] H; try discriminate; [cbn in H; injection H as ->; reflexivity|]. cbn [skipn]. apply IH. exact H. Qed.

Lemma getz_rd {A} (b : list A) off len m k d : rd b off len = Ok m -> 0 <= k < len -> getz b (off + k) = Ok d -> getz m k = Ok d.
Proof.
  intros H Hk Hd. pose proof (rd_inv _ _ _ _ H) as (A1 & A2 & A3 & A4 & ->). apply getz_inv in Hd. destruct Hd as (_ & Hd).
  apply getz_ok; [|lia]. rewrite nth_error_firstn_lt by lia. rewrite nth_error_skipn_add, <- Hd. f_equal. lia.
Qed.

(** The length field is read in the wrong byte order, so the limit derived from it never matters. *)
Lemma lim_big input p n m pk sid i ts body flen : 0 <= n <= 128 -> zlen sid = 32 -> rd input p (msg9_SIZE n) = Ok m ->
  signed S pk sid 9 (i + 1) 255 ts body m -> rd input (p + off_len) 4 = Ok flen -> 256 <= u64 (of_le flen - hdr_SIZE).
Proof.
  intros Hn Hs Hm Hg Hf. pose proof (signed_zlen _ _ _ _ _ _ _ _ _ Hs Hg) as Z. pose proof (rd_inv _ _ _ _ Hm) as (_ & _ & _ & Zm & _).
  rewrite <- (rd_rd _ _ _ _ off_len 4 Hm) in Hf by (unfold off_len, msg9_SIZE, hdr_SIZE; lia).
  destruct Hg as (sig & G1 & G2 & G3 & G4). assert (Hl : 111 + zlen body = 112 + n) by (unfold msg9_SIZE, hdr_SIZE in Zm; lia).
  rewrite Hl in G3. unfold message, header in G3. rewrite <- !app_assoc in G3. rewrite G3 in Hf.
  rewrite app_assoc in Hf. rewrite (rd_mid (sig ++ [zb 9])) in Hf; [|rewrite zlen_app, G1; reflexivity|rewrite zlen_be; reflexivity].
  injection Hf as <-. rewrite be4_bytes. Transparent of_le. cbn [of_le]. Opaque of_le. rewrite !bz_zb.
  replace ((112 + n) / 2 ^ 24) with 0 by (symmetry; apply Z.div_small; lia).
  replace ((112 + n) / 2 ^ 16) with 0 by (symmetry; apply Z.div_small; lia).
  replace ((112 + n) / 2 ^ 8) with 0 by (symmetry; apply Z.div_small; lia).
  rewrite (Z.mod_small (112 + n)) by lia. change (0 mod 256) with 0. unfold u64, hdr_SIZE. rewrite Z.mod_small by lia. lia.
Qed.

Lemma clean_complaint input p i lim k c c' : 0 <= i < t_n c -> t_n c <= 128 -> k + 1 < lim ->
  tp_step16_complaint input p i lim k c = Ok (Next c') -> t_cheaters c' = [] ->
  exists d, getz input (p + hdr_SIZE + (k + 1)) = Ok d /\ 1 <= bz d <= t_n c /\ ~ In ((i + 1) * 256 + bz d) (t_complaints c) /\
    c' = tp_complaints_set c (t_complaints c ++ [(i + 1) * 256 + bz d]).
Proof.
  intros Hi Hn Hk. unfold tp_step16_complaint. intros H Hc. destruct (Z.ltb_spec (k + 1) lim); [|lia]. cbn [negb] in H.
  apply bind_ok in H. destruct H as (d & Ed & H). pose proof (bz_range d).
  destruct ((t_n c <? bz d) || (bz d <? 1)) eqn:Er.
  { exfalso. destruct (add_cheater _ _ _ _ _) eqn:Ea in H; inv H. eapply added_not_clean; eassumption. }
  apply orb_false_iff in Er. destruct Er as (Er1 & Er2). apply Z.ltb_ge in Er1, Er2.
  destruct (existsb _ _) eqn:Ex.
  { exfalso. destruct (add_cheater _ _ _ _ _) eqn:Ea in H; inv H. eapply added_not_clean; eassumption. }
  destruct (_ <? t_cmax c); [|discriminate]. rewrite pair16_val in * by lia. inv H.
  exists d. split; [exact Ed|]. split; [lia|]. split; [|reflexivity]. rewrite <- existsb_eqb_In, Ex. discriminate.
Qed.

Lemma rd_snoc {A} (l : list A) off k x d : rd l off k = Ok x -> getz l (off + k) = Ok d -> rd l off (k + 1) = Ok (x ++ [d]).
Proof.
  intros H1 H2. apply (rd_join _ _ _ _ _ _ H1). apply getz_inv in H2. destruct H2 as (H2 & H3).
  pose proof (rd_inv _ _ _ _ H1) as (A1 & A2 & _). rewrite rd_ok by lia. f_equal.
  apply nth_error_split in H3. destruct H3 as (l1 & l2 & -> & Hl). rewrite <- Hl, skipn_app, skipn_all, Nat.sub_diag. reflexivity.
Qed.

Lemma clean_complaints input p i lim cnt c c' : 0 <= i < t_n c -> t_n c <= 128 -> 0 <= cnt < 256 -> 256 <= lim -> 0 <= p + 112 <= zlen input ->
  loopM (tp_step16_complaint input p i lim) (zrange 0 (Z.to_nat cnt)) c = Ok (Next c') -> t_cheaters c' = [] ->
  exists ds, rd input (p + 112) cnt = Ok ds /\ Forall (fun d => 1 <= bz d <= t_n c) ds /\
    (NoDup (t_complaints c) -> NoDup (t_complaints c')) /\
    c' = tp_complaints_set c (t_complaints c ++ map (fun a => (i + 1) * 256 + a) (map bz ds)).
Proof.
  intros Hi Hn Hcnt Hlim Hp H Hc.
  set (P := fun k c1 => exists ds, rd input (p + 112) k = Ok ds /\ Forall (fun d => 1 <= bz d <= t_n c) ds /\
    (NoDup (t_complaints c) -> NoDup (t_complaints c1)) /\
    c1 = tp_complaints_set c (t_complaints c ++ map (fun a => (i + 1) * 256 + a) (map bz ds))).
  assert (HP : P (Z.of_nat (Z.to_nat cnt)) c').
  { apply (clean_loop (fun c => c) (tp_step16_complaint input p i lim) P _ c c'); [intros; eapply ext_step16_complaint; eassumption| | |exact H|exact Hc].
    - exists []. split; [rewrite rd_ok by lia; reflexivity|]. split; [constructor|]. split; [auto|]. cbn [map]. rewrite app_nil_r. destruct c; reflexivity.
    - intros k c1 c2 Hk (ds & Q1 & Q2 & Q3 & Q4) E Hc2.
      assert (En : t_n c1 = t_n c) by (rewrite Q4; reflexivity).
      apply clean_complaint in E; [|lia|lia|lia|exact Hc2]. destruct E as (d & D1 & D2 & D3 & D4).
      exists (ds ++ [d]). rewrite hdr_val in D1. replace (p + 111 + (k + 1)) with (p + 112 + k) in D1 by lia.
      split; [apply rd_snoc; assumption|]. split; [apply Forall_app; split; [assumption|]; constructor; [lia|constructor]|].
      split.
      + intros Hd. rewrite D4. cbn [t_complaints tp_complaints_set]. apply NoDup_snoc; [apply Q3; assumption|assumption].
      + rewrite D4, Q4. cbn [t_complaints tp_complaints_set]. rewrite !map_app, app_assoc. reflexivity. }
  rewrite Z2Nat.id in HP by lia. exact HP.
Qed.

Lemma NoDup_app_r {A} (a b : list A) : NoDup (a ++ b) -> NoDup b.
Proof. induction a as [|x a IH]; cbn; [auto|]. intros H. inversion H. auto. Qed.

Lemma msg9_val n : msg9_SIZE n = 112 + n. Proof. unfold msg9_SIZE, hdr_SIZE. lia. Qed.

Lemma clean16 e input i c out w c' out' w' : 0 <= i < t_n c -> t_n c <= 128 -> NoDup (t_complaints c) ->
  tp_step16_body C e input i (c, out, w) = Ok (Next (c', out', w')) -> t_cheaters c' = [] ->
  let sz := msg9_SIZE (t_n c) in let p := i * sz in
  exists pk last last' l m, getz (t_pks c) i = Ok pk /\ getz (t_last c) i = Ok last /\
    recv_msg S input p sz 9 (i + 1) 255 pk (t_sid c) (t_eps c) last (e_r e i) = Ok (0, last') /\
    updz (t_last c) i last' = Ok l /\ rd input p sz = Ok m /\ wr out w m = Ok out' /\
    NoDup (t_complaints c') /\ Forall (fun a => 1 <= a <= t_n c) (named m) /\ zlen (named m) = bz (nth 111 m x00) /\
    c' = tp_complaints_set (tp_last_set c l) (t_complaints c ++ map (fun a => (i + 1) * 256 + a) (named m)) /\
    w' = w + sz.
Proof.
  intros Hi Hn Hd. cbn zeta. unfold tp_step16_body. intros H Hc. apply bind_ok in H. destruct H as (pk & E1 & H).
  apply bind_ok in H. destruct H as ((ret & c1) & E2 & H). apply tp_recv_inv in E2. destruct E2 as (last & last' & l & R1 & R2 & R3 & ->).
  destruct (ret =? 0) eqn:Er; cbn [negb] in H.
  2:{ exfalso. destruct (add_cheater _ _ _ _ _) eqn:Ea in H; [|inv H]. injection H as -> -> ->. eapply added_not_clean; eassumption. }
  apply Z.eqb_eq in Er. subst ret. apply bind_ok in H. destruct H as (flen & E3 & H). apply bind_ok in H. destruct H as (d0 & E4 & H).
  destruct (_ <? bz d0); [discriminate|]. apply bind_ok in H. destruct H as (r1 & E5 & H). destruct r1 as [c2|code c2]; [|discriminate].
  apply bind_ok in H. destruct H as (m & E6 & H). apply bind_ok in H. destruct H as (out2 & E7 & H).
  assert (En : t_n c2 = t_n c).
  { eapply (loop_ext (fun c => c)) in E5; [|intros; eapply ext_step16_complaint; eassumption]. exact (x_n _ _ E5). }
  rewrite En in *. injection H as -> -> <-.
  assert (Hsz : msg9_SIZE (t_n c) = 112 + t_n c) by apply msg9_val.
  destruct (recv_accepted _ _ _ _ _ _ _ _ _ _ _ _ _ _ E6 ltac:(lia) R2) as (Hs & _ & body & Hb).
  assert (Hn0 : 0 <= t_n c <= 128) by lia. pose proof (lim_big _ _ _ _ _ _ _ _ _ _ Hn0 Hs E6 Hb E3) as Hlim.
  pose proof (rd_inv _ _ _ _ E6) as (I1 & _ & I3 & Zm & _).
  pose proof (bz_range d0) as Hr0.
  apply clean_complaints in E5; [|cbn; lia|cbn; lia|lia|exact Hlim|lia|exact Hc]. destruct E5 as (ds & D1 & D2 & D3 & D4).
  cbn [t_n t_complaints tp_last_set] in D2, D3, D4. specialize (D3 Hd).
  (* the complaints named are different, so there are at most n of them *)
  assert (Hds : NoDup (map bz ds)).
  { rewrite D4 in D3. cbn [t_complaints tp_complaints_set] in D3. apply NoDup_app_r in D3. apply NoDup_map_inv in D3. exact D3. }
  assert (Hlen : (length (map bz ds) <= length (zrange 1 (Z.to_nat (t_n c))))%nat).
  { apply NoDup_incl_length; [exact Hds|]. intros a Ha. apply in_map_iff in Ha. destruct Ha as (d & <- & Hin).
    apply zrange_In. pose proof (proj1 (Forall_forall _ _) D2 d Hin) as Hd2. cbn beta in Hd2. lia. }
  rewrite map_length, zrange_length in Hlen. pose proof (rd_inv _ _ _ _ D1) as (_ & _ & _ & Zds & _).
  assert (Hcnt : bz d0 <= t_n c) by (unfold zlen in Zds; lia).
  (* so they are in the message *)
  assert (D1' : rd m 112 (bz d0) = Ok ds) by (rewrite (rd_rd _ _ _ _ 112 (bz d0) E6) by lia; exact D1).
  assert (E4' : getz m 111 = Ok d0).
  { eapply getz_rd; [exact E6|lia|]. rewrite hdr_val in E4. exact E4. }
  assert (Hnamed : named m = map bz ds).
  { unfold named. apply getz_inv in E4'. destruct E4' as (_ & E4'). rewrite (skipn_nth_error 111 m d0 E4'). pose proof (rd_inv _ _ _ _ D1') as (_ & _ & _ & _ & ->). reflexivity. }
  assert (Hd0 : nth 111 m x00 = d0) by (apply getz_inv in E4'; destruct E4' as (_ & E4'); apply nth_error_nth; exact E4').
  exists pk, last, last', l, m. repeat (split; [first [assumption|reflexivity|idtac]|]).
  - rewrite Hnamed. apply Forall_map. exact D2.
  - rewrite Hnamed, zlen_map, Hd0. exact Zds.
  - rewrite Hnamed. exact D4.
  - reflexivity.
Qed.

Lemma flat_map_snoc {A B} (f : A -> list B) l x : flat_map f (l ++ [x]) = flat_map f l ++ f x.
Proof. rewrite flat_map_app. cbn [flat_map]. rewrite app_nil_r. reflexivity. Qed.

Lemma zrange_snoc a k : zrange a (Datatypes.S k) = zrange a k ++ [a + Z.of_nat k].
Proof.
  revert a. induction k as [|k IH]; intros a; [cbn; rewrite Z.add_0_r; reflexivity|]. rewrite zrange_S, (zrange_S a k). rewrite IH. cbn [app].
  do 2 f_equal. f_equal. lia.
Qed.

(** step 16: complaints are collected and broadcast *)
Lemma step16_content e c input out c' out' : crypto_ok C -> zlen (t_sid c) = 32 -> is_u64 (e_s e 0) -> 1 <= t_n c <= 128 ->
  tp_step16 C e c input out = Ok (0, c', out') ->
  zlen out' = msg10_SIZE (t_n c) /\ zlen input = t_n c * msg9_SIZE (t_n c) /\
  delivered C out' 0 (zlen out') (sig_pk S (t_sk c)) (t_sid c) 10 0 255 /\
  t_transcript c' = update_transcript (t_transcript c) out' /\
  t_complaints c' = complaints_in (t_n c) 0 input /\ NoDup (t_complaints c') /\
  rd out' hdr_SIZE (zlen input) = Ok input /\
  forall i, 0 <= i < t_n c -> let m := slice (i * msg9_SIZE (t_n c)) (msg9_SIZE (t_n c)) input in
    Forall (fun a => 1 <= a <= t_n c) (named m) /\ zlen (named m) = bz (nth 111 m x00) /\
    exists pk, getz (t_pks c) i = Ok pk /\
      delivered C input (i * msg9_SIZE (t_n c)) (msg9_SIZE (t_n c)) pk (t_sid c) 9 (i + 1) 255.
Proof.
  intros HC Hsid Hu Hn H0. pose proof H0 as H. destruct (complaints_success _ _ _ _ _ _ H0) as (_ & Hc'). unfold tp_step16 in H.
  destruct (_ =? zlen input) eqn:E1; cbn [negb] in H; [|inv H]. destruct (zlen out =? _) eqn:E2; cbn [negb] in H; [|inv H].
  apply Z.eqb_eq in E1, E2. apply bind_ok in H. destruct H as (r & L & H). destruct r as [[[c1 out1] w1]|r [[c1 out1] w1]].
  2:{ injection H as -> -> ->. exfalso.
      assert (0 = 6 \/ 0 = 4) by (refine (loopM_code (fun r => r = 6 \/ r = 4) _ _ _ _ _ _ L); intros x s1 r1 s2 E'; destruct s1 as [[a b] q]; unfold tp_step16_body in E'; inv E'; auto;
        match goal with HQ : loopM _ _ _ = Ok (Return _ _) |- _ => refine (loopM_code (fun r => r = 6 \/ r = 4) _ _ _ _ _ _ HQ) end;
        intros x2 s3 r2 s4 E''; unfold tp_step16_complaint in E''; inv E''; auto). lia. }
  destruct (_ <=? zlen (t_complaints c1)); [destruct (add_cheater _ _ _ _ _) in H; inv H|].
  destruct (Z.ltb_spec 0 (zlen (t_cheaters c1))) as [Hz|Hz]; [discriminate|].
  apply bind_ok in H. destruct H as (outs & Es & H).
  assert (Hc : t_cheaters c1 = []) by (apply zlen_0; pose proof (zlen_nonneg (t_cheaters c1)); lia).
  rewrite hdr_val in *. set (sz := msg9_SIZE (t_n c)) in *. assert (Hsz : sz = 112 + t_n c) by apply msg9_val.
  set (P := fun k (s : tp * bytes * Z) => let '(c1, out1, w) := s in
     c1 = tp_complaints_set (tp_last_set c (t_last c1)) (t_complaints c1) /\ zlen out1 = zlen out /\ w = 111 + k * sz /\
     NoDup (t_complaints c1) /\
     t_complaints c1 = flat_map (fun i => map (fun a => (i + 1) * 256 + a) (named (slice (0 + i * sz) sz input))) (zrange 0 (Z.to_nat k)) /\
     rd out1 111 (k * sz) = rd input 0 (k * sz) /\
     forall i, 0 <= i < k -> let m := slice (i * sz) sz input in
       Forall (fun a => 1 <= a <= t_n c) (named m) /\ zlen (named m) = bz (nth 111 m x00) /\
       exists pk, getz (t_pks c) i = Ok pk /\ delivered C input (i * sz) sz pk (t_sid c) 9 (i + 1) 255).
  assert (HP : P (Z.of_nat (Z.to_nat (t_n c))) (c1, out1, w1)).
  { apply (clean_loop (fun s => fst (fst s)) (tp_step16_body C e input) P _ (tp_complaints_set c [], out, 111) (c1, out1, w1)); [intros; eapply ext_step16_body; eassumption| | |exact L|exact Hc].
    - unfold P. split; [destruct c; reflexivity|]. split; [reflexivity|]. split; [lia|]. split; [constructor|]. split; [reflexivity|].
      split; [|intros; lia]. assert (111 <= zlen out) by (rewrite E2; unfold msg10_SIZE, hdr_SIZE; fold sz; nia).
      rewrite !rd_ok by (try lia; nia). reflexivity.
    - clear c1 out1 w1 L Hz Hc Es H. intros k [[c1 out1] w] [[c2 out2] w2] Hk (P1 & P2 & P3 & P4 & P5 & P6 & P7) Hb Hc2. cbn [fst] in Hc2.
      assert (En : t_pks c1 = t_pks c /\ t_sid c1 = t_sid c /\ t_n c1 = t_n c) by (rewrite P1; auto).
      destruct En as (En & Ep & Et).
      apply clean16 in Hb; [|lia|lia|exact P4|exact Hc2]. cbn zeta in Hb. rewrite En, Ep, Et in Hb. fold sz in Hb.
      destruct Hb as (pk & last & last' & l & m & B1 & B2 & B3 & B4 & B5 & B6 & B7 & B8 & B8' & B9 & B10).
      pose proof (rd_inv _ _ _ _ B5) as (_ & _ & Hin & Hm & Em). fold (slice (k * sz) sz input) in Em.
      unfold P. split; [rewrite B9, P1; reflexivity|]. split; [rewrite (wr_zlen _ _ _ _ B6); exact P2|]. split; [lia|]. split; [exact B7|].
      split; [|split].
      + replace (Z.to_nat (k + 1)) with (Datatypes.S (Z.to_nat k)) by lia. rewrite zrange_snoc, flat_map_snoc, <- P5.
        rewrite B9. cbn [t_complaints tp_complaints_set]. rewrite !Z.add_0_l. replace (Z.of_nat (Z.to_nat k)) with k by lia. rewrite <- Em. reflexivity.
      + replace ((k + 1) * sz) with (k * sz + sz) by lia.
        assert (Rk : exists x, rd input 0 (k * sz) = Ok x) by (eexists; apply rd_ok; [lia|nia|lia]). destruct Rk as (x & Rk).
        rewrite (rd_join input 0 (k * sz) sz x m Rk B5).
        apply rd_join; [rewrite <- Rk, <- P6; eapply rd_wr_before; [exact B6|lia]|].
        rewrite <- P3, <- Hm. apply (rd_wr_same _ _ _ _ B6).
      + intros i Hi. destruct (Z.eq_dec i k) as [->|Hne]; [|apply P7; lia]. cbn zeta. rewrite <- Em.
        split; [exact B8|]. split; [exact B8'|]. exists pk. split; [exact B1|]. eapply recv_delivered; [exact B5|lia|exact B3]. }
  destruct HP as (P1 & P2 & P3 & P4 & P5 & P6 & P7). rewrite Z2Nat.id in P6, P7 by lia.
  assert (Et : t_sk c1 = t_sk c /\ t_sid c1 = t_sid c /\ t_transcript c1 = t_transcript c) by (rewrite P1; auto).
  destruct Et as (Et1 & Et2 & Et3).
  assert (Hout : zlen out = 111 + t_n c * sz) by (rewrite E2; unfold msg10_SIZE, hdr_SIZE; fold sz; lia).
  apply broadcast_sent in Es; [|assumption|congruence|assumption|nia|unfold is_byte; lia]. destruct Es as (S1 & S2 & S3).
  injection H as <- <-. rewrite Et1, Et2 in S2. cbn [t_transcript t_complaints tp_transcript_set].
  split; [lia|]. split; [lia|]. split; [exact S2|]. split; [rewrite Et3; reflexivity|].
  split; [rewrite P5; rewrite !Nat2Z.id; reflexivity|]. split; [exact P4|].
  split; [|exact P7]. replace (zlen input) with (t_n c * sz) by lia. rewrite S3 by lia. rewrite P6. apply rd_all. lia.
Qed.
End TP.
