(** C81 for the key generation with a trusted party. *)
From Coq Require Import ZArith Lia List Bool Permutation.
From Coq.Strings Require Import Byte.
From Verif Require Import PrimeL Fq Bytes Res Mem Sodium OprfModel OprfSpec ToprfModel ToprfSpec ToprfProofs DkgModel DkgSpec DkgProofs WireModel WireSpec TpCrypto TpModel PeerModel TpRun TpSpec SafeSpec RunSpec.
From Verif Require Import GoodSpec Good HonestMsg HonestState HonestTp HonestPeer HonestRun HonestWorld Honest UseSpec Use.
Import ListNotations.
Open Scope list_scope.
Open Scope Z_scope.

Section USE.
Context (C : crypto) (HC : crypto_ok C).

Lemma generated c calls outs parties A buf : done_well C c calls outs -> sound_commitments C (published c outs) ->
  Forall (GoodSpec.honest C c calls outs) parties -> Forall (fun x => plain_shares (received_by x)) parties ->
  dealers C c (published c outs) A -> Z.of_nat (length buf) = t_n c ->
  let K := zsum (map (hd 0) A) mod L in
  exists a shares, sharing_params K (t_n c) (t_t c) a buf /\ create_shares K (t_n c) (t_t c) a buf = Ok shares /\
    Forall (fun x => nth_error shares (Z.to_nat (number x)) = Some (share_of_party x)) parties.
Proof.
  intros D Hu HF HP HA Hb K. pose proof (dw_wf _ _ _ _ D) as W. pose proof (w_n c W) as Wn. pose proof (w_t c W) as Wt. pose proof HA as HA0. destruct HA as (LA & FA & EA).
  destruct (sum_created A (t_n c) (t_t c) buf ltac:(lia) ltac:(lia) LA ltac:(eapply Forall_impl; [|exact FA]; cbv beta; tauto) Hb) as (a & shares & SP & E & Ls & Hi).
  exists a, shares. split; [exact SP|]. split; [exact E|]. destruct parties as [|x0 ps]; [constructor|].
  destruct (one_polynomial C HC c calls outs (x0 :: ps) D Hu HF HP ltac:(discriminate)) as (B & HB & HS & _). rewrite <- (dealers_fun C HC _ _ _ _ HA0 HB) in HS.
  apply Forall_forall. intros x Hx. rewrite (proj1 (Forall_forall _ _) HS x Hx). pose proof (proj1 (Forall_forall _ _) HF x Hx) as Hh. destruct x as (((k & p) & pc) & po).
  pose proof (tk_k _ _ _ _ _ _ _ _ Hh). cbn [number fst]. rewrite <- Hi by lia. f_equal. f_equal. lia.
Qed.

Lemma generated_serves c calls outs parties A H : done_well C c calls outs -> sound_commitments C (published c outs) ->
  Forall (GoodSpec.honest C c calls outs) parties -> Forall (fun x => plain_shares (received_by x)) parties ->
  dealers C c (published c outs) A -> NoDup (map number parties) -> t_t c <= Z.of_nat (length parties) -> hashes_ok H ->
  let K := zsum (map (hd 0) A) mod L in K <> 0 -> serves (cR C) H (t_n c) (t_t c) K (map share_of_party parties).
Proof.
  intros D Hu HF HP HA Hnd Hl HH K HK. pose proof (dw_wf _ _ _ _ D) as W. pose proof (w_n c W) as Wn.
  destruct (generated c calls outs parties A (repeat (mkShare 0 0) (Z.to_nat (t_n c))) D Hu HF HP HA) as (a & shares & SP & E & HN); [rewrite repeat_length; lia|].
  assert (N0 : forall x, In x parties -> 0 <= number x < t_n c).
  { intros x Hx. pose proof (proj1 (Forall_forall _ _) HF x Hx) as Hh. destruct x as (((k & p) & pc) & po). exact (tk_k _ _ _ _ _ _ _ _ Hh). }
  assert (HI : forall x, In x parties -> s_index (share_of_party x) = number x + 1).
  { intros x Hx. pose proof (proj1 (Forall_forall _ _) HN x Hx) as Q. cbv beta in Q. destruct (create_shares_full _ _ _ _ _ SP) as (sh' & E' & _ & Hi & _).
    assert (sh' = shares) by congruence. subst sh'. specialize (Hi (number x + 1)). replace (number x + 1 - 1) with (number x) in Hi by lia. specialize (N0 x Hx). rewrite Q in Hi. specialize (Hi ltac:(lia)). injection Hi as ->. reflexivity. }
  eapply created_serves; [exact (ok_cR C HC)|exact HH|exact SP|exact E| |exact HK]. split; [|split].
  - apply (NoDup_map_inv s_index). rewrite map_map. rewrite (map_ext_in _ (fun x => number x + 1)) by exact HI. rewrite <- (map_map number (fun z => z + 1)). apply FinFun.Injective_map_NoDup; [intros ? ?; lia|exact Hnd].
  - intros s Hs. apply in_map_iff in Hs. destruct Hs as (x & <- & Hx). eapply nth_error_In. exact (proj1 (Forall_forall _ _) HN x Hx).
  - rewrite map_length. exact Hl.
Qed.
End USE.

Section HONEST.
Context (C : crypto) (HC : crypto_ok C) (x : ceremony C) (w : sched) (HH : RunSpec.honest C x w).
Notation n := (h_n C x).
Notation t := (h_t C x).

Lemma honest_created buf : Z.of_nat (length buf) = n ->
  let K := zsum (map (fun i => hd 0 (pe_a (s_peer w i 3))) (zrange 0 (Z.to_nat n))) mod L in
  exists r0 r a, begin C x = Ok (Some r0) /\ rounds C w 10 r0 = Ok (Some r) /\
    sharing_params K n t a buf /\ create_shares K n t a buf = Ok (map (p_share C) (r_peers C r)).
Proof.
  intros Hb K. pose proof (hp_n C x w HH) as Hn.
  pose proof (ok_cN C HC) as HN.
  destruct (ok_nz_create (cN C) HN 0 []) as (d0 & D0 & Ds & Dp). pose proof (reach_create (cN C) _ _ _ D0) as R0.
  assert (exists s0 : nz_sess (cN C), True) as (s0 & _).
  { destruct (ok_nz_add (cN C) HN d0 0 (nz_pk (cN C) (nz_static (cN C) d0)) R0 (ok_nz_pk_len (cN C) HN _)) as (d1 & id & E1 & E2 & E3); [rewrite Dp; unfold zlen; cbn [length]; lia|rewrite Dp; intros []|]. pose proof (reach_add (cN C) _ _ _ _ _ R0 (ok_nz_pk_len (cN C) HN _) E1) as R1. rewrite Dp in E3. cbn [app] in E3.
    destruct (ok_nz_chain (cN C) HN d1 d1 id [] [] [] R1 R1) as (si & _); [unfold zlen; cbn [length]; lia|rewrite E3, E2; left; reflexivity|rewrite E3; cbn; constructor; [intros []|constructor]|rewrite E3, E2; left; reflexivity|].
    exists si. exact I. }
  destruct (begins C HC x w HH d0 s0) as (tr0 & B). cbv zeta in B. set (W := W_ C x w d0 s0 tr0) in *. pose proof (W_ok C HC x w HH d0 s0 tr0) as HW. fold W in HW.
  set (A := zmap (fun i => pe_a (s_peer w i 3)) n).
  assert (LA : Z.of_nat (length A) = n) by (apply zlen_zmap; lia).
  assert (FA : Forall (fun a => Z.of_nat (length a) = t) A) by (apply Forall_zmap; intros i Hi; exact (proj1 (hp_a C x w HH i Hi))).
  destruct (sum_created A n t buf ltac:(lia) ltac:(lia) LA FA Hb) as (a & shares & SP & E & Ls & Hi).
  assert (EK : zsum (map (hd 0) A) mod L = K) by (unfold A, K, zmap; rewrite map_map; reflexivity). rewrite EK in *.
  eexists _, _, a. split; [exact B|]. split; [exact (world_run W HW)|]. split; [exact SP|]. rewrite E. f_equal. cbn [r_peers].
  change (wn W) with n. rewrite map_zmap.
  apply nth_error_ext'.
  { pose proof (zlen_zmap (fun i => p_share C (P10 W i)) n ltac:(lia)) as Z0. unfold zlen in Z0. lia. }
  intros j _. destruct (Nat.ltb_spec j (Z.to_nat n)) as [Hj|Hj].
  - pose proof (Hi (Z.of_nat j + 1) ltac:(lia)) as Q. replace (Z.to_nat (Z.of_nat j + 1 - 1)) with j in Q by lia. rewrite Q.
    unfold zmap. erewrite map_nth_error by (apply zrange_nth; lia). f_equal. cbn [Z.add]. change (p_share C (P10 W (0 + Z.of_nat j))) with (fsh W (0 + Z.of_nat j)). unfold fsh.
    rewrite Z.add_0_l. f_equal. change (wn W) with n.
    replace (zmap (fun j0 => sh W j0 (Z.of_nat j)) n) with (column A (Z.of_nat j + 1)) by (unfold column, A; rewrite map_zmap; reflexivity).
    rewrite <- psum_poly. do 2 f_equal. symmetry. apply finish_poly.
    + apply Forall_forall. intros s Hs. unfold column in Hs. apply in_map_iff in Hs. destruct Hs as (b & <- & _). cbn [s_value]. pose proof (mod_L_range (poly b (Z.of_nat j + 1))). pose proof L_lt_2_255. lia.
    + unfold column. clear. generalize A. intros l. induction l as [|b l IH]; constructor; [cbn [s_value]; apply of_Z_mod|exact IH].
  - rewrite !(proj2 (nth_error_None _ _)); [reflexivity| |lia]. unfold zmap. rewrite map_length, zrange_length. lia.
Qed.

Lemma honest_serves H qs r0 r : hashes_ok H -> begin C x = Ok (Some r0) -> rounds C w 10 r0 = Ok (Some r) -> quorum t (map (p_share C) (r_peers C r)) qs ->
  let K := zsum (map (fun i => hd 0 (pe_a (s_peer w i 3))) (zrange 0 (Z.to_nat n))) mod L in K <> 0 -> serves (cR C) H n t K qs.
Proof.
  intros HHh B R Q K HK. pose proof (hp_n C x w HH) as Hn.
  destruct (honest_created (repeat (mkShare 0 0) (Z.to_nat n))) as (r0' & r' & a & B' & R' & SP & E); [rewrite repeat_length; lia|].
  rewrite B in B'. injection B' as <-. rewrite R in R'. injection R' as <-. eapply created_serves; [exact (ok_cR C HC)|exact HHh|exact SP|exact E|exact Q|exact HK].
Qed.
End HONEST.
