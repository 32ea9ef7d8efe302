(** The honest run, part 4: the rounds. *)
From Coq Require Import ZArith Lia List Bool.
From Coq.Strings Require Import Byte.
From Verif Require Import PrimeL Bytes Res Mem Sodium ToprfModel ToprfSpec DkgModel DkgSpec DkgProofs WireModel WireSpec WireProofs TpCrypto TpModel PeerModel
  TpFrame PeerFrame TpRun TpSpec TpMsg TpContent TpControl RunSpec HonestMsg HonestState HonestTp HonestPeer.
Import ListNotations.
Open Scope list_scope.
Open Scope Z_scope.

Section HRUN.
Variable W : world.
Hypothesis HW : world_ok W.
Notation C := (wC W).
Notation w := (wW W).
Notation n := (wn W).
Notation t := (wt W).

Let Hn := Hn W HW.

Lemma turn_from (Pf Pg : Z -> peer C) (m o : Z -> bytes) k : forall a,
  (forall i, a <= i < a + Z.of_nat k -> peer_next C (s_peer w i (p_step C (Pf i))) (Pf i) (m i) (s_buf w (i + 1) (p_step C (Pf i)) (peer_output_size C (Pf i))) = Ok (0, Pg i, o i)) ->
  peers_turn C w a (map Pf (zrange a k)) (map m (zrange a k)) = Ok (Some (map Pg (zrange a k), concat (map o (zrange a k)))).
Proof.
  induction k as [|k IH]; intros a H; [reflexivity|]. rewrite !zrange_S. cbn [map peers_turn concat]. rewrite H by lia. cbn [bind Z.eqb negb]. rewrite IH by (intros i Hi; apply H; lia). reflexivity.
Qed.
Lemma turn (Pf Pg : Z -> peer C) (m o : Z -> bytes) :
  (forall i, 0 <= i < n -> peer_next C (s_peer w i (p_step C (Pf i))) (Pf i) (m i) (s_buf w (i + 1) (p_step C (Pf i)) (peer_output_size C (Pf i))) = Ok (0, Pg i, o i)) ->
  peers_turn C w 0 (zmap Pf n) (zmap m n) = Ok (Some (zmap Pg n, blocks o n)).
Proof. intros H. apply turn_from. intros i Hi. apply H. pose proof Hn. lia. Qed.
Lemma dispatched_from c out (m : Z -> bytes) k : forall a, (forall i, a <= i < a + Z.of_nat k -> dispatch c out i = Ok (Some (m i))) ->
  dispatch_all c out (zrange a k) = Ok (Some (map m (zrange a k))).
Proof. induction k as [|k IH]; intros a H; [reflexivity|]. rewrite !zrange_S. cbn [map dispatch_all]. rewrite H by lia. cbn [bind]. rewrite IH by (intros i Hi; apply H; lia). reflexivity. Qed.
Lemma dispatched c out (m : Z -> bytes) : (forall i, 0 <= i < n -> dispatch c out i = Ok (Some (m i))) -> dispatch_all c out (zrange 0 (Z.to_nat n)) = Ok (Some (zmap m n)).
Proof. intros H. apply dispatched_from. intros i Hi. apply H. pose proof Hn. lia. Qed.

(** a message cut out of the output *)
Lemma dispatch_slice c out i off len m : tp_peer_msg c (zlen out) i = (if zlen out <? off + len then (2, Some (off, len)) else (0, Some (off, len))) ->
  rd out off len = Ok m -> dispatch c out i = Ok (Some m).
Proof.
  intros H R. unfold dispatch. rewrite H. pose proof (rd_inv _ _ _ _ R) as (_ & _ & Hl & _). destruct (Z.ltb_spec (zlen out) (off + len)); [lia|]. rewrite R. reflexivity.
Qed.

(** one round in which the peers make one step and send something *)
Lemma round_1 c c' net out m Pf Pg o k :
  tp_next C (s_tp w (t_step c)) c net (s_buf w 0 (t_step c) (tp_output_size c)) = Ok (0, c', out) -> t_n c' = n ->
  (forall i, 0 <= i < n -> dispatch c' out i = Ok (Some (m i))) ->
  peer_not_done C (Pf 1) = true ->
  (forall i, 0 <= i < n -> peer_next C (s_peer w i (p_step C (Pf i))) (Pf i) (m i) (s_buf w (i + 1) (p_step C (Pf i)) (peer_output_size C (Pf i))) = Ok (0, Pg i, o i)) ->
  0 < k -> (forall i, 0 <= i < n -> zlen (o i) = k) ->
  round C w (mkRun C c (zmap Pf n) net) = Ok (Some (mkRun C c' (zmap Pg n) (blocks o n))).
Proof.
  intros H1 H2 H3 H4 H5 H6 H7. pose proof Hn as Hn'. unfold round. cbn [r_tp r_peers r_net]. rewrite H1. cbn [bind Z.eqb negb]. rewrite H2, (dispatched _ _ m) by assumption. cbn [bind].
  rewrite getz_zmap by lia. cbn [bind]. rewrite H4. cbn [negb peers_loop]. rewrite (turn Pf Pg m o H5). cbn [bind]. rewrite getz_zmap by lia. cbn [bind].
  rewrite (zlen_blocks _ k) by (try lia; assumption). destruct (Z.eqb_spec (n * k) 0); [nia|]. reflexivity.
Qed.
(** one round in which the first step of the peers is silent *)
Lemma round_2 c c' net out m Pf Pg Ph o k :
  tp_next C (s_tp w (t_step c)) c net (s_buf w 0 (t_step c) (tp_output_size c)) = Ok (0, c', out) -> t_n c' = n ->
  (forall i, 0 <= i < n -> dispatch c' out i = Ok (Some (m i))) ->
  peer_not_done C (Pf 1) = true -> peer_not_done C (Pg 1) = true ->
  (forall i, 0 <= i < n -> peer_next C (s_peer w i (p_step C (Pf i))) (Pf i) (m i) (s_buf w (i + 1) (p_step C (Pf i)) (peer_output_size C (Pf i))) = Ok (0, Pg i, [])) ->
  (forall i, 0 <= i < n -> peer_next C (s_peer w i (p_step C (Pg i))) (Pg i) [] (s_buf w (i + 1) (p_step C (Pg i)) (peer_output_size C (Pg i))) = Ok (0, Ph i, o i)) ->
  0 < k -> (forall i, 0 <= i < n -> zlen (o i) = k) ->
  round C w (mkRun C c (zmap Pf n) net) = Ok (Some (mkRun C c' (zmap Ph n) (blocks o n))).
Proof.
  intros H1 H2 H3 H4 H4' H5 H5' H6 H7. pose proof Hn as Hn'. unfold round. cbn [r_tp r_peers r_net]. rewrite H1. cbn [bind Z.eqb negb]. rewrite H2, (dispatched _ _ m) by assumption. cbn [bind].
  rewrite getz_zmap by lia. cbn [bind]. rewrite H4. cbn [negb]. cbn [peers_loop]. rewrite (turn Pf Pg m (fun _ => []) H5). cbn [bind]. rewrite getz_zmap by lia. cbn [bind].
  rewrite (zlen_blocks _ 0) by (try lia; reflexivity). rewrite Z.mul_0_r, H4'. cbn [Z.eqb andb]. rewrite map_zmap. rewrite (turn Pg Ph (fun _ => []) o H5'). cbn [bind]. rewrite getz_zmap by lia. cbn [bind].
  rewrite (zlen_blocks _ k) by (try lia; assumption). destruct (Z.eqb_spec (n * k) 0); [nia|]. reflexivity.
Qed.

Lemma r0 : round C w (mkRun C (T0 W) (zmap (P0 W) n) []) = Ok (Some (mkRun C (T1 W) (zmap (P1 W) n) (blocks (M2s W) n))).
Proof.
  apply (round_1 _ _ _ (blocks (M1 W) n) (M1 W) _ _ _ 239).
  - exact (next_T0 W HW).
  - reflexivity.
  - intros i Hi. eapply dispatch_slice; [|apply rd_blocks; [exact Hi|intros; apply (z_M1 W HW)]].
    unfold tp_peer_msg. change (t_n (T1 W)) with n. destruct (Z.leb_spec n i); [lia|]. reflexivity.
  - reflexivity.
  - intros i Hi. exact (next_P0 W HW i Hi).
  - lia.
  - intros. apply (z_M2s W HW).
Qed.
Lemma r1 : round C w (mkRun C (T1 W) (zmap (P1 W) n) (blocks (M2s W) n)) = Ok (Some (mkRun C (T2 W) (zmap (P2 W) n) (blocks (fun i => blocks (M4 W i) n) n))).
Proof.
  pose proof Hn as Hn'. apply (round_1 _ _ _ (B3 W) (fun _ => B3 W) _ _ _ (n * 159)).
  - exact (next_T1 W HW).
  - reflexivity.
  - intros i Hi. eapply (dispatch_slice _ _ _ 0 (175 * n + 111)).
    + unfold tp_peer_msg. change (t_n (T2 W)) with n. destruct (Z.leb_spec n i); [lia|]. reflexivity.
    + apply rd_all. rewrite (z_B3 W HW). lia.
  - reflexivity.
  - intros i Hi. exact (next_P1 W HW i Hi).
  - lia.
  - intros i Hi. apply zlen_blocks; [lia|]. intros j Hj. apply (z_M4 W HW); assumption.
Qed.
Lemma row_of (M : Z -> Z -> bytes) sz i : 0 <= i < n -> (forall j i, 0 <= j < n -> 0 <= i < n -> zlen (M j i) = sz) ->
  rd (turned W M) (i * (n * sz)) (n * sz) = Ok (blocks (fun j => M j i) n).
Proof.
  intros Hi Hz. pose proof Hn as Hn'. unfold turned. apply (rd_blocks (fun i => blocks (fun j => M j i) n)); [assumption|]. intros k Hk. apply zlen_blocks; [lia|]. intros j Hj. apply Hz; assumption.
Qed.
Lemma r2 : round C w (mkRun C (T2 W) (zmap (P2 W) n) (blocks (fun i => blocks (M4 W i) n) n)) = Ok (Some (mkRun C (T3 W) (zmap (P3 W) n) (blocks (fun i => blocks (M5 W i) n) n))).
Proof.
  pose proof Hn as Hn'. apply (round_1 _ _ _ (turned W (M4 W)) (fun i => blocks (fun j => M4 W j i) n) _ _ _ (n * 159)).
  - exact (next_T2 W HW).
  - reflexivity.
  - intros i Hi. eapply (dispatch_slice _ _ _ (i * 159 * n) (159 * n)).
    + unfold tp_peer_msg. change (t_n (T3 W)) with n. destruct (Z.leb_spec n i); [lia|]. reflexivity.
    + replace (i * 159 * n) with (i * (n * 159)) by lia. rewrite (Z.mul_comm 159). apply row_of; [assumption|apply (z_M4 W HW)].
  - reflexivity.
  - intros i Hi. exact (next_P2 W HW i Hi).
  - lia.
  - intros i Hi. apply zlen_blocks; [lia|]. intros j Hj. apply (z_M5 W HW); assumption.
Qed.
Lemma r3 : round C w (mkRun C (T3 W) (zmap (P3 W) n) (blocks (fun i => blocks (M5 W i) n) n)) = Ok (Some (mkRun C (T4 W) (zmap (P4 W) n) (blocks (M6 W) n))).
Proof.
  pose proof Hn as Hn'. apply (round_1 _ _ _ (turned W (M5 W)) (fun i => blocks (fun j => M5 W j i) n) _ _ _ (111 + 32 * t)).
  - exact (next_T3 W HW).
  - reflexivity.
  - intros i Hi. eapply (dispatch_slice _ _ _ (i * 159 * n) (159 * n)).
    + unfold tp_peer_msg. change (t_n (T4 W)) with n. destruct (Z.leb_spec n i); [lia|]. reflexivity.
    + replace (i * 159 * n) with (i * (n * 159)) by lia. rewrite (Z.mul_comm 159). apply row_of; [assumption|apply (z_M5 W HW)].
  - reflexivity.
  - intros i Hi. exact (next_P3 W HW i Hi).
  - lia.
  - intros i Hi. apply (z_M6 W HW). assumption.
Qed.
Lemma r4 : round C w (mkRun C (T4 W) (zmap (P4 W) n) (blocks (M6 W) n)) = Ok (Some (mkRun C (T5 W) (zmap (P5 W) n) (net5 W))).
Proof.
  pose proof Hn as Hn'. apply (round_1 _ _ _ (B7 W) (fun _ => B7 W) _ _ _ (n * 256)).
  - exact (next_T4 W HW).
  - reflexivity.
  - intros i Hi. eapply (dispatch_slice _ _ _ 0 (111 + (111 + 32 * t) * n)).
    + unfold tp_peer_msg. change (t_n (T5 W)) with n. destruct (Z.leb_spec n i); [lia|]. reflexivity.
    + apply rd_all. rewrite (z_B7 W HW). lia.
  - reflexivity.
  - intros i Hi. exact (next_P4 W HW i Hi).
  - lia.
  - intros i Hi. apply zlen_blocks; [lia|]. intros j Hj. apply (z_M8 W HW); assumption.
Qed.
Lemma r5 : round C w (mkRun C (T5 W) (zmap (P5 W) n) (net5 W)) = Ok (Some (mkRun C (T6 W) (zmap (P6 W) n) (blocks (M9 W) n))).
Proof.
  pose proof Hn as Hn'. apply (round_1 _ _ _ (turned W (M8 W)) (fun i => blocks (fun j => M8 W j i) n) _ _ _ (112 + n)).
  - exact (next_T5 W HW).
  - reflexivity.
  - intros i Hi. eapply (dispatch_slice _ _ _ (i * n * 256) (n * 256)).
    + unfold tp_peer_msg. change (t_n (T6 W)) with n. destruct (Z.leb_spec n i); [lia|]. reflexivity.
    + replace (i * n * 256) with (i * (n * 256)) by lia. apply row_of; [assumption|apply (z_M8 W HW)].
  - reflexivity.
  - intros i Hi. exact (next_P5 W HW i Hi).
  - lia.
  - intros i Hi. apply (z_M9 W HW). assumption.
Qed.
Lemma r6 : round C w (mkRun C (T6 W) (zmap (P6 W) n) (blocks (M9 W) n)) = Ok (Some (mkRun C (T7 W) (zmap (P8 W) n) (blocks (M19 W) n))).
Proof.
  pose proof Hn as Hn'. apply (round_2 _ _ _ (B10 W) (fun _ => B10 W) _ (P7 W) _ _ 143).
  - exact (next_T6 W HW).
  - reflexivity.
  - intros i Hi. eapply (dispatch_slice _ _ _ 0 (msg10_SIZE n)).
    + unfold tp_peer_msg. change (t_n (T7 W)) with n. destruct (Z.leb_spec n i); [lia|]. reflexivity.
    + apply rd_all. rewrite (z_B10 W HW). unfold msg10_SIZE, msg9_SIZE, hdr_SIZE. lia.
  - reflexivity.
  - reflexivity.
  - intros i Hi. exact (next_P6 W HW i Hi).
  - intros i Hi. exact (next_P7 W HW i Hi).
  - lia.
  - intros i Hi. apply (z_M19 W HW).
Qed.
Lemma r7 : round C w (mkRun C (T7 W) (zmap (P8 W) n) (blocks (M19 W) n)) = Ok (Some (mkRun C (T8 W) (zmap (P9 W) n) (blocks (M21 W) n))).
Proof.
  pose proof Hn as Hn'. apply (round_1 _ _ _ (B20 W) (fun _ => B20 W) _ _ _ 113).
  - exact (next_T7 W HW).
  - reflexivity.
  - intros i Hi. eapply (dispatch_slice _ _ _ 0 113).
    + unfold tp_peer_msg. change (t_n (T8 W)) with n. destruct (Z.leb_spec n i); [lia|]. reflexivity.
    + apply rd_all. unfold B20. rewrite (zmk W HW). reflexivity.
  - reflexivity.
  - intros i Hi. exact (next_P8 W HW i Hi).
  - lia.
  - intros i Hi. apply (z_M21 W HW).
Qed.
Lemma r8 : round C w (mkRun C (T8 W) (zmap (P9 W) n) (blocks (M21 W) n)) = Ok (Some (mkRun C (T9 W) (zmap (P10 W) n) [])).
Proof.
  pose proof Hn as Hn'. unfold round. cbn [r_tp r_peers r_net].
  pose proof (next_T8 W HW) as H1. unfold tbuf in H1. change (t_step (T8 W)) with 9. rewrite H1. cbn [bind Z.eqb negb]. change (t_n (T9 W)) with n.
  rewrite (dispatched _ _ (fun _ => [])).
  2: { intros i Hi. unfold dispatch, tp_peer_msg. change (t_n (T9 W)) with n. destruct (Z.leb_spec n i); [lia|]. reflexivity. }
  cbn [bind]. rewrite getz_zmap by lia. cbn [bind]. change (peer_not_done C (P9 W 1)) with true. cbn [negb peers_loop].
  rewrite (turn (P9 W) (P10 W) (fun _ => []) (fun _ => [])) by (intros i Hi; exact (next_P9 W HW i)). cbn [bind]. rewrite getz_zmap by lia. cbn [bind].
  change (peer_not_done C (P10 W 1)) with false. rewrite andb_false_r. cbn [bind]. replace (blocks (fun _ => []) n) with (@nil byte); [reflexivity|].
  unfold blocks, zmap. generalize (zrange 0 (Z.to_nat n)). intros l. induction l; [reflexivity|]. exact IHl.
Qed.

Theorem world_run : rounds C w 10 (mkRun C (T0 W) (zmap (P0 W) n) []) = Ok (Some (mkRun C (T9 W) (zmap (P10 W) n) [])).
Proof.
  do 9 (cbn [rounds r_tp]; match goal with |- context [tp_not_done ?c] => change (tp_not_done c) with true end; cbn [negb];
        first [rewrite r0|rewrite r1|rewrite r2|rewrite r3|rewrite r4|rewrite r5|rewrite r6|rewrite r7|rewrite r8]; cbn [bind]).
  cbn [rounds r_tp]. change (tp_not_done (T9 W)) with false. reflexivity.
Qed.

(** the shares the peers end up with *)
Lemma world_shares js : NoDup js -> Forall (fun j => 0 <= j < n) js -> t <= zlen js ->
  dkg_reconstruct (map (fun j => p_share C (P10 W j)) js) = zsum (map (hd 0) (zmap (co W) n)) mod L.
Proof.
  intros Hnd Hjs Hl. pose proof Hn as Hn'.
  assert (E : map (fun j => p_share C (P10 W j)) js = map (fun j => mkShare j (dkg_finish (column (zmap (co W) n) j))) (map (fun j => j + 1) js)).
  { rewrite map_map. apply map_ext. intros j. change (p_share C (P10 W j)) with (fsh W j). unfold fsh, column. rewrite map_zmap. reflexivity. }
  rewrite E. apply (honest_reconstruct n t); try lia.
  - pose proof (zlen_zmap (co W) n ltac:(lia)) as Z. exact Z.
  - apply Forall_zmap. intros i Hi. exact (ww_a W HW i Hi).
  - apply FinFun.Injective_map_NoDup; [|assumption]. intros a c Hac. lia.
  - apply Forall_forall. intros x Hx. apply in_map_iff in Hx. destruct Hx as (j & <- & Hj). apply (proj1 (Forall_forall _ _) Hjs) in Hj. unfold index_ok. lia.
  - rewrite map_length. exact Hl.
Qed.
End HRUN.
