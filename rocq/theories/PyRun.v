(** C82: a key generation through the Python bindings. *)
From Coq Require Import ZArith Lia List Bool.
From Coq.Strings Require Import Byte.
From Verif Require Import PrimeL Bytes Res Mem Sodium OprfModel ToprfModel ToprfSpec ToprfProofs DkgModel DkgSpec DkgProofs WireModel WireSpec WireProofs TpCrypto TpModel PeerModel
  TpFrame PeerFrame TpRun TpSpec TpMsg TpContent TpControl TpSizes TpAgree TpStart RunSpec HonestMsg HonestState HonestTp HonestPeer HonestRun HonestWorld Honest
  PyModel PySpec PyProofs PySession PyRunModel PyRunSpec GoodUse.
Import ListNotations.
Open Scope list_scope.
Open Scope Z_scope.

Section LOOP.
Variable W : world.
Hypothesis HW : world_ok W.
Notation C := (wC W).
Notation w := (wW W).
Notation n := (wn W).
Notation t := (wt W).
Variable al : Z -> bool.
Hypothesis Hal : forall k, al k = true.
Hypothesis Hbuf : forall party step k, s_buf w party step k = zeros (Z.to_nat k).
Let Hn := Hn W HW.


Lemma input_size_ok c : 1 <= t_n c -> t_step c <> 7 -> exists l, tp_input_sizes c = Ok (1, l) /\ exists isz, tp_input_size c = Ok isz.
Proof.
  intros H1 H7. assert (E : exists item, tp_input_sizes c = Ok (1, repeat item (Z.to_nat (t_n c)))).
  { unfold tp_input_sizes. repeat match goal with |- context [match ?x with _ => _ end] => is_var x; destruct x end; try (eexists; reflexivity).
    destruct (t_step c) as [|p|p]; try (eexists; reflexivity).
    do 5 (try (destruct p as [p|p|]; try (eexists; reflexivity); try (exfalso; apply H7; reflexivity))). }
  destruct E as (item & E). eexists. split; [exact E|]. eexists. apply (tp_input_size_all c item); assumption.
Qed.

Lemma py_tp_ok c net c' out s : t_step c = s -> 0 <= s <= 9 -> s <> 7 -> 1 <= t_n c ->
  tp_next C (s_tp w s) c net (s_buf w 0 s (tp_output_size c)) = Ok (0, c', out) ->
  (exists l, tp_input_sizes c = Ok (1, l)) /\ py_tp_next C al (s_tp w (t_step c)) c net = Ret (Some out, c').
Proof.
  intros <- Hs H7 H1 H. destruct (input_size_ok c H1 H7) as (l & El & isz & Ei). split; [eauto|]. rewrite Hbuf in H. unfold py_tp_next. rewrite Ei. cbn [of_res pbind].
  destruct (tp_demands C (s_tp w (t_step c)) c net (zeros (Z.to_nat (tp_output_size c))) isz Hs H1 Ei) as (D & _).
  destruct (Z.eqb_spec (zlen net) isz) as [e|e].
  - cbn [negb]. rewrite Hal. cbn [negb]. rewrite H. reflexivity.
  - destruct (D e) as (c'' & D'). rewrite D' in H. discriminate.
Qed.

Lemma py_peer_ok p m p' out i s : p_step C p = s -> 0 <= s <= 10 -> (s = 10 -> m = []) ->
  peer_next C (s_peer w i s) p m (s_buf w (i + 1) s (peer_output_size C p)) = Ok (0, p', out) ->
  py_peer_next C al (s_peer w i (p_step C p)) p m = Ret (Some out, p').
Proof.
  intros <- Hs H10 H. rewrite Hbuf in H. unfold py_peer_next. destruct (Z.eqb_spec (zlen m) (peer_input_size C p)) as [e|e].
  - cbn [negb]. rewrite Hal. cbn [negb]. rewrite H. reflexivity.
  - exfalso. destruct (Z.eq_dec (p_step C p) 10) as [e'|e'].
    + rewrite (H10 e') in e. unfold peer_input_size in e. rewrite e' in e. apply e. reflexivity.
    + destruct (peer_demands C (s_peer w i (p_step C p)) p m (zeros (Z.to_nat (peer_output_size C p))) ltac:(lia)) as (D & _). destruct (D e) as (c'' & D'). rewrite D' in H. discriminate.
Qed.

Lemma py_in_ok c out i m : 0 <= i < 256 -> dispatch c out i = Ok (Some m) -> py_in c out i = Ret m.
Proof.
  intros Hi H. unfold py_in, dispatch in *. destruct (tp_peer_msg c (zlen out) i) as [ret o] eqn:E. destruct (Z.ltb_spec 0 (zlen out)) as [e|e].
  - unfold py_tp_peer_msg. rewrite c_u8_small by lia. cbn [pbind]. rewrite E. destruct ret as [|p|p]; [|discriminate|discriminate]. change (check 0) with (Ret tt). cbn [pbind].
    destruct o as [(off, len)|]; [|injection H as <-; reflexivity]. apply bind_ok in H. destruct H as (m' & R & H). injection H as <-. rewrite R. reflexivity.
  - destruct ret as [|p|p]; [|discriminate|discriminate]. destruct o as [(off, len)|]; [|injection H as <-; reflexivity]. apply bind_ok in H. destruct H as (m' & R & H). injection H as <-.
    apply rd_inv in R. destruct R as (R1 & R2 & R3 & R4). assert (zlen m' = 0) by lia. destruct m'; [reflexivity|]. unfold zlen in *. cbn [length] in *. lia.
Qed.

Lemma pass_from c out (Pf Pg : Z -> peer C) (m o : Z -> bytes) k : forall a,
  (forall i, a <= i < a + Z.of_nat k -> py_in c out i = Ret (m i)) ->
  (forall i, a <= i < a + Z.of_nat k -> py_peer_next C al (s_peer w i (p_step C (Pf i))) (Pf i) (m i) = Ret (Some (o i), Pg i)) ->
  py_pass C al w c out a (map Pf (zrange a k)) = Ret (map Pg (zrange a k), concat (map o (zrange a k))).
Proof.
  induction k as [|k IH]; intros a H1 H2; [reflexivity|]. rewrite !zrange_S. cbn [map py_pass concat]. rewrite H1 by lia. cbn [pbind]. rewrite H2 by lia. cbn [pbind].
  rewrite IH by (intros i Hi; first [apply H1|apply H2]; lia). reflexivity.
Qed.
Lemma pass c out (Pf Pg : Z -> peer C) (m o : Z -> bytes) :
  (forall i, 0 <= i < n -> py_in c out i = Ret (m i)) ->
  (forall i, 0 <= i < n -> py_peer_next C al (s_peer w i (p_step C (Pf i))) (Pf i) (m i) = Ret (Some (o i), Pg i)) ->
  py_pass C al w c out 0 (zmap Pf n) = Ret (zmap Pg n, blocks o n).
Proof. intros H1 H2. apply (pass_from c out Pf Pg m o); intros i Hi; [apply H1|apply H2]; pose proof Hn; lia. Qed.

Lemma zmap_cons {X} (f : Z -> X) k : 0 < k -> exists l, zmap f k = f 0 :: l.
Proof. intros H. unfold zmap. replace (Z.to_nat k) with (S (Z.to_nat (k - 1))) by lia. rewrite zrange_S. eexists. reflexivity. Qed.

Lemma peers_S fuel c out (Pf : Z -> peer C) : peer_not_done C (Pf 0) = true ->
  py_peers C al w (S fuel) c out (zmap Pf n) =
  pbind (py_pass C al w c out 0 (zmap Pf n)) (fun r => let '(ps', net) := r in if zlen net =? 0 then py_peers C al w fuel c [] ps' else Ret (ps', net)).
Proof.
  intros H. pose proof Hn as Hn'. cbn [py_peers]. destruct (zmap_cons Pf n ltac:(lia)) as (l & E). rewrite E at 1. unfold py_peer_not_done. rewrite H. reflexivity.
Qed.
Lemma peers_done fuel c out (Pf : Z -> peer C) : peer_not_done C (Pf 0) = false -> py_peers C al w fuel c out (zmap Pf n) = Ret (zmap Pf n, []).
Proof.
  intros H. pose proof Hn as Hn'. destruct fuel; [reflexivity|]. cbn [py_peers]. destruct (zmap_cons Pf n ltac:(lia)) as (l & E). rewrite E at 1. unfold py_peer_not_done. rewrite H. reflexivity.
Qed.

(** the peers make one step and send something *)
Lemma round_1 fuel c out m Pf Pg o k : (forall i, 0 <= i < n -> dispatch c out i = Ok (Some (m i))) -> peer_not_done C (Pf 0) = true ->
  (forall i, 0 <= i < n -> py_peer_next C al (s_peer w i (p_step C (Pf i))) (Pf i) (m i) = Ret (Some (o i), Pg i)) ->
  0 < k -> (forall i, 0 <= i < n -> zlen (o i) = k) ->
  py_peers C al w (S fuel) c out (zmap Pf n) = Ret (zmap Pg n, blocks o n).
Proof.
  intros H1 H2 H3 H4 H5. pose proof Hn as Hn'. rewrite peers_S by exact H2. rewrite (pass c out Pf Pg m o) by (try (intros i Hi; apply py_in_ok; [lia|apply H1; lia]); exact H3). cbn [pbind].
  rewrite (zlen_blocks _ k) by (try lia; assumption). destruct (Z.eqb_spec (n * k) 0); [nia|]. reflexivity.
Qed.
(** a silent step, after which they are asked again *)
Lemma round_0 fuel c out m Pf Pg : (forall i, 0 <= i < n -> dispatch c out i = Ok (Some (m i))) -> peer_not_done C (Pf 0) = true ->
  (forall i, 0 <= i < n -> py_peer_next C al (s_peer w i (p_step C (Pf i))) (Pf i) (m i) = Ret (Some [], Pg i)) ->
  py_peers C al w (S fuel) c out (zmap Pf n) = py_peers C al w fuel c [] (zmap Pg n).
Proof.
  intros H1 H2 H3. pose proof Hn as Hn'. rewrite peers_S by exact H2. rewrite (pass c out Pf Pg m (fun _ => [])) by (try (intros i Hi; apply py_in_ok; [lia|apply H1; lia]); exact H3). cbn [pbind].
  rewrite (zlen_blocks _ 0) by (try lia; reflexivity). rewrite Z.mul_0_r. reflexivity.
Qed.

Lemma loop_S fuel c ps net c' out s : tp_not_done c = true -> t_step c = s -> 0 <= s <= 9 -> s <> 7 -> t_n c = n ->
  tp_next C (s_tp w s) c net (s_buf w 0 s (tp_output_size c)) = Ok (0, c', out) ->
  py_loop C al w (S fuel) c ps net = pbind (py_peers C al w 11 c' out ps) (fun r => let '(ps', net') := r in py_loop C al w fuel c' ps' net').
Proof.
  intros H1 H2 H3 H4 H5 H6. pose proof Hn as Hn'. destruct (py_tp_ok c net c' out s H2 H3 H4 ltac:(lia) H6) as ((l & E1) & E2). cbn [py_loop]. unfold py_tp_not_done. rewrite H1. cbn [negb].
  rewrite E1. cbn [of_res pbind]. rewrite E2. reflexivity.
Qed.

Ltac pn s := intros i Hi; (apply (py_peer_ok _ _ _ _ i s); [reflexivity|lia|try reflexivity; intros; exfalso; lia|]).

Lemma q0 : py_peers C al w 11 (T1 W) (blocks (M1 W) n) (zmap (P0 W) n) = Ret (zmap (P1 W) n, blocks (M2s W) n).
Proof.
  apply (round_1 _ _ _ (M1 W) _ _ _ 239).
  - intros i Hi. eapply dispatch_slice; [|apply rd_blocks; [exact Hi|intros; apply (z_M1 W HW)]].
    unfold tp_peer_msg. change (t_n (T1 W)) with n. destruct (Z.leb_spec n i); [lia|]. reflexivity.
  - reflexivity.
  - pn 0. exact (next_P0 W HW i Hi).
  - lia.
  - intros. apply (z_M2s W HW).
Qed.
Lemma q1 : py_peers C al w 11 (T2 W) (B3 W) (zmap (P1 W) n) = Ret (zmap (P2 W) n, blocks (fun i => blocks (M4 W i) n) n).
Proof.
  pose proof Hn as Hn'. apply (round_1 _ _ _ (fun _ => B3 W) _ _ _ (n * 159)).
  - intros i Hi. eapply (dispatch_slice _ _ _ 0 (175 * n + 111)).
    + unfold tp_peer_msg. change (t_n (T2 W)) with n. destruct (Z.leb_spec n i); [lia|]. reflexivity.
    + apply rd_all. rewrite (z_B3 W HW). lia.
  - reflexivity.
  - pn 1. exact (next_P1 W HW i Hi).
  - lia.
  - intros i Hi. apply zlen_blocks; [lia|]. intros j Hj. apply (z_M4 W HW); assumption.
Qed.
Lemma q2 : py_peers C al w 11 (T3 W) (turned W (M4 W)) (zmap (P2 W) n) = Ret (zmap (P3 W) n, blocks (fun i => blocks (M5 W i) n) n).
Proof.
  pose proof Hn as Hn'. apply (round_1 _ _ _ (fun i => blocks (fun j => M4 W j i) n) _ _ _ (n * 159)).
  - intros i Hi. eapply (dispatch_slice _ _ _ (i * 159 * n) (159 * n)).
    + unfold tp_peer_msg. change (t_n (T3 W)) with n. destruct (Z.leb_spec n i); [lia|]. reflexivity.
    + replace (i * 159 * n) with (i * (n * 159)) by lia. rewrite (Z.mul_comm 159). apply (row_of W HW); [assumption|apply (z_M4 W HW)].
  - reflexivity.
  - pn 2. exact (next_P2 W HW i Hi).
  - lia.
  - intros i Hi. apply zlen_blocks; [lia|]. intros j Hj. apply (z_M5 W HW); assumption.
Qed.
Lemma q3 : py_peers C al w 11 (T4 W) (turned W (M5 W)) (zmap (P3 W) n) = Ret (zmap (P4 W) n, blocks (M6 W) n).
Proof.
  pose proof Hn as Hn'. apply (round_1 _ _ _ (fun i => blocks (fun j => M5 W j i) n) _ _ _ (111 + 32 * t)).
  - intros i Hi. eapply (dispatch_slice _ _ _ (i * 159 * n) (159 * n)).
    + unfold tp_peer_msg. change (t_n (T4 W)) with n. destruct (Z.leb_spec n i); [lia|]. reflexivity.
    + replace (i * 159 * n) with (i * (n * 159)) by lia. rewrite (Z.mul_comm 159). apply (row_of W HW); [assumption|apply (z_M5 W HW)].
  - reflexivity.
  - pn 3. exact (next_P3 W HW i Hi).
  - lia.
  - intros i Hi. apply (z_M6 W HW). assumption.
Qed.
Lemma q4 : py_peers C al w 11 (T5 W) (B7 W) (zmap (P4 W) n) = Ret (zmap (P5 W) n, net5 W).
Proof.
  pose proof Hn as Hn'. apply (round_1 _ _ _ (fun _ => B7 W) _ _ _ (n * 256)).
  - intros i Hi. eapply (dispatch_slice _ _ _ 0 (111 + (111 + 32 * t) * n)).
    + unfold tp_peer_msg. change (t_n (T5 W)) with n. destruct (Z.leb_spec n i); [lia|]. reflexivity.
    + apply rd_all. rewrite (z_B7 W HW). lia.
  - reflexivity.
  - pn 4. exact (next_P4 W HW i Hi).
  - lia.
  - intros i Hi. apply zlen_blocks; [lia|]. intros j Hj. apply (z_M8 W HW); assumption.
Qed.
Lemma q5 : py_peers C al w 11 (T6 W) (turned W (M8 W)) (zmap (P5 W) n) = Ret (zmap (P6 W) n, blocks (M9 W) n).
Proof.
  pose proof Hn as Hn'. apply (round_1 _ _ _ (fun i => blocks (fun j => M8 W j i) n) _ _ _ (112 + n)).
  - intros i Hi. eapply (dispatch_slice _ _ _ (i * n * 256) (n * 256)).
    + unfold tp_peer_msg. change (t_n (T6 W)) with n. destruct (Z.leb_spec n i); [lia|]. reflexivity.
    + replace (i * n * 256) with (i * (n * 256)) by lia. apply (row_of W HW); [assumption|apply (z_M8 W HW)].
  - reflexivity.
  - pn 5. exact (next_P5 W HW i Hi).
  - lia.
  - intros i Hi. apply (z_M9 W HW). assumption.
Qed.
(** nothing from the trusted party *)
Lemma py_in_nil c i : py_in c [] i = Ret [].
Proof. reflexivity. Qed.
Lemma q6 : py_peers C al w 11 (T7 W) (B10 W) (zmap (P6 W) n) = Ret (zmap (P8 W) n, blocks (M19 W) n).
Proof.
  pose proof Hn as Hn'. rewrite (round_0 _ _ _ (fun _ => B10 W) _ (P7 W)).
  - rewrite peers_S by reflexivity. rewrite (pass _ _ (P7 W) (P8 W) (fun _ => []) (M19 W)).
    + cbn [pbind]. rewrite (zlen_blocks _ 143) by (try lia; intros; apply (z_M19 W HW)). destruct (Z.eqb_spec (n * 143) 0); [nia|]. reflexivity.
    + intros i Hi. apply py_in_nil.
    + pn 8. exact (next_P7 W HW i Hi).
  - intros i Hi. eapply (dispatch_slice _ _ _ 0 (msg10_SIZE n)).
    + unfold tp_peer_msg. change (t_n (T7 W)) with n. destruct (Z.leb_spec n i); [lia|]. reflexivity.
    + apply rd_all. rewrite (z_B10 W HW). unfold msg10_SIZE, msg9_SIZE, hdr_SIZE. lia.
  - reflexivity.
  - pn 6. exact (next_P6 W HW i Hi).
Qed.
Lemma q7 : py_peers C al w 11 (T8 W) (B20 W) (zmap (P8 W) n) = Ret (zmap (P9 W) n, blocks (M21 W) n).
Proof.
  pose proof Hn as Hn'. apply (round_1 _ _ _ (fun _ => B20 W) _ _ _ 113).
  - intros i Hi. eapply (dispatch_slice _ _ _ 0 113).
    + unfold tp_peer_msg. change (t_n (T8 W)) with n. destruct (Z.leb_spec n i); [lia|]. reflexivity.
    + apply rd_all. unfold B20. rewrite (zmk W HW). reflexivity.
  - reflexivity.
  - pn 9. exact (next_P8 W HW i Hi).
  - lia.
  - intros i Hi. apply (z_M21 W HW).
Qed.
Lemma q8 : py_peers C al w 11 (T9 W) [] (zmap (P9 W) n) = Ret (zmap (P10 W) n, []).
Proof.
  pose proof Hn as Hn'. rewrite (round_0 _ _ _ (fun _ => []) _ (P10 W)).
  - apply peers_done. reflexivity.
  - intros i Hi. unfold dispatch, tp_peer_msg. change (t_n (T9 W)) with n. destruct (Z.leb_spec n i); [lia|]. reflexivity.
  - reflexivity.
  - pn 10. exact (next_P9 W HW i).
Qed.

Lemma py_loop_run : py_loop C al w 10 (T0 W) (zmap (P0 W) n) [] = Ret (T9 W, zmap (P10 W) n).
Proof.
  Ltac go H q s := erewrite (fun fuel c ps net c' out => loop_S fuel c ps net c' out s); [rewrite q; cbn [pbind]|reflexivity|reflexivity|lia|lia|reflexivity|exact H].
  go (next_T0 W HW) q0 0. go (next_T1 W HW) q1 1. go (next_T2 W HW) q2 2. go (next_T3 W HW) q3 3. go (next_T4 W HW) q4 4. go (next_T5 W HW) q5 5. go (next_T6 W HW) q6 6. go (next_T7 W HW) q7 8.
  go (next_T8 W HW) q8 9. reflexivity.
Qed.
End LOOP.

(** ** Starting *)
Lemma rd_snoc {A} (l : list A) y off len : off + len <= zlen l -> rd (l ++ [y]) off len = rd l off len.
Proof.
  intros H. unfold rd. destruct (Z.ltb_spec off 0); [reflexivity|]. destruct (Z.ltb_spec len 0); [reflexivity|]. cbn [orb]. f_equal. unfold zlen in H.
  rewrite !sub_in_range by (try rewrite app_length; cbn [length]; lia). f_equal. rewrite skipn_app. replace (Z.to_nat off - length l)%nat with 0%nat by lia. cbn [skipn].
  rewrite firstn_app. replace (Z.to_nat len - length (skipn (Z.to_nat off) l))%nat with 0%nat by (rewrite skipn_length; lia). cbn [firstn]. apply app_nil_r.
Qed.
Section START.
Variable C : crypto.
(** the C code reads the 177 bytes of message 0, not the zero byte ctypes appends *)
Lemma start_peer_snoc p eps lt m y now : zlen m = msg0_SIZE -> start_peer C p eps lt (m ++ [y]) now = start_peer C p eps lt m now.
Proof.
  intros Hl. change msg0_SIZE with 177 in Hl. unfold start_peer, recv_msg. rewrite !rd_snoc by (rewrite Hl; vm_compute; discriminate). rewrite !getz_app_l by (rewrite Hl; vm_compute; reflexivity). reflexivity.
Qed.
End START.

Section SESSION.
Variable C : crypto.
Hypothesis HC : crypto_ok C.
Variable al : Z -> bool.
Hypothesis Hal : forall k, al k = true.
Variable w0 : sched.
Variables (addr : Z -> Z) (n t eps : Z) (name : bytes) (lt : Z -> bytes) (sid sk : bytes) (now now' : Z) (pnow : Z -> Z).
Notation x := (py_ceremony C n t eps name lt sid sk now now' pnow).
Notation w := (py_sched w0).
Hypothesis HH : honest C x w.
Hypothesis Haddr : forall i, 0 <= i <= n -> (addr i + addr i mod 32) mod 32 = 0.
Hypothesis Heps : 0 <= eps < 2 ^ 31.
Hypothesis Hlt : forall i, 0 <= i < n -> zlen (lt i) = 64.

Lemma eps_u64 : c_u64 eps = Ret eps.
Proof.
  unfold c_u64, c_int. rewrite (proj2 (Z.leb_le _ _)), (proj2 (Z.ltb_lt eps _)) by lia. cbn [andb pbind]. rewrite Z.mod_small by lia. rewrite (proj2 (Z.ltb_lt eps _)) by lia. reflexivity.
Qed.
Lemma alloc_ok k : 0 <= k -> alloc al k = Ret tt.
Proof. intros H. unfold alloc. rewrite Hal, (proj2 (Z.ltb_ge k 0)) by lia. reflexivity. Qed.

Lemma py_start_peer_ok msg0 i p : 0 <= i < n -> zlen msg0 = msg0_SIZE -> begin_peer C x msg0 i = Ok (Some p) -> p_n C p = n -> p_t C p = t ->
  py_start_peer C al (addr (i + 1)) eps (lt i) msg0 (pnow i) = Ret p.
Proof.
  intros Hi Hl H Pn Pt. pose proof (hp_n C x w HH) as Hn. cbn [h_n h_t py_ceremony] in Hn. unfold py_start_peer, placed. rewrite Haddr by lia. cbn [Z.eqb pbind]. rewrite eps_u64. cbn [pbind].
  assert (E64 : firstn 64 (lt i ++ [x00]) = lt i).
  { specialize (Hlt i Hi). unfold zlen in Hlt. rewrite firstn_app. replace (64 - length (lt i))%nat with 0%nat by lia. rewrite firstn_O, app_nil_r. apply firstn_all2. lia. }
  rewrite E64, start_peer_snoc by exact Hl. unfold begin_peer in H. apply bind_ok in H. destruct H as ([ret p1] & E & H). cbn [h_peer h_peps h_lt h_pnow py_ceremony] in E. rewrite E. cbn [of_res pbind].
  destruct (Z.eqb_spec ret 0) as [->|e]; [|discriminate]. change (check 0) with (Ret tt). cbn [pbind]. rewrite (proj2 (Z.ltb_ge _ _)) by (rewrite Hlt; lia).
  injection H as <-. cbn [p_n p_t peer_set_bufs] in Pn, Pt. rewrite Pn, Pt. rewrite !alloc_ok by nia. cbn [pbind]. reflexivity.
Qed.

Lemma py_begin_ok msg0 : zlen msg0 = msg0_SIZE -> forall is ps, Forall (fun i => 0 <= i < n) is -> begin_peers C x msg0 is = Ok (Some ps) ->
  Forall (fun p => p_n C p = n /\ p_t C p = t) ps -> py_begin_peers C al addr eps lt pnow msg0 is = Ret ps.
Proof.
  intros Hl. induction is as [|i is IH]; intros ps Hi H Hp; cbn [begin_peers py_begin_peers] in *; [injection H as <-; reflexivity|].
  apply Forall_cons_iff in Hi. destruct Hi as (Hi & His). apply bind_ok in H. destruct H as (o & E & H). apply bind_ok in H. destruct H as (r & E' & H).
  destruct o as [p|]; [|discriminate]. destruct r as [l|]; [|discriminate]. injection H as <-. apply Forall_cons_iff in Hp. destruct Hp as ((P1 & P2) & Hp).
  rewrite (py_start_peer_ok msg0 i p Hi Hl E P1 P2). cbn [pbind]. rewrite (IH l His E' Hp). reflexivity.
Qed.

Lemma rows32_ok (f : Z -> bytes) (Hf : forall i, length (f i) = 32%nat) : rows32 (room (zlen (concat (map f (zrange 0 (Z.to_nat n)))) + 1) 32 n) (concat (map f (zrange 0 (Z.to_nat n)))) = map f (zrange 0 (Z.to_nat n)).
Proof.
  pose proof (hp_n C x w HH) as Hn. cbn [h_n h_t py_ceremony] in Hn. set (l := map f (zrange 0 (Z.to_nat n))).
  assert (Ll : length l = Z.to_nat n) by (unfold l; rewrite map_length, zrange_length; reflexivity).
  assert (F : Forall (fun b => length b = 32%nat) l) by (apply Forall_map, Forall_forall; intros; apply Hf).
  assert (Lc : zlen (concat l) = 32 * n).
  { unfold zlen. assert (G : forall l : list bytes, Forall (fun b => length b = 32%nat) l -> length (concat l) = (32 * length l)%nat).
    { induction l0 as [|b l0 IH]; intros G; [reflexivity|]. apply Forall_cons_iff in G. destruct G as (G1 & G2). cbn [concat length]. rewrite app_length, IH, G1 by assumption. lia. }
    rewrite G by exact F. lia. }
  unfold room. cbn [Z.leb]. change (32 <=? 0) with false. cbv iota. rewrite Lc. replace ((32 * n + 1) / 32) with n by (replace (32 * n + 1) with (1 + n * 32) by lia; rewrite Z.div_add by lia; reflexivity).
  rewrite Z.min_id, <- Ll. unfold rows32. pose proof (chunks_concat 32 l [] F) as K. rewrite app_nil_r in K. exact K.
Qed.

(** The program ends where the same session, run by the C functions, ends. *)
Theorem py_tpdkg_run : exists r0 r, begin C x = Ok (Some r0) /\ rounds C w 10 r0 = Ok (Some r) /\
  py_tpdkg C al w0 addr n t eps name lt sid sk now now' pnow = Ret (r_tp C r, r_peers C r) /\
  Forall (fun p => exists p', peer_free C p = Ok p') (r_peers C r).
Proof.
  pose proof (hp_n C x w HH) as Hn. cbn [h_n h_t py_ceremony] in Hn. pose proof (hp_clock C x w HH) as (Hnow & _).
  pose proof (ok_cN C HC) as HN.
  destruct (ok_nz_create (cN C) HN 0 []) as (d0 & D0 & Ds & Dp). pose proof (reach_create (cN C) _ _ _ D0) as R0.
  assert (exists s0 : nz_sess (cN C), True) as (s0 & _).
  { destruct (ok_nz_add (cN C) HN d0 0 (nz_pk (cN C) (nz_static (cN C) d0)) R0 (ok_nz_pk_len (cN C) HN _)) as (d1 & id & E1 & E2 & E3); [rewrite Dp; unfold zlen; cbn [length]; lia|rewrite Dp; intros []|]. pose proof (reach_add (cN C) _ _ _ _ _ R0 (ok_nz_pk_len (cN C) HN _) E1) as R1. rewrite Dp in E3. cbn [app] in E3.
    destruct (ok_nz_chain (cN C) HN d1 d1 id [] [] [] R1 R1) as (si & _); [unfold zlen; cbn [length]; lia|rewrite E3, E2; left; reflexivity|rewrite E3; cbn; constructor; [intros []|constructor]|rewrite E3, E2; left; reflexivity|].
    exists si. exact I. }
  destruct (begins C HC x w HH d0 s0) as (tr0 & B). cbv zeta in B. set (W := W_ C x w d0 s0 tr0) in *. pose proof (W_ok C HC x w HH d0 s0 tr0) as HW. fold W in HW.
  eexists _, _. split; [exact B|]. split; [exact (world_run W HW)|]. cbn [r_tp r_peers]. change (h_n C x) with n in B. change (wn W) with n. split.
  2:{ apply Forall_zmap. intros i Hi. change (peer_free C (P10 W i)) with (foldM (PeerSafe.free_at C) (zrange 0 (Z.to_nat n)) (P10 W i)). apply PeerSafe.free_loop_ok; [lia|].
      intros j Hj. do 2 eexists. split; [exact (getz_zmap (fun j => Live (l_r4 _ (wlk W j i))) n j ltac:(lia))|]. split; [eexists; right; reflexivity|]. split; [exact (getz_zmap (fun j => Live (l_o4 _ (wlk W i j))) n j ltac:(lia))|]. eexists; right; reflexivity. }
  destruct (start_forward C tp_zero eps n t name (zeros 177) sid sk now (ok_cS C HC) (ok_cH C HC)
    ltac:(lia) ltac:(lia) (hp_name C x w HH) (hp_msg0 C x w HH) (hp_sid C x w HH) Hnow) as (c' & msg0 & dst & E & Lm & _).
  unfold begin in B. cbn [h_tp h_eps h_n h_t h_name h_msg0 h_sid h_sk h_now h_com h_enc h_chmax h_pks h_bufs h_lt py_ceremony] in B. rewrite E in B. cbn [bind Z.eqb negb] in B. cbv zeta in B.
  apply bind_ok in B. destruct B as (ops & B' & B). destruct ops as [ps|]; [|discriminate]. apply (f_equal (fun r => match r with Ok (Some r) => Some (r_tp C r, r_peers C r) | _ => None end)) in B. cbn [r_tp r_peers] in B. assert (B1 := f_equal (option_map fst) B). assert (B2 := f_equal (option_map snd) B). cbn [option_map fst snd] in B1, B2. clear B.
  unfold py_tpdkg, py_start_tp, placed. rewrite Haddr by lia. cbn [Z.eqb pbind]. rewrite eps_u64. cbn [pbind]. rewrite !c_u8_small by lia. cbn [pbind]. rewrite E. cbn [of_res pbind]. change (check 0) with (Ret tt). cbn [pbind].
  rewrite !alloc_ok by nia. cbn [pbind].
  rewrite (rows32_ok (fun i => sig_pk (cS C) (lt i))) by (intros; apply (ok_sig_pk_len _ (ok_cS C HC))).
  assert (Er1 : room (n * t * 32) (32 * t) n = Z.to_nat n).
  { unfold room. destruct (Z.leb_spec (32 * t) 0); [lia|]. replace (n * t * 32) with (n * (32 * t)) by lia. rewrite Z.div_mul by lia. f_equal. lia. }
  assert (Er2 : room (n * 32) 32 n = Z.to_nat n).
  { unfold room. change (32 <=? 0) with false. cbv iota. rewrite Z.div_mul by lia. f_equal. lia. }
  rewrite Er1, Er2. apply (f_equal (fun o => match o with Some c => c | None => T0 W end)) in B1. cbv beta iota in B1.
  pose proof E as E'. apply start_tp_exact in E'. assert (Hcn : t_n c' = n) by (rewrite E'; reflexivity). rewrite Hcn in B1. rewrite B1. clear B1.
  apply (f_equal (fun o => match o with Some c => c | None => [] end)) in B2. cbv beta iota in B2. subst ps.
  rewrite (py_begin_ok msg0 Lm _ (zmap (P0 W) n)).
  - cbn [pbind]. exact (py_loop_run W HW al Hal (fun _ _ _ => eq_refl)).
  - apply Forall_forall. intros i Hi. apply zrange_In in Hi. lia.
  - exact B'.
  - apply Forall_zmap. intros i Hi. split; reflexivity.
Qed.

Lemma py_checks_shares shares a buf K : sharing_params K n t a buf -> create_shares K n t a buf = Ok shares -> n <= 254 -> forall qs, quorum t shares qs ->
  py_dkg_reconstruct (map share_bytes qs) = Ret (le_bytes 32 K) /\
  (Forall (fun s => s_value s <> 0) qs -> exists l, py_commits (cR C) qs = Ret l /\
     forall junk, length junk = length qs -> py_thresholdmult (cR C) junk l = Ret (renc (cR C) (rsmul (cR C) K (rbase (cR C))))).
Proof.
  intros SP E Hn' qs Q. pose proof (ok_cR C HC) as HR. pose proof (created _ _ _ _ _ _ SP E) as Es.
  assert (Hn0 : 0 <= n) by (destruct SP as (_ & ? & _); lia).
  assert (Pl : Forall plain qs).
  { apply Forall_forall. intros s Hs. apply (proj1 (Forall_forall _ _) (shares_plain (K :: a) n ltac:(lia))). rewrite <- Es. apply Q. exact Hs. }
  assert (Vl : Forall (fun s => 0 <= s_value s < L) qs).
  { apply Forall_forall. intros s Hs. assert (In s (shares_of (K :: a) n)) as Hi by (rewrite <- Es; apply Q; exact Hs). apply shares_of_In in Hi; [|lia]. destruct Hi as (_ & ->). apply mod_L_range. }
  split; [rewrite py_reconstruct_eq by exact Pl; rewrite (reconstruct_quorum _ _ _ _ _ _ _ SP E Q); reflexivity|]. intros Nz.
  set (v := fun s : share => renc (cR C) (rsmul (cR C) (s_value s mod 2 ^ 255) (rbase (cR C)))).
  assert (Ev : forall s, In s qs -> scalarmult_base (cR C) (s_value s) = (0, v s) /\ oprf_Evaluate (cR C) (s_value s) (renc (cR C) (rbase (cR C))) = (0, Some (v s))).
  { intros s Hs. rewrite Forall_forall in Nz, Vl. specialize (Nz s Hs). specialize (Vl s Hs). unfold scalarmult_base, oprf_Evaluate, scalarmult. rewrite (ok_dec_enc _ HR). fold (v s).
    destruct (bytes_eqb (v s) (zeros 32)) eqn:Ez; [|split; reflexivity]. exfalso. unfold v in Ez. apply (renc_zero_iff _ HR) in Ez. pose proof L_lt_2_255. rewrite Z.mod_small in Ez by lia.
    rewrite (gmul_of_Z _ HR) in Ez by lia. apply (gmul_eq_0 _ HR) in Ez. destruct Ez as [Ez|Ez]; [|exact (ok_base _ HR Ez)]. apply (Fq.of_Z_inj _ 0) in Ez; lia. }
  assert (Ec : forall l, incl l qs -> py_commits (cR C) l = Ret (map (fun s => zb (s_index s) :: v s) l)).
  { induction l as [|s l IH]; intros Hi; [reflexivity|]. apply incl_cons_inv in Hi. destruct Hi as (H1 & H2). cbn [py_commits map]. unfold py_commit. rewrite (proj1 (Ev s H1)). change (check 0) with (Ret tt). cbn [pbind].
    rewrite (IH H2). reflexivity. }
  eexists. split; [apply (Ec qs (incl_refl _))|]. intros junk Hj. unfold py_thresholdmult.
  replace (all_33 _) with true by (symmetry; apply forallb_forall; intros b Hb; apply in_map_iff in Hb; destruct Hb as (s & <- & _); apply Z.eqb_eq; unfold zlen, v; cbn [length]; rewrite (ok_enc_len _ HR); reflexivity).
  cbn [negb]. rewrite map_map. rewrite (thresholdmult_quorum (cR C) HR K n t a buf shares qs _ (renc (cR C) (rbase (cR C))) (rbase (cR C)) junk SP E Q).
  - reflexivity.
  - apply (ok_dec_enc _ HR).
  - clear - Ev Pl. assert (G : forall l, incl l qs -> Forall2 (fun s p => ToprfModel.p_index p = s_index s /\ oprf_Evaluate (cR C) (s_value s) (renc (cR C) (rbase (cR C))) = (0, Some (p_value p))) l (map (fun s => part_of (zb (s_index s) :: v s)) l)).
    { induction l as [|s l IH]; intros Hi; [constructor|]. apply incl_cons_inv in Hi. destruct Hi as (H1 & H2). cbn [map]. constructor; [|apply IH; exact H2]. cbn [part_of ToprfModel.p_index p_value]. split; [|apply Ev; exact H1].
      rewrite bz_zb. apply Z.mod_small. apply (proj1 (Forall_forall _ _) Pl s H1). }
    apply G. apply incl_refl.
  - rewrite map_length. exact Hj.
Qed.

Theorem py_tpdkg_keys : let K := generated_key w0 n in exists c ps,
  py_tpdkg C al w0 addr n t eps name lt sid sk now now' pnow = Ret (c, ps) /\
  tp_not_done c = false /\ t_cheaters c = [] /\ zlen ps = n /\
  Forall (fun p => peer_not_done C p = false /\ p_complaints C p = [] /\ exists p', peer_free C p = Ok p') ps /\
  (exists a buf, sharing_params K n t a buf /\ create_shares K n t a buf = Ok (map (p_share C) ps)) /\
  forall qs, quorum t (map (p_share C) ps) qs ->
    py_dkg_reconstruct (map share_bytes qs) = Ret (le_bytes 32 K) /\
    (Forall (fun s => s_value s <> 0) qs -> exists l, py_commits (cR C) qs = Ret l /\
       forall junk, length junk = length qs -> py_thresholdmult (cR C) junk l = Ret (renc (cR C) (rsmul (cR C) K (rbase (cR C))))).
Proof.
  intros K. pose proof (hp_n C x w HH) as Hn. cbn [h_n h_t py_ceremony] in Hn. destruct py_tpdkg_run as (r0 & r & B & R & E & F).
  destruct (Honest.honest_run C HC x w HH) as (r0' & r' & B' & R' & H1 & H2 & H3 & H4 & H5 & H6 & _). rewrite B in B'. injection B' as <-. rewrite R in R'. injection R' as <-.
  destruct (honest_created C HC x w HH (repeat (mkShare 0 0) (Z.to_nat n))) as (r0' & r' & a & B' & R' & SP & Cr); [rewrite repeat_length; cbn [h_n py_ceremony]; lia|].
  rewrite B in B'. injection B' as <-. rewrite R in R'. injection R' as <-. cbn [h_n h_t py_ceremony] in *.
  exists (r_tp C r), (r_peers C r). split; [exact E|]. split; [exact H1|]. split; [exact H2|]. split; [exact H5|]. split; [|split].
  - apply Forall_forall. intros p Hp. apply In_nth_error in Hp. destruct Hp as (i & Hi). assert (Li : (i < length (r_peers C r))%nat) by (apply nth_error_Some; congruence).
    destruct (H6 (Z.of_nat i)) as (p' & G1 & G2 & _ & G4 & _); [unfold zlen in H5; lia|]. rewrite Nat2Z.id, Hi in G1. injection G1 as <-. split; [exact G2|]. split; [exact G4|].
    apply (proj1 (Forall_forall _ _) F). eapply nth_error_In; eassumption.
  - eexists _, _. split; [exact SP|exact Cr].
  - exact (py_checks_shares _ _ _ _ SP Cr ltac:(lia)).
Qed.
End SESSION.
