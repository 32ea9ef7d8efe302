(** Proofs about the Python bindings: sessions with a trusted party (C58). *)
From Coq Require Import ZArith Lia List Bool.
From Coq.Strings Require Import Byte.
From Verif Require Import Bytes Res Mem Sodium ToprfModel DkgModel WireModel WireSpec TpCrypto TpModel PeerModel TpSpec SafeSpec
  TpControl TpSizes TpAgree TpReports TpSafe TpLog PeerSafe TpComplaints TpStart PyModel PySpec PyProofs.
Import ListNotations.
Open Scope list_scope.
Open Scope Z_scope.

Section SESSION.
Variable C : crypto.

Lemma placed_ret addr u : placed addr = Ret u -> (addr + addr mod 32) mod 32 = 0.
Proof. unfold placed. destruct (Z.eqb_spec ((addr + addr mod 32) mod 32) 0); [auto|discriminate]. Qed.

Ltac pget H := apply pbind_ret in H; let x := fresh "x" in let E := fresh "E" in destruct H as (x & E & H).

(** ** Starting the trusted party *)
Lemma room_rows n t : 0 <= n -> 1 <= t -> room (n * t * 32) (32 * t) n = Z.to_nat n.
Proof.
  intros Hn Ht. unfold room. destruct (Z.leb_spec (32 * t) 0); [lia|]. replace (n * t * 32) with (n * (32 * t)) by ring.
  rewrite Z.div_mul by lia. f_equal. lia.
Qed.
Lemma room_32 n size : 0 <= n -> 32 * n <= size -> room size 32 n = Z.to_nat n.
Proof.
  intros Hn Hs. unfold room. change (32 <=? 0) with false. cbv iota. f_equal. apply Z.min_l. apply Z.div_le_lower_bound; lia.
Qed.

Lemma py_start_tp_params al addr n t eps name lts sid sk now now' c msg :
  py_start_tp C al addr n t eps name lts sid sk now now' = Ret (c, msg) ->
  t_n c = n mod 256 /\ t_t c = t mod 256 /\ 2 <= t_n c <= 128 /\ t_t c < t_n c /\ t_step c = 0 /\ t_complaints c = [] /\ t_cheaters c = [] /\
  t_sid c = sid /\ t_sk c = sk /\ (addr + addr mod 32) mod 32 = 0.
Proof.
  unfold py_start_tp. intros H. pget H. apply placed_ret in E. pget H. pget H. apply c_u8_ret in E1. pget H. apply c_u8_ret in E2.
  pget H. destruct x3 as [[ret c1] m1]. apply of_res_ret in E3. pget H. apply check_ret in E4. subst ret.
  pget H. pget H. pget H. pget H. pget H. pget H. injection H as <- <-.
  apply start_tp_inv in E3. destruct E3 as (A1 & A2 & A3 & A4 & A5 & A6 & A7 & A8 & A9 & A10 & A11 & A12 & _).
  cbn [t_n t_t t_step t_complaints t_cheaters t_sid t_sk tp_set_bufs]. destruct E1 as (-> & _), E2 as (-> & _).
  rewrite A5, A6. repeat split; try assumption; try lia.
Qed.

Lemma py_start_tp_wf al addr n t eps name lts sid sk now now' c msg :
  py_start_tp C al addr n t eps name lts sid sk now now' = Ret (c, msg) ->
  0 <= n < 256 -> 1 <= t < 256 -> zlen sid = 32 -> 32 * n <= zlen (concat lts) ->
  tp_wf c /\ t_n c = n /\ t_t c = t /\ t_chmax c = t * t - 1.
Proof.
  unfold py_start_tp. intros H Hn Ht Hsid Hlt. pget H. pget H. rewrite !c_u8_small in H by lia. cbn [pbind] in H.
  pget H. destruct x1 as [[ret c1] m1]. apply of_res_ret in E1. pget H. apply check_ret in E2. subst ret.
  pget H. pget H. pget H. pget H. pget H. pget H. injection H as <- <-.
  pose proof (start_tp_inv _ _ _ _ _ _ _ _ _ _ _ _ E1) as (A1 & A2 & A3 & A4 & A5 & A6 & _).
  rewrite room_rows by lia. rewrite (room_32 n (n * 32)) by lia. rewrite (room_32 n (zlen (concat lts) + 1)) by lia.
  split; [|cbn [t_n t_t t_chmax tp_set_bufs]; auto].
  eapply tp_wf_start; try exact E1; try assumption; try lia.
  - unfold zlen. rewrite repeat_length. lia.
  - apply Forall_forall. intros r Hr. apply repeat_spec in Hr. subst r. unfold zlen. rewrite repeat_length. lia.
  - change msg8_SIZE with 256. unfold zlen, zeros. rewrite repeat_length, Z2Nat.id by nia. reflexivity.
  - unfold zlen. rewrite repeat_length. lia.
  - unfold zlen, rows32. rewrite map_length, seq_length. lia.
Qed.

(** it returns for all sensible parameters *)
Lemma py_start_tp_returns al addr n t eps name lts sid sk now now' : crypto_ok C ->
  (addr + addr mod 32) mod 32 = 0 -> 0 <= eps < 2 ^ 31 -> 2 <= n <= 128 -> 1 <= t < n -> 1 <= zlen name <= 1024 -> zlen sid = 32 -> is_u64 now ->
  (forall size, al size = true) ->
  exists c msg, py_start_tp C al addr n t eps name lts sid sk now now' = Ret (c, msg) /\ t_eps c = eps.
Proof.
  intros HC Ha He Hn Ht Hname Hsid Hnow Hal. unfold py_start_tp, placed. rewrite Ha. cbn [Z.eqb pbind].
  assert (Ec : c_u64 eps = Ret eps).
  { unfold c_u64, c_int. rewrite (proj2 (Z.leb_le _ _)), (proj2 (Z.ltb_lt eps _)) by lia. cbn [andb pbind].
    rewrite Z.mod_small by lia. rewrite (proj2 (Z.ltb_lt eps _)) by lia. reflexivity. }
  rewrite Ec. cbn [pbind]. rewrite !c_u8_small by lia. cbn [pbind].
  destruct (start_forward C tp_zero eps n t name (zeros 177) sid sk now) as (c1 & m1 & dst & F1 & _);
    try assumption; try lia; try reflexivity; [exact (ok_cS C HC)|exact (ok_cH C HC)|].
  rewrite F1. cbn [of_res pbind]. change (check 0) with (Ret tt). cbn [pbind].
  assert (Al : forall s, 0 <= s -> alloc al s = Ret tt).
  { intros s Hs. unfold alloc. rewrite Hal, (proj2 (Z.ltb_ge s 0)) by lia. reflexivity. }
  rewrite !Al by nia. cbn [pbind]. do 2 eexists. split; [reflexivity|].
  cbn [t_eps tp_set_bufs]. apply start_tp_inv in F1. tauto.
Qed.

(** ** Single calls of the trusted party *)
Lemma py_tp_next_inv al e c msg o c' : py_tp_next C al e c msg = Ret (o, c') ->
  (o = None /\ c' = c /\ (tp_input_size c <> Ok (zlen msg) \/ al (tp_output_size c) = false)) \/
  (tp_input_size c = Ok (zlen msg) /\ al (tp_output_size c) = true /\
   exists ret out, tp_next C e c msg (zeros (Z.to_nat (tp_output_size c))) = Ok (ret, c', out) /\ o = if ret =? 0 then Some out else None).
Proof.
  unfold py_tp_next. intros H. pget H. apply of_res_ret in E. rewrite E.
  destruct (Z.eqb_spec (zlen msg) x) as [Ez|Ez]; cbn [negb] in H.
  2:{ injection H as <- <-. left. repeat split. left. intros HH. injection HH as ->. auto. }
  subst x. destruct (al (tp_output_size c)) eqn:Ea; cbn [negb] in H; [|injection H as <- <-; left; auto].
  pget H. destruct x as [[ret c1] out]. apply of_res_ret in E0. injection H as <- <-. right. split; [reflexivity|]. split; [reflexivity|].
  exists ret, out. auto.
Qed.

Lemma py_tp_call al e c msg o c' : 0 <= t_step c -> py_tp_next C al e c msg = Ret (o, c') ->
  (o = None /\ c' = c /\ (tp_input_size c <> Ok (zlen msg) \/ al (tp_output_size c) = false)) \/
  (tp_input_size c = Ok (zlen msg) /\ al (tp_output_size c) = true /\
   (t_step c < 10 -> t_step c < t_step c') /\ (o = None -> t_step c <> 6 -> tp_not_done c' = false)).
Proof.
  intros Hs H. apply py_tp_next_inv in H. destruct H as [H|(H1 & H2 & ret & out & H3 & H4)]; [left; exact H|right].
  split; [exact H1|]. split; [exact H2|]. split.
  - intros Hl. eapply tp_forward; [|exact H3]. lia.
  - intros Ho H6. destruct (Z.eqb_spec ret 0) as [Er|Er]; [congruence|].
    destruct (tp_error_silent C e c msg _ ret c' out H6 Hs H3 Er) as (Hd & _). exact Hd.
Qed.

(** ** Histories *)
Lemma py_tp_run_bridge calls : forall c outs c', py_tp_run C c calls = Ret (outs, c') ->
  exists calls0 outs0, tp_run C c calls0 = Ok outs0 /\ final c outs0 = c'.
Proof.
  induction calls as [|[[al e] msg] calls IH]; intros c outs c' H; cbn [py_tp_run] in H.
  { injection H as _ <-. exists [], []. split; reflexivity. }
  pget H. destruct x as [o c1]. pget H. destruct x as [os c2]. injection H as _ <-.
  apply IH in E0. destruct E0 as (calls0 & outs0 & R & F).
  apply py_tp_next_inv in E. destruct E as [(_ & -> & _)|(_ & _ & ret & out & E & _)]; [exists calls0, outs0; auto|].
  exists ((e, msg, zeros (Z.to_nat (tp_output_size c))) :: calls0), ((ret, c1, out) :: outs0).
  cbn [tp_run]. rewrite E. cbn [bind]. rewrite R. cbn [bind]. split; [reflexivity|]. rewrite final_cons. exact F.
Qed.

Lemma py_peer_next_inv al e c msg o c' : py_peer_next C al e c msg = Ret (o, c') ->
  (o = None /\ c' = c /\ (peer_input_size C c <> zlen msg \/ al (peer_output_size C c) = false)) \/
  (peer_input_size C c = zlen msg /\ al (peer_output_size C c) = true /\
   exists ret out, peer_next C e c msg (zeros (Z.to_nat (peer_output_size C c))) = Ok (ret, c', out) /\ o = if ret =? 0 then Some out else None).
Proof.
  unfold py_peer_next. intros H.
  destruct (Z.eqb_spec (zlen msg) (peer_input_size C c)) as [Ez|Ez]; cbn [negb] in H.
  2:{ injection H as <- <-. left. repeat split. left. auto. }
  destruct (al (peer_output_size C c)) eqn:Ea; cbn [negb] in H; [|injection H as <- <-; left; auto].
  pget H. destruct x as [[ret c1] out]. apply of_res_ret in E. injection H as <- <-. right. split; [auto|]. split; [reflexivity|].
  exists ret, out. auto.
Qed.

Lemma py_peer_call al e c msg o c' : 0 <= p_step C c -> py_peer_next C al e c msg = Ret (o, c') ->
  (o = None /\ c' = c /\ (peer_input_size C c <> zlen msg \/ al (peer_output_size C c) = false)) \/
  (peer_input_size C c = zlen msg /\ al (peer_output_size C c) = true /\
   (p_step C c < 11 -> p_step C c < p_step C c') /\ (o = None -> peer_not_done C c' = false)).
Proof.
  intros Hs H. apply py_peer_next_inv in H. destruct H as [H|(H1 & H2 & ret & out & H3 & H4)]; [left; exact H|right].
  split; [exact H1|]. split; [exact H2|]. split.
  - intros Hl. eapply peer_forward; [|exact H3]. lia.
  - intros Ho. destruct (Z.eqb_spec ret 0) as [Er|Er]; [congruence|].
    destruct (peer_error_silent C e c msg _ ret c' out H3 Er) as (Hd & _). exact Hd.
Qed.

Lemma py_peer_run_bridge calls : forall c outs c', py_peer_run C c calls = Ret (outs, c') ->
  exists calls0 outs0, peer_run C c calls0 = Ok outs0 /\ final c outs0 = c'.
Proof.
  induction calls as [|[[al e] msg] calls IH]; intros c outs c' H; cbn [py_peer_run] in H.
  { injection H as _ <-. exists [], []. split; reflexivity. }
  pget H. destruct x as [o c1]. pget H. destruct x as [os c2]. injection H as _ <-.
  apply IH in E0. destruct E0 as (calls0 & outs0 & R & F).
  apply py_peer_next_inv in E. destruct E as [(_ & -> & _)|(_ & _ & ret & out & E & _)]; [exists calls0, outs0; auto|].
  exists ((e, msg, zeros (Z.to_nat (peer_output_size C c))) :: calls0), ((ret, c1, out) :: outs0).
  cbn [peer_run]. rewrite E. cbn [bind]. rewrite R. cbn [bind]. split; [reflexivity|]. rewrite final_cons. exact F.
Qed.

(** ** Memory safety of the trusted party *)
Lemma tp_input_size_ok c : tp_wf c -> (t_step c = 7 -> good_complaints (t_n c) (t_complaints c)) -> exists isz, tp_input_size c = Ok isz.
Proof.
  intros W G. pose proof (w_n c W) as Hn. pose proof (w_step c W) as Hs.
  destruct (Z.eq_dec (t_step c) 7) as [E|N7]; [eexists; apply input_size7; auto|].
  assert (A : exists item, tp_input_sizes c = Ok (1, repeat item (Z.to_nat (t_n c)))).
  { unfold tp_input_sizes. destruct (t_step c) as [|p|p]; [eexists; reflexivity| |lia].
    do 4 (destruct p as [p|p|]; try (eexists; reflexivity); try lia). }
  destruct A as (item & A). exists (item * t_n c). apply tp_input_size_all; [lia|exact A].
Qed.

Lemma py_tp_exact c0 calls outs c al r s msg : crypto_ok C -> tp_wf c0 -> t_complaints c0 = [] -> py_tp_run C c0 calls = Ret (outs, c) ->
  (t_step c = 6 -> announced_inside (t_n c) msg) ->
  (py_tp_next C al (mkEnv false r s) c msg = Bad <->
   tp_input_size c = Ok (zlen msg) /\ al (tp_output_size c) = true /\ (t_step c = 2 \/ t_step c = 3) /\
   exists ret c' out, tp_next C (mkEnv true r s) c msg (zeros (Z.to_nat (tp_output_size c))) = Ok (ret, c', out) /\ t_cheaters c' <> t_cheaters c).
Proof.
  intros HC W Hc H H6. apply py_tp_run_bridge in H. destruct H as (calls0 & outs0 & R & F).
  assert (Wc : tp_wf c) by (rewrite <- F; eapply tp_run_wf; eassumption).
  assert (G : good_complaints (t_n c) (t_complaints c)).
  { assert (G0 : good_complaints (t_n c0) (t_complaints c0)) by (rewrite Hc; split; constructor).
    destruct (run_records C calls0 c0 outs0 W G0 R) as (E1 & E2 & _). rewrite F in *. rewrite E1. exact E2. }
  destruct (tp_input_size_ok c Wc (fun _ => G)) as (isz & Ei). unfold py_tp_next. rewrite Ei. cbn [of_res pbind].
  destruct (Z.eqb_spec (zlen msg) isz) as [Ez|Ez]; cbn [negb].
  2:{ split; [discriminate|]. intros (X & _). injection X as X. lia. }
  subst isz. destruct (al (tp_output_size c)); cbn [negb]; [|split; [discriminate|intros (_ & X & _); discriminate]].
  set (out := zeros (Z.to_nat (tp_output_size c))).
  assert (L : exists x, tp_next C (mkEnv true r s) c msg out = Ok x).
  { rewrite <- F in *. eapply tp_safe_history; try eassumption. reflexivity. }
  destruct L as ([[ret c'] o'] & EL).
  destruct (Z.eq_dec (t_step c) 2) as [N2|N2]; [|destruct (Z.eq_dec (t_step c) 3) as [N3|N3]].
  3:{ rewrite tp_log_other in EL by assumption. rewrite EL. cbn [of_res pbind]. split; [discriminate|]. intros (_ & _ & X & _). lia. }
  all: assert (N : t_step c = 2 \/ t_step c = 3) by auto.
  all: destruct (tp_unlogged C r s c msg out ret c' o' N EL) as (U1 & U2).
  all: split; [intros HB; split; [reflexivity|]; split; [reflexivity|]; split; [exact N|]; exists ret, c', o'; split; [exact EL|];
                intros Hq; rewrite (U1 Hq) in HB; discriminate|].
  all: intros (_ & _ & _ & ret2 & c2 & o2 & E2 & Hq); rewrite EL in E2; injection E2 as <- <- <-; rewrite (U2 Hq); reflexivity.
Qed.

(** ** Slices *)
Lemma py_tp_peer_msg_mod c base peer : - 2 ^ 63 <= peer < 2 ^ 64 -> py_tp_peer_msg c base peer = py_tp_peer_msg c base (peer mod 256).
Proof.
  intros Hp. unfold py_tp_peer_msg, c_u8, c_int.
  rewrite (proj2 (Z.leb_le _ peer)), (proj2 (Z.ltb_lt peer _)) by lia. cbn [andb pbind].
  pose proof (Z.mod_pos_bound peer 256 ltac:(lia)). rewrite (proj2 (Z.leb_le _ (peer mod 256))), (proj2 (Z.ltb_lt (peer mod 256) _)) by lia. cbn [andb pbind].
  replace ((peer mod 2 ^ 32) mod 256) with (peer mod 256) by (symmetry; change (2 ^ 32) with (256 * 2 ^ 24); rewrite Z.rem_mul_r, Z.mul_comm, Z.mod_add by lia; apply Z.mod_mod; lia).
  replace (((peer mod 256) mod 2 ^ 32) mod 256) with (peer mod 256) by (rewrite (Z.mod_small (peer mod 256) (2 ^ 32)) by lia; rewrite Z.mod_mod by lia; reflexivity).
  reflexivity.
Qed.

Lemma py_tp_peer_msg_safe c base peer : 0 <= t_n c -> 0 <= t_t c -> py_tp_peer_msg c base peer <> Bad.
Proof.
  intros Hn Ht. unfold py_tp_peer_msg, c_u8, c_int. destruct (_ && _); cbn [pbind]; [|discriminate].
  set (q := (peer mod 2 ^ 32) mod 256). assert (Hq : 0 <= q) by (apply Z.mod_pos_bound; lia).
  unfold tp_peer_msg. destruct (t_n c <=? q); [discriminate|].
  assert (S : forall off len, 0 <= off -> 0 <= len ->
    (let '(ret, m) := if zlen base <? off + len then (2, Some (off, len)) else (0, Some (off, len)) in
     get _ <- check ret ;; match m with None => Ret [] | Some (off, len) => of_res (rd base off len) end) <> Bad).
  { intros off len H1 H2. destruct (Z.ltb_spec (zlen base) (off + len)); [discriminate|]. cbn [pbind check Z.eqb]. rewrite rd_ok by lia. discriminate. }
  change msg1_SIZE with 111 in *. change hdr_SIZE with 111 in *.
  assert (P2 : 0 <= msg2_SIZE) by discriminate. assert (P4 : 0 <= msg4_SIZE) by discriminate. assert (P5 : 0 <= msg5_SIZE) by discriminate.
  assert (P6 : 0 <= msg6_SIZE (t_t c)) by (unfold msg6_SIZE; change hdr_SIZE with 111; nia).
  assert (P8 : 0 <= msg8_SIZE) by discriminate. assert (P10 : 0 <= msg10_SIZE (t_n c)) by (unfold msg10_SIZE, msg9_SIZE; change hdr_SIZE with 111; nia).
  assert (P20 : 0 <= msg20_SIZE) by discriminate.
  destruct (t_prev c) as [|p|p]; [apply S; nia| |discriminate].
  do 4 (destruct p as [p|p|]; try (apply S; nia); try discriminate).
Qed.

(** ** Peers *)
Lemma zlen_rep {A} (x : A) n : 0 <= n -> zlen (repeat x (Z.to_nat n)) = n.
Proof. intros H. unfold zlen. rewrite repeat_length. lia. Qed.

Lemma py_start_peer_fresh al addr eps sk msg0 now c : py_start_peer C al addr eps sk msg0 now = Ret c ->
  peer_fresh C c /\ Forall (fun sl => sl = Null) (p_outs C c) /\ Forall (fun sl => sl = Null) (p_ins C c).
Proof.
  unfold py_start_peer. intros H. pget H. pget H. cbv zeta in H. pget H. destruct x1 as [ret c1]. apply of_res_ret in E1. pget H. apply check_ret in E2. subst ret.
  destruct (_ <? 64); [discriminate|]. pget H. pget H. pget H. pget H. pget H. injection H as <-.
  apply start_peer_inv in E1. destruct E1 as (A1 & A2 & A3 & A4 & A5 & A6 & _).
  set (n := p_n C c1) in *. set (t := p_t C c1) in *.
  assert (N : forall k, Forall (fun sl : slot (nz_sess (cN C)) => sl = Null) (repeat Null k)).
  { intros k. apply Forall_forall. intros r Hr. apply repeat_spec in Hr. exact Hr. }
  assert (N' : forall k, Forall (fun sl : slot (nz_sess (cN C)) => sl = Uninit \/ sl = Null) (repeat Null k)).
  { intros k. eapply Forall_impl; [|apply N]. auto. }
  split; [|split; cbn [p_outs p_ins peer_set_bufs]; apply N].
  split; [|cbn [p_step p_complaints p_my p_outs p_ins peer_set_bufs]; repeat split; try assumption; apply N'].
  constructor; cbn [p_step p_n p_t p_sid p_last p_pks p_npks p_outs p_ins p_com p_shares p_xshares p_cmax p_mymax peer_set_bufs];
    fold n t; rewrite ?zlen_rep by lia; try lia; try assumption.
  apply Forall_forall. intros r Hr. apply repeat_spec in Hr. subst r. apply zlen_rep. lia.
Qed.

(** freeing a peer that has done nothing is defined: unlike in C, the session variables start as NULL *)
Lemma py_start_peer_free al addr eps sk msg0 now c : py_start_peer C al addr eps sk msg0 now = Ret c -> exists c', peer_free C c = Ok c'.
Proof.
  intros H. apply py_start_peer_fresh in H. destruct H as ((W & _) & H1 & H2). apply free_defined; [exact W|].
  split; eapply Forall_impl; try eassumption; intros a ->; exact I.
Qed.

Lemma check_Raise code : check code <> Bad.
Proof. unfold check. destruct (_ =? _); discriminate. Qed.
Lemma pbind_bad {A B} (x : py A) (f : A -> py B) : x <> Bad -> (forall a, x = Ret a -> f a <> Bad) -> pbind x f <> Bad.
Proof. intros H1 H2. destruct x as [a| |]; cbn [pbind]; [apply H2; reflexivity|discriminate|contradiction]. Qed.
Lemma alloc_bad al s : alloc al s <> Bad.
Proof. unfold alloc. destruct (_ || _); discriminate. Qed.

(** the first 143 bytes are read before anything is checked; 176 bytes and the byte after them are enough *)
Lemma start_peer_short c eps sk msg0 now : zlen msg0 < 143 -> start_peer C c eps sk msg0 now = UB.
Proof.
  intros H. unfold start_peer. change hdr_SIZE with 111. rewrite rd_oob by lia. reflexivity.
Qed.
Lemma start_peer_enough c eps sk msg0 now : 177 <= zlen msg0 -> exists x, start_peer C c eps sk msg0 now = Ok x.
Proof.
  intros H. unfold start_peer. change hdr_SIZE with 111. change off_sid with 79. change sid_SIZE with 32. change msg0_SIZE with 177.
  rewrite !rd_ok by lia. cbn [bind].
  match goal with |- context [recv_msg ?s ?b ?o ?l ?m ?f ?t ?p ?i ?e ?l2 ?n] => destruct (recv_msg s b o l m f t p i e l2 n) as [[ret last]|] eqn:Er end.
  - cbn [bind]. destruct (negb _); [eexists; reflexivity|].
    destruct (getz_some msg0 (111 + 64)) as (bn & ->); [lia|]. destruct (getz_some msg0 (111 + 65)) as (bt & ->); [lia|]. cbn [bind].
    destruct (_ <? 2); [eexists; reflexivity|]. destruct (_ <=? _); [eexists; reflexivity|]. destruct (128 <? _); [eexists; reflexivity|].
    eexists; reflexivity.
  - exfalso. destruct (recv_safe C msg0 0 177 0 0 255 (firstn (Z.to_nat 32) (skipn (Z.to_nat 111) msg0)) (firstn (Z.to_nat 32) (skipn (Z.to_nat 79) msg0)) eps 0 now) as (x & y & Ex); try lia. congruence.
Qed.

Lemma py_start_peer_short al addr eps sk msg0 now : (addr + addr mod 32) mod 32 = 0 -> 0 <= eps < 2 ^ 31 -> zlen msg0 < 142 ->
  py_start_peer C al addr eps sk msg0 now = Bad.
Proof.
  intros Ha He Hm. unfold py_start_peer, placed. rewrite Ha. cbn [Z.eqb pbind]. unfold c_u64, c_int.
  rewrite (proj2 (Z.leb_le _ eps)), (proj2 (Z.ltb_lt eps _)) by lia. cbn [andb pbind]. cbv zeta.
  rewrite start_peer_short; [reflexivity|]. rewrite zlen_app. change (zlen [x00]) with 1. lia.
Qed.

Lemma py_start_peer_safe al addr eps sk msg0 now : 176 <= zlen msg0 -> 63 <= zlen sk -> py_start_peer C al addr eps sk msg0 now <> Bad.
Proof.
  intros Hm Hk. unfold py_start_peer, placed. destruct (_ =? 0); cbn [pbind]; [|discriminate].
  unfold c_u64, c_int. destruct (_ && _); cbn [pbind]; [|discriminate]. cbv zeta.
  match goal with |- context [start_peer C ?c ?e ?s ?m ?n] => destruct (start_peer_enough c e s m n) as ([ret c1] & ->) end.
  { rewrite zlen_app. change (zlen [x00]) with 1. lia. }
  cbn [of_res pbind]. apply pbind_bad; [apply check_Raise|]. intros _ _.
  assert (L : zlen (firstn 64 (sk ++ [x00])) = 64).
  { unfold zlen in *. rewrite firstn_length, app_length. cbn [length]. lia. }
  rewrite L. cbn [Z.ltb Z.compare Pos.compare Pos.compare_cont]. change (64 <? 64) with false. cbv iota.
  repeat (apply pbind_bad; [apply alloc_bad|intros _ _]). discriminate.
Qed.

Lemma py_peer_safe c0 calls outs c al e msg : crypto_ok C -> peer_fresh C c0 -> py_peer_run C c0 calls = Ret (outs, c) ->
  (p_step C c = 3 -> drawn (p_t C c) (pe_a e)) ->
  (p_step C c = 3 \/ p_step C c = 4 -> Forall usable (p_outs C c)) ->
  (p_step C c = 5 -> Forall usable (p_ins C c)) ->
  (p_step C c = 6 -> complaints_sane (p_n C c) msg) ->
  py_peer_next C al e c msg <> Bad.
Proof.
  intros HC F H A1 A2 A3 A4. apply py_peer_run_bridge in H. destruct H as (calls0 & outs0 & R & E). subst c.
  unfold py_peer_next. destruct (negb _); [discriminate|]. destruct (negb _); [discriminate|].
  match goal with |- context [peer_next C e ?c ?i ?o] => destruct (peer_safe_history C HC e c0 calls0 outs0 i o F R A1 A2 A3 A4) as ([[ret c'] out] & ->) end.
  discriminate.
Qed.
(** the same statements from the start of a session *)
Lemma py_tp_session_exact al0 addr n t eps name lts sid sk now now' c0 msg0 calls outs c al r s msg : crypto_ok C ->
  py_start_tp C al0 addr n t eps name lts sid sk now now' = Ret (c0, msg0) ->
  0 <= n < 256 -> 1 <= t < 256 -> zlen sid = 32 -> 32 * n <= zlen (concat lts) ->
  py_tp_run C c0 calls = Ret (outs, c) ->
  (t_step c = 6 -> announced_inside (t_n c) msg) ->
  (py_tp_next C al (mkEnv false r s) c msg = Bad <->
   tp_input_size c = Ok (zlen msg) /\ al (tp_output_size c) = true /\ (t_step c = 2 \/ t_step c = 3) /\
   exists ret c' out, tp_next C (mkEnv true r s) c msg (zeros (Z.to_nat (tp_output_size c))) = Ok (ret, c', out) /\ t_cheaters c' <> t_cheaters c).
Proof.
  intros HC Es Hn Ht Hs Hl. pose proof (py_start_tp_wf _ _ _ _ _ _ _ _ _ _ _ _ _ Es Hn Ht Hs Hl) as (Hw & _).
  pose proof (py_start_tp_params _ _ _ _ _ _ _ _ _ _ _ _ _ Es) as (_ & _ & _ & _ & _ & Hc & _).
  apply (py_tp_exact c0); assumption.
Qed.
Lemma py_peer_session_safe al0 addr eps sk msg0 now c0 calls outs c al e msg : crypto_ok C -> py_start_peer C al0 addr eps sk msg0 now = Ret c0 ->
  py_peer_run C c0 calls = Ret (outs, c) ->
  (p_step C c = 3 -> drawn (p_t C c) (pe_a e)) ->
  (p_step C c = 3 \/ p_step C c = 4 -> Forall usable (p_outs C c)) ->
  (p_step C c = 5 -> Forall usable (p_ins C c)) ->
  (p_step C c = 6 -> complaints_sane (p_n C c) msg) ->
  py_peer_next C al e c msg <> Bad.
Proof. intros HC Es. apply (py_peer_safe c0); [exact HC|]. exact (proj1 (py_start_peer_fresh _ _ _ _ _ _ _ Es)). Qed.

End SESSION.
