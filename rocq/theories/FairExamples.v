(** C85 over the toy primitives: four peers, threshold 2; peer 4 deals peer 2 a wrong share, peer 2
    complains, and the keys peer 4 is asked for arrive with a broken signature. *)
From Coq Require Import ZArith Lia List Bool.
From Coq.Strings Require Import Byte.
From Verif Require Import PrimeL Bytes Res Mem Sodium ToprfModel ToprfSpec DkgModel DkgSpec WireModel WireSpec TpCrypto TpModel PeerModel CheaterModel TpRun TpSpec TpControl BlameSpec SafeSpec TpExamples TpRunExamples SafeExamples.
From Verif Require Import GoodSpec GoodExamples FairSpec TpStart BlameExamples.
Import ListNotations.
Open Scope list_scope.
Open Scope Z_scope.

Definition f_bad (k : nat) (r : run toyC) : run toyC :=
  match k with
  | 4%nat => mkRun toyC (r_tp toyC r)
      (firstn 3 (r_peers toyC r) ++ map (fun p => peer_shares_set toyC p (map (fun s => if s_index s =? 2 then mkShare 2 (s_value s + 1) else s) (p_shares toyC p))) (skipn 3 (r_peers toyC r)))
      (r_net toyC r)
  | 7%nat => mkRun toyC (r_tp toyC r) (r_peers toyC r) (patch 0 [x00; x01; x02] (r_net toyC r))
  | _ => r
  end.
Definition f_log : list (bytes * list bytes) := Eval vm_compute in g_rec f_bad 9 0 g_start.
Definition f_calls : list tp_call :=
  map (fun x => (d_env_ (fst (fst x)), snd (fst x), zeros (snd x)))
    (combine (combine [0; 1; 2; 3; 4; 5; 6; 7] (map fst f_log)) [444; 811; 2544; 2544; 811; 4096; 575; 0]%nat).
Definition f_pcalls (i : Z) : list peer_call :=
  let m k := nth (Z.to_nat i) (nth k (map snd f_log) []) [] in
  map (fun x => (d_penv i (fst (fst x)), snd (fst x), zeros (snd x)))
    (combine (combine [0; 1; 2; 3; 4; 5; 6; 7] [m 0; m 1; m 2; m 3; m 4; m 5; m 6; []]%nat) [239; 636; 636; 175; 1024; 116; 0; 0]%nat).

(** the conditions, as computations *)
Definition arrives_b (k : Z) (calls : list tp_call) (outs : list (Z * tp * bytes)) (pouts : list (Z * peer toyC * bytes)) (j : nat) : bool :=
  match nth_error outs (pred j), nth_error calls j, nth_error pouts (read_in j) with
  | Some (r, c', _), Some (_, input, _), Some (r', _, w) => (r =? 0) && (r' =? 0) &&
      match tp_input_sizes c' with
      | Ok (_, sizes) => match getz sizes k with Ok size => g_eq (rd input (fold_right Z.add 0 (firstn (Z.to_nat k) sizes)) size) w | UB => false end
      | UB => false
      end
  | _, _, _ => false
  end.
Lemma arrives_b_ok k calls outs pouts j : arrives_b k calls outs pouts j = true -> arrives toyC k calls outs pouts j.
Proof.
  unfold arrives_b. intros H. destruct (nth_error outs (pred j)) as [[[r c'] out']|] eqn:E1; [|discriminate]. destruct (nth_error calls j) as [[[e input] out]|] eqn:E2; [|discriminate].
  destruct (nth_error pouts (read_in j)) as [[[r' p'] w]|] eqn:E3; [|discriminate]. apply andb_true_iff in H. destruct H as (H & H3). apply andb_true_iff in H. destruct H as (H1 & H2).
  apply Z.eqb_eq in H1, H2. subst r r'. destruct (tp_input_sizes c') as [[one sizes]|] eqn:E4; [|discriminate]. destruct (getz sizes k) as [size|] eqn:E5; [|discriminate]. apply g_eq_ok in H3.
  exists c', out', e, input, out, p', w, one, sizes, size. repeat split; assumption.
Qed.
Fixpoint paced_b (window prev : Z) (l : list Z) : bool :=
  (prev + window <? 2 ^ 64) && match l with [] => true | x :: l' => (prev <=? x) && (x <=? prev + window) && paced_b window x l' end.
Lemma paced_b_ok window l : forall prev, paced_b window prev l = true -> paced window prev l.
Proof.
  induction l as [|x l IH]; intros prev H; cbn [paced_b paced] in *; apply andb_true_iff in H; destruct H as (H1 & H); apply Z.ltb_lt in H1; (split; [exact H1|]); [exact I|].
  apply andb_true_iff in H. destruct H as (H & H3). apply andb_true_iff in H. destruct H as (H2 & H4). apply Z.leb_le in H2, H4. split; [lia|]. apply IH. exact H3.
Qed.
Definition along_b (k : Z) (outs : list (Z * tp * bytes)) (pouts : list (Z * peer toyC * bytes)) : bool :=
  forallb (fun o => fst (fst o) =? 0) pouts && forallb (gets_b k outs (f_pcalls k)) (seq 0 7) && forallb (arrives_b k f_calls outs pouts) (seq 1 7).
Lemma clock_pf i e inp o j : In (e, inp, o) (f_pcalls i) -> is_u64 (pe_s e j).
Proof.
  intros H. unfold f_pcalls in H. cbv zeta in H. apply in_map_iff in H. destruct H as ([[s a] z] & E & H). cbn [fst snd] in E. injection E as <- <- <-.
  apply in_combine_l in H. apply in_combine_l in H. cbn [d_penv pe_s]. unfold is_u64, tx_now. cbn [In] in H. intuition (subst; lia).
Qed.
Lemma clock_tf e inp o j : In (e, inp, o) f_calls -> is_u64 (e_s e j).
Proof.
  intros H. unfold f_calls in H. apply in_map_iff in H. destruct H as ([[s a] z] & E & H). cbn [fst snd] in E. injection E as <- <- <-.
  apply in_combine_l in H. apply in_combine_l in H. cbn [d_env_ d_sched s_tp e_s]. unfold is_u64, tx_now. cbn [In] in H. intuition (subst; lia).
Qed.
Lemma f_along outs i pouts : In i [0; 1; 2] -> peer_run toyC (g_peer i) (f_pcalls i) = Ok pouts -> along_b i outs pouts = true ->
  alongside toyC g_tp f_calls outs i (g_peer i) (f_pcalls i) pouts.
Proof.
  intros Hi R H. unfold along_b in H. apply andb_true_iff in H. destruct H as (H & H3). apply andb_true_iff in H. destruct H as (H1 & H2).
  assert (F : forall j, In j [0; 1; 2] -> peer_fresh toyC (g_peer j) /\ (p_n toyC (g_peer j) = 4 /\ p_t toyC (g_peer j) = 2) /\ (p_sid toyC (g_peer j) = t_sid g_tp /\ p_transcript toyC (g_peer j) = t_transcript g_tp) /\
    (getz (t_last g_tp) j = Ok (tx_now - 100) /\ paced_b (t_eps g_tp) (tx_now - 100) (stamps (t_n g_tp) 0 (f_pcalls j)) = true)).
  { intros j [<-|[<-|[<-|[]]]]; (split; [apply fresh_b_ok; vm_compute; reflexivity|split; [split; vm_compute; reflexivity|split; split; vm_compute; reflexivity]]). }
  destruct (F i Hi) as (F1 & (F2 & F3) & (F4 & F5) & F6 & F7). constructor.
  - change (t_n g_tp) with 4. cbn [In] in Hi. lia.
  - exact F1.
  - exact F2.
  - exact F3.
  - exact F4.
  - exact F5.
  - exact R.
  - apply all_0. exact H1.
  - intros e inp o j. apply clock_pf.
  - intros e inp o E. unfold f_pcalls in E. cbn [combine map nth_error fst snd] in E. injection E as <- _ _. rewrite F3. cbn [d_penv pe_a]. split; [reflexivity|].
    pose proof Fq.L_gt_65536. constructor; [|constructor; [|constructor]]; unfold random_scalar; cbn [In] in Hi; lia.
  - intros s Hs _. apply gets_b_ok. apply (proj1 (forallb_forall _ _) H2). apply in_seq. lia.
  - intros j Hj. apply arrives_b_ok. apply (proj1 (forallb_forall _ _) H3). apply in_seq. assert (El : length f_calls = 8%nat) by reflexivity. lia.
  - exists (tx_now - 100). split; [exact F6|]. split; [unfold tx_now; lia|]. apply paced_b_ok. exact F7.
Qed.
Lemma f_session before last : tp_run toyC g_tp f_calls = Ok (before ++ [last]) -> forallb (fun o => fst (fst o) =? 0) before = true -> session toyC g_tp f_calls before last.
Proof.
  intros R H. constructor.
  - apply wf_of_b. vm_compute. reflexivity.
  - vm_compute. reflexivity.
  - vm_compute. reflexivity.
  - vm_compute. reflexivity.
  - vm_compute. discriminate.
  - exact R.
  - assert (El : length f_calls = 8%nat) by reflexivity. lia.
  - apply all_0. exact H.
  - intros e inp o j. apply clock_tf.
Qed.
Definition f_all : res (list (Z * tp * bytes) * (list (Z * peer toyC * bytes) * list (Z * peer toyC * bytes))) :=
  do outs <- tp_run toyC g_tp f_calls ;;
  do p1 <- peer_run toyC (g_peer 1) (f_pcalls 1) ;;
  do p2 <- peer_run toyC (g_peer 2) (f_pcalls 2) ;;
  Ok (outs, (p1, p2)).
Definition f_checks (x : list (Z * tp * bytes) * (list (Z * peer toyC * bytes) * list (Z * peer toyC * bytes))) : bool * (Z * Z * list Z * list (Z * Z * Z * Z)) :=
  let '(outs, (p1, p2)) := x in
  let z := last outs (0, g_tp, []) in
  (forallb (fun o => fst (fst o) =? 0) (removelast outs) && along_b 1 outs p1 && along_b 2 outs p2,
   (zlen outs, fst (fst z), t_complaints (snd (fst z)), map (fun ch => (ch_step ch, ch_error ch, ch_peer ch, ch_other ch)) (t_cheaters (snd (fst z))))).
(** peers 2 and 3; peer 2 is blamed, for its own complaint; peer 3 is not *)
Lemma C85_example : exists c calls before ret c' out' (p1 : peer toyC) pcalls1 pouts1 (p2 : peer toyC) pcalls2 pouts2,
  let outs := before ++ [(ret, c', out')] in
  crypto_ok toyC /\ session toyC c calls before (ret, c', out') /\
  alongside toyC c calls outs 1 p1 pcalls1 pouts1 /\ alongside toyC c calls outs 2 p2 pcalls2 pouts2 /\
  t_n c = 4 /\ length before = 7%nat /\ ret = 3 /\ t_complaints c' = [2 * 256 + 4] /\
  map (fun ch => (ch_step ch, ch_error ch, ch_peer ch, ch_other ch)) (t_cheaters c') = [(18, 32 + 6, 4, 254); (18, 7, 2, 4)].
Proof.
  destruct (run_ok f_all f_checks (true, (8, 3, [2 * 256 + 4], [(18, 32 + 6, 4, 254); (18, 7, 2, 4)]))) as (x & E & H); [vm_compute; reflexivity|].
  destruct x as (outs & (q1 & q2)). unfold f_all in E. apply bind_ok in E. destruct E as (o & E0 & E). apply bind_ok in E. destruct E as (r1 & E1 & E). apply bind_ok in E. destruct E as (r2 & E2 & E).
  injection E as -> -> ->. unfold f_checks in H. cbv zeta in H. apply pair_equal_spec in H. destruct H as (H & HZ). apply pair_equal_spec in HZ. destruct HZ as (HZ & H4).
  apply pair_equal_spec in HZ. destruct HZ as (HZ & H3). apply pair_equal_spec in HZ. destruct HZ as (H1 & H2).
  apply andb_true_iff in H. destruct H as (H & A2). apply andb_true_iff in H. destruct H as (Hb & A1).
  assert (Ne : outs <> []) by (intros ->; discriminate H1).
  pose proof (app_removelast_last (0, g_tp, []) Ne) as Eo. set (z := last outs (0, g_tp, [])) in *. set (bf := removelast outs) in *. destruct z as [[ret c'] out']. cbn [fst snd] in H2, H3, H4.
  exists g_tp, f_calls, bf, ret, c', out', (g_peer 1), (f_pcalls 1), q1, (g_peer 2), (f_pcalls 2), q2. cbv zeta. rewrite <- Eo.
  split; [exact toyC_ok|]. split; [apply f_session; [rewrite <- Eo; exact E0|exact Hb]|]. split; [apply f_along; [cbn; auto|exact E1|exact A1]|]. split; [apply f_along; [cbn; auto|exact E2|exact A2]|].
  split; [reflexivity|]. split; [|split; [exact H2|split; [exact H3|exact H4]]].
  rewrite Eo in H1. unfold zlen in H1. rewrite app_length in H1. cbn [length] in H1. lia.
Qed.

(** starting, over the toy primitives *)
Lemma C85_start_example : exists c0 eps n t name buf sid sk now c msg0 com (enc : bytes) chmax pks lt (p0 : peer toyC) peps plt pnow p1 ppks npks (outs ins : list (slot (nz_sess (cN toyC)))) (shares xshares : list share) pcom,
  crypto_ok toyC /\ start_tp toyC c0 eps n t name buf sid sk now = Ok (0, c, msg0) /\ 1 <= t /\ zlen sid = 32 /\ is_u64 now /\
  zlen com = n /\ Forall (fun row : list bytes => zlen row = t) com /\ zlen enc = n * n * msg8_SIZE /\ 0 <= chmax /\ zlen (A := bytes) pks = n /\ zlen (A := bytes) lt = n /\
  start_peer toyC p0 peps plt msg0 pnow = Ok (0, p1) /\
  zlen (A := bytes) ppks = n /\ zlen (A := bytes) npks = n /\ zlen outs = n /\ zlen ins = n /\ zlen shares = n /\ zlen xshares = n /\ zlen pcom = n /\ Forall (fun row : list bytes => zlen row = t) pcom /\
  Forall (fun sl => sl = Uninit \/ sl = Null) outs /\ Forall (fun sl => sl = Uninit \/ sl = Null) ins /\ n = 3 /\ t = 2.
Proof.
  destruct C45_example as (c & msg0 & E & S1 & U & F).
  destruct (parameters_agree toyC d_blank 3600 3 2 [x70] (zeros (Z.to_nat msg0_SIZE)) tx_sid tx_sk tx_now c msg0 d_pblank 3600 (d_lt 1) (tx_now + 1) toyC_ok E ltac:(lia) S1 U F) as (p1 & E1 & _).
  exists d_blank, 3600, 3, 2, [x70], (zeros (Z.to_nat msg0_SIZE)), tx_sid, tx_sk, tx_now, c, msg0, (repeat [[]; []] 3), (zeros (9 * Z.to_nat msg8_SIZE)), 5, [[]; []; []], [[]; []; []],
    d_pblank, 3600, (d_lt 1), (tx_now + 1), p1, [[]; []; []], [[]; []; []], [Uninit; Uninit; Uninit], [Null; Null; Null], (repeat (mkShare 0 0) 3), (repeat (mkShare 0 0) 3), (repeat [[]; []] 3).
  split; [exact toyC_ok|]. split; [exact E|]. split; [lia|]. split; [exact S1|]. split; [exact U|]. split; [reflexivity|]. split; [repeat constructor|]. split; [reflexivity|]. split; [lia|].
  split; [reflexivity|]. split; [reflexivity|]. split; [exact E1|]. repeat (split; [reflexivity|]). split; [repeat constructor|]. split; [repeat (constructor; [left; reflexivity|]); constructor|].
  split; [repeat (constructor; [right; reflexivity|]); constructor|]. split; reflexivity.
Qed.
