(** Concrete cases for the property theorems about memory safety and logging (C32, C33, C49). *)
From Coq Require Import ZArith Lia List Bool.
From Coq.Strings Require Import Byte.
From Verif Require Import Bytes Res Mem Sodium ToprfModel DkgModel WireModel TpCrypto TpModel PeerModel TpRun TpSpec SafeSpec TpControl PeerSafe TpExamples TpRunExamples.
Import ListNotations.
Open Scope list_scope.
Open Scope Z_scope.

(** the first calls of the run of TpRunExamples.v, and the state they lead to *)
Definition s_after (k : nat) : tp := match tp_run toyC (d_bufs d_c1) (firstn k d_calls) with Ok l => final (d_bufs d_c1) l | UB => d_blank end.
Definition s_tp_2 : tp := Eval vm_compute in s_after 2.
Lemma s_run k c : match tp_run toyC (d_bufs d_c1) (firstn k d_calls) with Ok l => Some (final (d_bufs d_c1) l) | UB => None end = Some c ->
  exists outs, tp_run toyC (d_bufs d_c1) (firstn k d_calls) = Ok outs /\ final (d_bufs d_c1) outs = c.
Proof. apply (run_ok _ (final (d_bufs d_c1))). Qed.
Lemma s_run_2 : exists outs, tp_run toyC (d_bufs d_c1) (firstn 2 d_calls) = Ok outs /\ final (d_bufs d_c1) outs = s_tp_2.
Proof. apply s_run. vm_compute. reflexivity. Qed.
Lemma s_run_6 : exists outs, tp_run toyC (d_bufs d_c1) (firstn 6 d_calls) = Ok outs /\ final (d_bufs d_c1) outs = d_tp_6.
Proof. apply s_run. vm_compute. reflexivity. Qed.

(** the first of the messages collected in step 2 carries a wrong message number *)
Definition s_net_2 : bytes := patch 64 [x09] d_net_2.
Definition s_quiet (e : env) : env := mkEnv false (e_r e) (e_s e).
Definition s_loud (e : env) : env := mkEnv true (e_r e) (e_s e).

Lemma C32_log_refutation : exists C e c0 calls outs input out, crypto_ok C /\ tp_wf c0 /\ t_step c0 = 0 /\ t_complaints c0 = [] /\
  tp_run C c0 calls = Ok outs /\ tp_input_size (final c0 outs) = Ok (zlen input) /\ zlen out = tp_output_size (final c0 outs) /\
  e_log e = false /\ tp_next C e (final c0 outs) input out = UB.
Proof.
  destruct s_run_2 as (outs & E & Ef). exists toyC, (s_quiet (d_env_ 2)), (d_bufs d_c1), (firstn 2 d_calls), outs, s_net_2, (d_out_ s_tp_2).
  rewrite Ef. split; [exact toyC_ok|]. split; [apply wf_of_b; vm_compute; reflexivity|]. split; [vm_compute; reflexivity|]. split; [vm_compute; reflexivity|].
  split; [exact E|]. split; [vm_compute; reflexivity|]. split; [vm_compute; reflexivity|]. split; [reflexivity|]. vm_compute. reflexivity.
Qed.

(** the last complaint message announces eight accused peers *)
Definition s_net_6 : bytes := patch 341 [x08] d_net_6.
Lemma C32_count_refutation : exists C e c0 calls outs input out, crypto_ok C /\ tp_wf c0 /\ t_step c0 = 0 /\ t_complaints c0 = [] /\
  tp_run C c0 calls = Ok outs /\ tp_input_size (final c0 outs) = Ok (zlen input) /\ zlen out = tp_output_size (final c0 outs) /\
  e_log e = true /\ t_step (final c0 outs) = 6 /\ tp_next C e (final c0 outs) input out = UB.
Proof.
  destruct s_run_6 as (outs & E & Ef). exists toyC, (s_loud (d_env_ 6)), (d_bufs d_c1), (firstn 6 d_calls), outs, s_net_6, (d_out_ d_tp_6).
  rewrite Ef. split; [exact toyC_ok|]. split; [apply wf_of_b; vm_compute; reflexivity|]. split; [vm_compute; reflexivity|]. split; [vm_compute; reflexivity|].
  split; [exact E|]. split; [vm_compute; reflexivity|]. split; [vm_compute; reflexivity|]. split; [reflexivity|]. split; vm_compute; reflexivity.
Qed.

Lemma C32_example : exists e c0 calls outs input out c' out', crypto_ok toyC /\ tp_wf c0 /\ t_complaints c0 = [] /\ tp_run toyC c0 calls = Ok outs /\
  t_step (final c0 outs) = 6 /\ announced_inside (t_n (final c0 outs)) input /\
  tp_next toyC e (final c0 outs) input out = Ok (0, c', out') /\ t_complaints c' <> [].
Proof.
  destruct s_run_6 as (outs & E & Ef).
  destruct (run_ok (tp_next toyC (d_env_ 6) d_tp_6 d_complain (d_out_ d_tp_6)) (fun o => (fst (fst o), match t_complaints (snd (fst o)) with [] => false | _ => true end)) (0, true))
    as ([[ret c'] out'] & E2 & H); [vm_compute; reflexivity|]. cbn [fst snd] in H. injection H as -> H.
  exists (d_env_ 6), (d_bufs d_c1), (firstn 6 d_calls), outs, d_complain, (d_out_ d_tp_6), c', out'. rewrite Ef.
  split; [exact toyC_ok|]. split; [apply wf_of_b; vm_compute; reflexivity|]. split; [vm_compute; reflexivity|]. split; [exact E|]. split; [vm_compute; reflexivity|].
  split.
  { intros i d Hi Hd. change (t_n d_tp_6) with 3 in *. change (msg9_SIZE 3) with 115 in *. change (zlen d_complain) with 345.
    assert (D : i = 0 \/ i = 1 \/ i = 2) by lia. destruct D as [D|[D|D]]; subst i; vm_compute in Hd; injection Hd as <-; vm_compute; reflexivity. }
  split; [exact E2|]. intros Hn. rewrite Hn in H. discriminate.
Qed.

(** a step without logging: nobody recorded, and somebody recorded *)
Lemma C32_unlogged_example : exists c r s input input' out c1 o1 c2 o2, t_step c = 2 /\
  tp_next toyC (mkEnv true r s) c input out = Ok (0, c1, o1) /\ t_cheaters c1 = t_cheaters c /\
  tp_next toyC (mkEnv true r s) c input' out = Ok (6, c2, o2) /\ t_cheaters c2 <> t_cheaters c.
Proof.
  destruct (run_ok (tp_next toyC (s_loud (d_env_ 2)) s_tp_2 d_net_2 (d_out_ s_tp_2)) (fun o => (fst (fst o), t_cheaters (snd (fst o)))) (0, [])) as ([[r1 c1] o1] & E1 & H1); [vm_compute; reflexivity|].
  destruct (run_ok (tp_next toyC (s_loud (d_env_ 2)) s_tp_2 s_net_2 (d_out_ s_tp_2)) (fun o => (fst (fst o), zlen (t_cheaters (snd (fst o))))) (6, 1)) as ([[r2 c2] o2] & E2 & H2); [vm_compute; reflexivity|].
  cbn [fst snd] in H1, H2. injection H1 as -> H1. injection H2 as -> H2.
  exists s_tp_2, (e_r (d_env_ 2)), (e_s (d_env_ 2)), d_net_2, s_net_2, (d_out_ s_tp_2), c1, o1, c2, o2. split; [reflexivity|]. split; [exact E1|]. split; [exact H1|]. split; [exact E2|].
  intros Hn. rewrite Hn in H2. discriminate.
Qed.

Lemma C49_refutation : exists C r s c input out ret c' out', crypto_ok C /\ tp_wf c /\ tp_input_size c = Ok (zlen input) /\ zlen out = tp_output_size c /\
  tp_next C (mkEnv true r s) c input out = Ok (ret, c', out') /\ tp_next C (mkEnv false r s) c input out = UB.
Proof.
  destruct (run_ok (tp_next toyC (s_loud (d_env_ 2)) s_tp_2 s_net_2 (d_out_ s_tp_2)) (fun o => fst (fst o)) 6) as ([[r2 c2] o2] & E2 & H2); [vm_compute; reflexivity|].
  exists toyC, (e_r (d_env_ 2)), (e_s (d_env_ 2)), s_tp_2, s_net_2, (d_out_ s_tp_2), r2, c2, o2. split; [exact toyC_ok|]. split; [apply wf_of_b; vm_compute; reflexivity|].
  split; [vm_compute; reflexivity|]. split; [vm_compute; reflexivity|]. split; [exact E2|]. vm_compute. reflexivity.
Qed.
Definition s_peer_3 : peer toyC := ltac:(
  let t := eval vm_compute in (let q := d_peer 3 1 in (p_step toyC q, p_prev toyC q, p_sid toyC q, p_n toyC q, p_t toyC q, p_index toyC q, p_lt_sk toyC q, p_sk toyC q, p_noise_sk toyC q, p_tp_pk toyC q, p_tp_last toyC q, p_last toyC q, p_eps toyC q, p_pks toyC q, p_npks toyC q, p_dev toyC q, p_outs toyC q, p_ins toyC q, p_com toyC q, p_shares toyC q, p_xshares toyC q, p_complaints toyC q, p_cmax toyC q, p_my toyC q, p_mymax toyC q, p_transcript toyC q, p_share toyC q)) in
  match t with (?x0, ?x1, ?x2, ?x3, ?x4, ?x5, ?x6, ?x7, ?x8, ?x9, ?x10, ?x11, ?x12, ?x13, ?x14, ?x15, ?x16, ?x17, ?x18, ?x19, ?x20, ?x21, ?x22, ?x23, ?x24, ?x25, ?x26) =>
    exact (mkPeer toyC x0 x1 x2 x3 x4 x5 x6 x7 x8 x9 x10 x11 x12 x13 x14 x15 x16 x17 x18 x19 x20 x21 x22 x23 x24 x25 x26) end).
Lemma C49_peer_example : exists (p : peer toyC) e input out p' out', outs_known toyC p /\ p_step toyC p = 3 /\ peer_next toyC e p input out = Ok (0, p', out').
Proof.
  destruct (run_ok (peer_next toyC (d_penv 1 3) s_peer_3 d_pin_3 (d_pout_ s_peer_3)) (fun o => fst (fst o)) 0) as ([[r2 c2] o2] & E2 & H2); [vm_compute; reflexivity|].
  cbn [fst] in H2. subst r2. exists s_peer_3, (d_penv 1 3), d_pin_3, (d_pout_ s_peer_3), c2, o2. split; [intros i s d _ _; reflexivity|]. split; [reflexivity|]. exact E2.
Qed.

(** ** C33 *)
Definition ub {X} (r : res X) : bool := match r with UB => true | Ok _ => false end.
Lemma ub_eq {X} (r : res X) : ub r = true -> r = UB.
Proof. destruct r; [discriminate|reflexivity]. Qed.
Definition usable_b {A} (sl : slot A) : bool := match sl with Live _ | Null => true | Uninit | Freed => false end.
Lemma usable_all {A} (l : list (slot A)) : forallb usable_b l = true -> Forall usable l.
Proof. intros H. apply Forall_forall. intros x Hx. apply (proj1 (forallb_forall _ _) H) in Hx. destruct x; try discriminate; exact I. Qed.
Definition freed_b {A} (sl : slot A) : bool := match sl with Freed => true | _ => false end.
Lemma freed_all {A} (l : list (slot A)) : forallb freed_b l = true -> Forall (fun sl => sl = Freed) l.
Proof. intros H. apply Forall_forall. intros x Hx. apply (proj1 (forallb_forall _ _) H) in Hx. destruct x; try discriminate; reflexivity. Qed.
Definition all_ok (outs : list (Z * peer toyC * bytes)) : bool := forallb (fun o => fst (fst o) =? 0) outs.
Lemma all_ok_eq outs : all_ok outs = true -> Forall (fun o => fst (fst o) = 0) outs.
Proof. intros H. apply Forall_forall. intros o Ho. apply Z.eqb_eq. exact (proj1 (forallb_forall _ _) H o Ho). Qed.
(** the second peer after starting *)
Definition s_peer_0 : peer toyC := d_pbufs (d_p1 1).
Definition wf_b (c : peer toyC) : bool :=
  (0 <=? p_step toyC c) && (2 <=? p_n toyC c) && (p_n toyC c <=? 128) && (1 <=? p_t toyC c) && (p_t toyC c <? p_n toyC c) && (zlen (p_sid toyC c) =? 32) &&
  (zlen (p_last toyC c) =? p_n toyC c) && (zlen (p_pks toyC c) =? p_n toyC c) && (zlen (p_npks toyC c) =? p_n toyC c) && (zlen (p_outs toyC c) =? p_n toyC c) &&
  (zlen (p_ins toyC c) =? p_n toyC c) && (zlen (p_com toyC c) =? p_n toyC c) && forallb (fun row => zlen row =? p_t toyC c) (p_com toyC c) &&
  (zlen (p_shares toyC c) =? p_n toyC c) && (zlen (p_xshares toyC c) =? p_n toyC c) && (p_cmax toyC c =? p_n toyC c * p_n toyC c) && (p_mymax toyC c =? p_n toyC c).
Lemma wf_b_ok c : wf_b c = true -> peer_wf toyC c.
Proof.
  unfold wf_b. rewrite !andb_true_iff, !Z.leb_le, !Z.ltb_lt, !Z.eqb_eq. intros H. decompose [and] H. clear H. constructor; try lia; try assumption.
  apply Forall_forall. intros r Hr. apply Z.eqb_eq. match goal with Q : forallb _ _ = true |- _ => exact (proj1 (forallb_forall _ _) Q r Hr) end.
Qed.
Definition fresh_b (c : peer toyC) : bool := wf_b c && (p_step toyC c =? 0) && (zlen (p_complaints toyC c) =? 0) && (zlen (p_my toyC c) =? 0) &&
  forallb (fun sl => match sl with Uninit | Null => true | _ => false end) (p_outs toyC c) && forallb (fun sl => match sl with Uninit | Null => true | _ => false end) (p_ins toyC c).
Lemma fresh_b_ok c : fresh_b c = true -> peer_fresh toyC c.
Proof.
  assert (Q : forall A (l : list (slot A)), forallb (fun sl => match sl with Uninit | Null => true | _ => false end) l = true -> Forall (fun sl => sl = Uninit \/ sl = Null) l).
  { intros A l H. apply Forall_forall. intros x Hx. apply (proj1 (forallb_forall _ _) H) in Hx. destruct x; try discriminate; auto. }
  unfold fresh_b. rewrite !andb_true_iff. intros (((((H1 & H2) & H3) & H4) & H5) & H6). apply Z.eqb_eq in H2, H3, H4. apply zlen_0 in H3, H4.
  split; [apply wf_b_ok; exact H1|]. auto 10.
Qed.
Lemma s_peer_0_fresh : peer_fresh toyC s_peer_0.
Proof. apply fresh_b_ok. vm_compute. reflexivity. Qed.

(** one byte of the body of the first message delivered in step 3 is wrong *)
Definition s_pin_3 : bytes := patch 120 [x55] d_pin_3.
Definition s_calls : list peer_call := firstn 3 d_pcalls ++ [(d_penv 1 3, s_pin_3, zeros 175)].
Lemma s_bad_run : exists outs, peer_run toyC s_peer_0 s_calls = Ok outs /\
  (let c := final s_peer_0 outs in (all_ok outs, p_step toyC c, peer_input_size toyC c, peer_output_size toyC c, ub (peer_next toyC (d_penv 1 4) c d_pin_4 (zeros 768)), ub (peer_free toyC c))) =
  (true, 4, 636, 768, true, true).
Proof. apply run_ok. vm_compute. reflexivity. Qed.

Lemma C33_use_after_free_refutation : exists C e c0 calls outs input out, crypto_ok C /\ peer_fresh C c0 /\ peer_run C c0 calls = Ok outs /\ Forall (fun o => fst (fst o) = 0) outs /\
  p_step C (final c0 outs) = 4 /\ zlen input = peer_input_size C (final c0 outs) /\ zlen out = peer_output_size C (final c0 outs) /\
  peer_next C e (final c0 outs) input out = UB.
Proof.
  destruct s_bad_run as (outs & E & H). cbn zeta in H. set (c := final s_peer_0 outs) in *. injection H as H1 H2 H3 H4 H5 H6.
  exists toyC, (d_penv 1 4), s_peer_0, s_calls, outs, d_pin_4, (zeros 768). fold c. rewrite H3, H4. split; [exact toyC_ok|]. split; [exact s_peer_0_fresh|]. split; [exact E|].
  split; [apply all_ok_eq; exact H1|]. split; [exact H2|]. split; [vm_compute; reflexivity|]. split; [vm_compute; reflexivity|]. apply ub_eq. exact H5.
Qed.
Lemma C33_double_free_refutation : exists C c0 calls outs, crypto_ok C /\ peer_fresh C c0 /\ Forall (fun sl => sl = Null) (p_outs C c0) /\ Forall (fun sl => sl = Null) (p_ins C c0) /\
  peer_run C c0 calls = Ok outs /\ Forall (fun o => fst (fst o) = 0) outs /\ peer_free C (final c0 outs) = UB.
Proof.
  destruct s_bad_run as (outs & E & H). cbn zeta in H. set (c := final s_peer_0 outs) in *. injection H as H1 H2 H3 H4 H5 H6.
  exists toyC, s_peer_0, s_calls, outs. fold c. split; [exact toyC_ok|]. split; [exact s_peer_0_fresh|].
  split; [vm_compute; repeat constructor|]. split; [vm_compute; repeat constructor|]. split; [exact E|].
  split; [apply all_ok_eq; exact H1|]. apply ub_eq. exact H6.
Qed.
(** the session variables are not initialised, as in the example of the documentation; the first message is not for this session *)
Definition s_peer_u : peer toyC := peer_ins_set toyC (peer_outs_set toyC s_peer_0 (repeat Uninit 3)) (repeat Uninit 3).
Lemma C33_free_early_refutation : exists C c0 e input out ret c' out', crypto_ok C /\ peer_fresh C c0 /\ peer_next C e c0 input out = Ok (ret, c', out') /\ ret <> 0 /\ peer_free C c' = UB.
Proof.
  destruct (run_ok (peer_next toyC (d_penv 1 0) s_peer_u (patch 80 [x55] d_pin_0) (zeros 239)) (fun o => (fst (fst o) =? 0, ub (peer_free toyC (snd (fst o))))) (false, true))
    as ([[ret c'] out'] & E & H); [vm_compute; reflexivity|]. cbn [fst snd] in H. injection H as H1 H2.
  exists toyC, s_peer_u, (d_penv 1 0), (patch 80 [x55] d_pin_0), (zeros 239), ret, c', out'. split; [exact toyC_ok|]. split; [apply fresh_b_ok; vm_compute; reflexivity|].
  split; [exact E|]. split; [apply Z.eqb_neq; exact H1|apply ub_eq; exact H2].
Qed.
(** the first complaint message announces 48 accused peers: the bytes of the next message follow *)
Definition s_pin_6 : bytes := patch 222 [x30] d_pin_6.
Lemma C33_complaints_refutation : exists C e c0 calls outs input out, crypto_ok C /\ peer_fresh C c0 /\ peer_run C c0 calls = Ok outs /\ Forall (fun o => fst (fst o) = 0) outs /\
  p_step C (final c0 outs) = 6 /\ zlen input = peer_input_size C (final c0 outs) /\ zlen out = peer_output_size C (final c0 outs) /\
  announced_inside (p_n C (final c0 outs)) (skipn 111 input) /\ peer_next C e (final c0 outs) input out = UB.
Proof.
  destruct (run_ok (peer_run toyC s_peer_0 (firstn 6 d_pcalls)) (fun outs => let c := final s_peer_0 outs in
    (all_ok outs, p_step toyC c, peer_input_size toyC c, peer_output_size toyC c, p_n toyC c, ub (peer_next toyC (d_penv 1 6) c s_pin_6 []))) (true, 6, 456, 0, 3, true)) as (outs & E & H); [vm_compute; reflexivity|].
  cbn zeta in H. set (c := final s_peer_0 outs) in *. injection H as H1 H2 H3 H4 H5 H6.
  exists toyC, (d_penv 1 6), s_peer_0, (firstn 6 d_pcalls), outs, s_pin_6, []. fold c. rewrite H3, H4, H5. split; [exact toyC_ok|]. split; [exact s_peer_0_fresh|]. split; [exact E|].
  split; [apply all_ok_eq; exact H1|]. split; [exact H2|]. split; [vm_compute; reflexivity|]. split; [reflexivity|]. split; [|apply ub_eq; exact H6].
  intros i d Hi Hd. change (msg9_SIZE 3) with 115 in *. change (zlen (skipn 111 s_pin_6)) with 345.
  assert (D : i = 0 \/ i = 1 \/ i = 2) by lia. destruct D as [D|[D|D]]; subst i; vm_compute in Hd; injection Hd as <-; vm_compute; reflexivity.
Qed.

(** an undisturbed run *)
Lemma C33_example : exists e c0 calls outs input out ret c' out', crypto_ok toyC /\ peer_fresh toyC c0 /\ peer_run toyC c0 calls = Ok outs /\
  p_step toyC (final c0 outs) = 4 /\ Forall usable (p_outs toyC (final c0 outs)) /\
  peer_next toyC e (final c0 outs) input out = Ok (ret, c', out') /\ ret = 0.
Proof.
  destruct (run_ok (peer_run toyC s_peer_0 (firstn 4 d_pcalls)) (fun outs => let c := final s_peer_0 outs in
    (p_step toyC c, forallb usable_b (p_outs toyC c), match peer_next toyC (d_penv 1 4) c d_pin_4 (zeros 768) with Ok (r, _, _) => r | UB => 1 end)) (4, true, 0)) as (outs & E & H); [vm_compute; reflexivity|].
  cbn zeta in H. injection H as H1 H2 H3. destruct (peer_next toyC (d_penv 1 4) (final s_peer_0 outs) d_pin_4 (zeros 768)) as [[[ret c'] out']|] eqn:En; [|discriminate].
  exists (d_penv 1 4), s_peer_0, (firstn 4 d_pcalls), outs, d_pin_4, (zeros 768), ret, c', out'. split; [exact toyC_ok|]. split; [exact s_peer_0_fresh|]. split; [exact E|]. split; [exact H1|].
  split; [apply usable_all; exact H2|]. split; [exact En|exact H3].
Qed.
Lemma C33_free_example : exists c0 calls outs c', crypto_ok toyC /\ peer_fresh toyC c0 /\ peer_run toyC c0 calls = Ok outs /\ p_step toyC (final c0 outs) = 8 /\
  peer_free toyC (final c0 outs) = Ok c' /\ Forall (fun sl => sl = Freed) (p_outs toyC c') /\ peer_free toyC c' = UB.
Proof.
  destruct (run_ok (do outs <- peer_run toyC s_peer_0 d_pcalls ;; do c' <- peer_free toyC (final s_peer_0 outs) ;; Ok (outs, c')) (fun x => let c := final s_peer_0 (fst x) in
    (p_step toyC c, forallb freed_b (p_outs toyC (snd x)), ub (peer_free toyC (snd x)))) (8, true, true)) as ([outs c'] & E & H); [vm_compute; reflexivity|].
  apply bind_ok in E. destruct E as (o & E1 & E). apply bind_ok in E. destruct E as (q & E2 & E). injection E as -> ->. cbn [fst snd] in H. injection H as H1 H2 H3.
  exists s_peer_0, d_pcalls, outs, c'. split; [exact toyC_ok|]. split; [exact s_peer_0_fresh|]. split; [exact E1|]. split; [exact H1|]. split; [exact E2|]. split; [|apply ub_eq; exact H3].
  apply freed_all. exact H2.
Qed.
