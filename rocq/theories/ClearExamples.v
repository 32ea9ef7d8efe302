(** C77: peer 2 of the toy run, about which peer 1 complains without reason. *)
From Coq Require Import ZArith Lia List Bool.
From Coq.Strings Require Import Byte.
From Verif Require Import PrimeL Bytes Res Mem Sodium ToprfModel DkgModel DkgSpec WireModel WireSpec TpCrypto TpModel PeerModel CheaterModel TpRun TpSpec TpMsg TpControl SafeSpec TpExamples TpRunExamples SafeExamples.
From Verif Require Import BlameSpec BlameExamples ClearSpec.
Import ListNotations.
Open Scope list_scope.
Open Scope Z_scope.

Definition cl_call (k : Z) (input : bytes) (sz : nat) : peer_call := (d_penv 1 k, input, zeros sz).
Definition cl_calls : list peer_call :=
  [cl_call 0 d_pin_0 239; cl_call 1 d_pin_1 477; cl_call 2 d_pin_2 477; cl_call 3 d_pin_3 175; cl_call 4 d_pin_4 768; cl_call 5 d_pin_5 115; cl_call 6 b_cast 0; cl_call 7 [] 144].
Definition cl_eq (r : res bytes) (b : bytes) : bool := match r with Ok m => bytes_eqb m b | UB => false end.
Lemma cl_eq_ok r b : cl_eq r b = true -> r = Ok b.
Proof. destruct r as [m|]; [|discriminate]. intros H. apply bytes_eqb_eq in H. congruence. Qed.
Definition cl_checks (outs : list (Z * peer toyC * bytes)) : bool :=
  forallb (fun o => fst (fst o) =? 0) outs && (zlen outs =? 8) &&
  bytes_eqb (concat (nth 1 (t_com b_tp) [])) (skipn 111 (nth 3 (map snd outs) [])) &&
  cl_eq (rd (t_enc b_tp) (share_off 3 2 1) 768) (nth 4 (map snd outs) []) &&
  cl_eq (rd b_reveal (reveal_off (t_complaints b_tp) 2) (reveal_size (t_complaints b_tp) 2)) (nth 7 (map snd outs) []).

Lemma C77_example : exists e c input out c' out' (p0 p1 p2 p3 p4 p5 p6 p7 p8 : peer toyC) q0 q1 q2 q5 q6 e3 e4 e7 i3 o3 i4 o4 i7 o7 w0 w1 w2 w3 w4 w5 w6 w7,
  crypto_ok toyC /\ peer_fresh toyC p0 /\
  peer_run toyC p0 [q0; q1; q2; (e3, i3, o3); (e4, i4, o4); q5; q6; (e7, i7, o7)] =
    Ok [(0, p1, w0); (0, p2, w1); (0, p3, w2); (0, p4, w3); (0, p5, w4); (0, p6, w5); (0, p7, w6); (0, p8, w7)] /\
  is_u64 (pe_s e3 0) /\ (forall j, is_u64 (pe_s e4 j)) /\ is_u64 (pe_s e7 0) /\ Z.of_nat (length (pe_a e3)) = p_t toyC p0 /\ Forall random_scalar (pe_a e3) /\
  tp_wf c /\ Forall (complaint_ok (t_n c)) (t_complaints c) /\ NoDup (t_complaints c) /\ t_step c = 7 /\
  same_session toyC c p8 /\ heard toyC e c input p8 (pe_s e7 0) w3 w4 w7 /\ 0 <= t_eps c /\ (forall j, 0 <= j < t_n c -> 0 < pe_s e4 j /\ pe_s e4 j + t_eps c < 2 ^ 64) /\
  tp_next toyC e c input out = Ok (3, c', out') /\ p_index toyC p8 = 2 /\ In (1 * 256 + 2) (t_complaints c).
Proof.
  destruct (run_ok (peer_run toyC (d_pbufs (d_p1 1)) cl_calls) (fun outs => (cl_checks outs,
    let p := final (d_pbufs (d_p1 1)) outs in (p_n toyC p, p_t toyC p, p_sid toyC p, p_index toyC p, p_complaints toyC p, sig_pk toyS (p_sk toyC p))))
    (true, (3, 2, tx_sid, 2, [258], nth 1 (t_pks b_tp) []))) as (outs & E & H); [vm_compute; reflexivity|].
  apply pair_equal_spec in H. destruct H as (H1 & H2). cbv zeta in H2.
  apply pair_equal_spec in H2. destruct H2 as (H2 & P6). apply pair_equal_spec in H2. destruct H2 as (H2 & P5). apply pair_equal_spec in H2. destruct H2 as (H2 & P4).
  apply pair_equal_spec in H2. destruct H2 as (H2 & P3). apply pair_equal_spec in H2. destruct H2 as (P1 & P2).
  unfold cl_checks in H1. apply andb_true_iff in H1. destruct H1 as (H1 & K5). apply andb_true_iff in H1. destruct H1 as (H1 & K4). apply andb_true_iff in H1. destruct H1 as (H1 & K3).
  apply andb_true_iff in H1. destruct H1 as (K1 & K2). apply Z.eqb_eq in K2. apply cl_eq_ok in K5, K4. apply bytes_eqb_eq in K3.
  set (p0 := d_pbufs (d_p1 1)) in *.
  destruct outs as [|[[r1 p1] w0] [|[[r2 p2] w1] [|[[r3 p3] w2] [|[[r4 p4] w3] [|[[r5 p5] w4] [|[[r6 p6] w5] [|[[r7 p7] w6] [|[[r8 p8] w7] [|]]]]]]]]]; unfold zlen in K2; cbn [length] in K2; try lia.
  cbn [forallb fst] in K1. repeat (apply andb_true_iff in K1; let Q := fresh "Q" in destruct K1 as (Q & K1); apply Z.eqb_eq in Q; subst).
  change (final p0 _) with p8 in *. cbn [map snd nth] in K3, K4, K5.
  destruct (run_ok (tp_next toyC (d_env_ 7) b_tp b_reveal []) (fun o => fst (fst o)) 3) as ([[ret c'] out'] & T & HT); [vm_compute; reflexivity|]. cbn [fst] in HT. subst ret.
  exists (d_env_ 7), b_tp, b_reveal, [], c', out', p0, p1, p2, p3, p4, p5, p6, p7, p8.
  exists (cl_call 0 d_pin_0 239), (cl_call 1 d_pin_1 477), (cl_call 2 d_pin_2 477), (cl_call 5 d_pin_5 115), (cl_call 6 b_cast 0), (d_penv 1 3), (d_penv 1 4), (d_penv 1 7).
  exists d_pin_3, (zeros 175), d_pin_4, (zeros 768), [], (zeros 144), w0, w1, w2, w3, w4, w5, w6, w7.
  split; [exact toyC_ok|]. split; [apply fresh_b_ok; vm_compute; reflexivity|]. split; [exact E|].
  split; [cbn; unfold is_u64, tx_now; lia|]. split; [intros j; cbn; unfold is_u64, tx_now; lia|]. split; [cbn; unfold is_u64, tx_now; lia|].
  split; [vm_compute; reflexivity|]. split; [repeat constructor; vm_compute; reflexivity|].
  split; [apply wf_of_b; vm_compute; reflexivity|]. split; [repeat constructor; vm_compute; discriminate|].
  split; [change (t_complaints b_tp) with [258]; repeat constructor; intros []|]. split; [vm_compute; reflexivity|].
  split. { change (cS toyC) with toyS. constructor; rewrite ?P1, ?P2, ?P3, ?P4, ?P5.
    - reflexivity.
    - reflexivity.
    - vm_compute; reflexivity.
    - vm_compute; intuition discriminate.
    - change (sig_pk (cS toyC) (p_sk toyC p8)) with (sig_pk toyS (p_sk toyC p8)). rewrite P6. vm_compute; reflexivity.
    - vm_compute; reflexivity. }
  split. { constructor; rewrite ?P4.
    - exists (nth 1 (t_com b_tp) []). split; [vm_compute; reflexivity|]. split; [vm_compute; repeat constructor|exact K3].
    - exact K4.
    - exact K5.
    - intros _. exists (nth 1 (t_last b_tp) 0). split; [vm_compute; reflexivity|]. vm_compute. intuition discriminate. }
  split; [vm_compute; discriminate|]. split; [intros j _; change (t_eps b_tp) with 3600; cbn; unfold tx_now; lia|]. split; [exact T|]. split; [exact P4|]. left. reflexivity.
Qed.

(** ** C78 *)
Lemma C78_example : exists (c0 : peer toyC) e input out c1 w calls outs, zlen (p_sid toyC c0) = 32 /\ p_step toyC c0 = 0 /\ is_u64 (pe_s e 0) /\
  peer_next toyC e c0 input out = Ok (0, c1, w) /\ peer_run toyC c1 calls = Ok outs /\ p_lt_sk toyC c0 <> zeros 64 /\ (6 <= length calls)%nat.
Proof.
  set (p0 := d_pbufs (d_p1 1)).
  destruct (run_ok (do x <- peer_next toyC (d_penv 1 0) p0 d_pin_0 (zeros 239) ;; do y <- peer_run toyC (snd (fst x)) (tl d_pcalls) ;; Ok (x, y))
    (fun z => fst (fst (fst z))) 0) as ([[[ret c1] w] outs] & E & H); [vm_compute; reflexivity|]. cbn [fst] in H. subst ret.
  apply bind_ok in E. destruct E as (x & E1 & E). apply bind_ok in E. destruct E as (y & E2 & E). injection E as -> ->. cbn [fst snd] in E2.
  exists p0, (d_penv 1 0), d_pin_0, (zeros 239), c1, w, (tl d_pcalls), outs. split; [vm_compute; reflexivity|]. split; [vm_compute; reflexivity|].
  split; [cbn; unfold is_u64, tx_now; lia|]. split; [exact E1|]. split; [exact E2|]. split; [vm_compute; discriminate|]. vm_compute. repeat constructor.
Qed.
Lemma C78_error_example : exists (c0 : peer toyC) e input out ret c1 w, p_step toyC c0 = 0 /\ peer_next toyC e c0 input out = Ok (ret, c1, w) /\ ret <> 0 /\
  zlen input = peer_input_size toyC c0 /\ zlen out = peer_output_size toyC c0 /\ p_lt_sk toyC c0 <> zeros 64.
Proof.
  set (p0 := d_pbufs (d_p1 1)).
  destruct (run_ok (peer_next toyC (d_penv 1 0) p0 (patch 0 [x00; x01] d_pin_0) (zeros 239)) (fun z => fst (fst z) =? 0) false) as ([[ret c1] w] & E & H); [vm_compute; reflexivity|].
  cbn [fst] in H. apply Z.eqb_neq in H.
  exists p0, (d_penv 1 0), (patch 0 [x00; x01] d_pin_0), (zeros 239), ret, c1, w. split; [vm_compute; reflexivity|]. split; [exact E|]. split; [exact H|].
  split; [vm_compute; reflexivity|]. split; [vm_compute; reflexivity|]. vm_compute. discriminate.
Qed.
