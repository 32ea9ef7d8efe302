(** A complete run with three peers and threshold 2, over the toy primitives. *)
From Coq Require Import ZArith Lia List Bool.
From Coq.Strings Require Import Byte.
From Verif Require Import Bytes Res Mem Sodium ToprfModel DkgModel WireModel WireSpec TpCrypto TpModel PeerModel TpRun TpSpec TpControl TpExamples.
Import ListNotations.
Open Scope list_scope.
Open Scope Z_scope.

Definition d_lt (i : Z) : bytes := le_bytes 64 (1000 + i).
Definition d_penv (i s : Z) : penv :=
  mkPenv false (fun _ => tx_now + 10 * s + 5) (fun _ => tx_now + 10 * s + 6) (le_bytes 64 (2000 + i)) (le_bytes 32 (3000 + i))
    (fun j => le_bytes 32 (100 * i + j)) (fun j => le_bytes 32 (100 * j + i)) true [7 + i; 11 + i].
Definition d_sched : sched :=
  mkSched (fun s => mkEnv false (fun _ => tx_now + 10 * s + 1) (fun _ => tx_now + 10 * s + 2)) d_penv (fun _ _ k => zeros (Z.to_nat k)).

Definition d_blank : tp := mkTp 0 0 [] 0 0 [] [] [] 0 [] [] [] [] [] 0 [] 0 [].
Definition d_pblank : peer toyC :=
  mkPeer toyC 0 0 [] 0 0 0 [] [] [] [] 0 [] 0 [] [] None [] [] [] [] [] [] 0 [] 0 [] (mkShare 0 0).

(** tpdkg_start_tp and tpdkg_tp_set_bufs *)
Definition d_started : hres tp := start_tp toyC d_blank 3600 3 2 [x70] (zeros (Z.to_nat msg0_SIZE)) tx_sid tx_sk tx_now.
Definition d_c1 : tp := match d_started with Ok (_, c, _) => c | UB => d_blank end.
Definition d_msg0 : bytes := match d_started with Ok (_, _, m) => m | UB => [] end.
Definition d_bufs (c : tp) : tp :=
  tp_set_bufs c (repeat (repeat (zeros 32) 2) 3) 9 (zeros (Z.to_nat (9 * msg8_SIZE))) 3 (repeat (zeros 32) 3)
    (map (fun i => sig_pk toyS (d_lt i)) (zrange 0 3)) (tx_now - 100).
(** tpdkg_start_peer and tpdkg_peer_set_bufs *)
Definition d_pstarted (i : Z) : res (Z * peer toyC) := start_peer toyC d_pblank 3600 (d_lt i) d_msg0 (tx_now + 1).
Definition d_p1 (i : Z) : peer toyC := match d_pstarted i with Ok (_, p) => p | UB => d_pblank end.
Definition d_pbufs (p : peer toyC) : peer toyC :=
  peer_set_bufs toyC p (repeat (zeros 32) 3) (repeat (zeros 32) 3) (repeat Null 3) (repeat Null 3)
    (repeat (mkShare 0 0) 3) (repeat (mkShare 0 0) 3) (repeat (repeat (zeros 32) 2) 3) 9 3.

Definition d_start : run toyC := mkRun toyC (d_bufs d_c1) (map (fun i => d_pbufs (d_p1 i)) (zrange 0 3)) [].

(** the parties after [k] rounds; the second start value is only used if the run fails *)
Definition d_after (k : nat) : run toyC :=
  match rounds toyC d_sched k d_start with Ok (Some r) => r | _ => d_start end.
Definition d_tp (k : nat) : tp := r_tp toyC (d_after k).
Definition d_net (k : nat) : bytes := r_net toyC (d_after k).
Definition d_peer (k : nat) (i : nat) : peer toyC := nth i (r_peers toyC (d_after k)) d_pblank.
Definition d_env (k : nat) : env := s_tp d_sched (t_step (d_tp k)).
Definition d_out (k : nat) : bytes := zeros (Z.to_nat (tp_output_size (d_tp k))).
Definition d_pout (k i : nat) : bytes := zeros (Z.to_nat (peer_output_size toyC (d_peer k i))).

(** overwrite bytes at [off] *)
Definition patch (off : nat) (v b : bytes) : bytes := firstn off b ++ v ++ skipn (off + length v) b.

(** the run succeeds: the shares lie on the line 24 + 36x *)
Lemma d_run_example : exists r, rounds toyC d_sched 10 d_start = Ok (Some r) /\
  (t_step (r_tp toyC r), t_cheaters (r_tp toyC r), map (fun p => (p_step toyC p, p_share toyC p)) (r_peers toyC r)) =
  (10, [], [(11, mkShare 1 60); (11, mkShare 2 96); (11, mkShare 3 132)]).
Proof.
  destruct (run_ok (rounds toyC d_sched 10 d_start) (fun x => match x with Some r =>
    Some (t_step (r_tp toyC r), t_cheaters (r_tp toyC r), map (fun p => (p_step toyC p, p_share toyC p)) (r_peers toyC r)) | None => None end)
    (Some (10, [], [(11, mkShare 1 60); (11, mkShare 2 96); (11, mkShare 3 132)]))) as (x & E & H); [vm_compute; reflexivity|].
  destruct x as [r|]; [|discriminate]. exists r. split; [exact E|]. injection H as H1 H2 H3. rewrite H1, H2, H3. reflexivity.
Qed.

(** a state is well formed, as a computation *)
Definition wf_b (c : tp) : bool :=
  (0 <=? t_step c) && (2 <=? t_n c) && (t_n c <=? 128) && (1 <=? t_t c) && (t_t c <? t_n c) && (zlen (t_sid c) =? 32) &&
  (zlen (t_last c) =? t_n c) && (zlen (t_pks c) =? t_n c) && (zlen (t_lt c) =? t_n c) && (zlen (t_com c) =? t_n c) &&
  forallb (fun row => zlen row =? t_t c) (t_com c) && (zlen (t_enc c) =? t_n c * t_n c * msg8_SIZE) && (t_cmax c =? t_n c * t_n c) &&
  (zlen (t_cheaters c) <=? t_chmax c).
Lemma wf_of_b c : wf_b c = true -> tp_wf c.
Proof.
  unfold wf_b. rewrite !andb_true_iff, !Z.leb_le, !Z.ltb_lt, !Z.eqb_eq, forallb_forall. intros H.
  constructor; try tauto; try lia. apply Forall_forall. intros x Hx. apply Z.eqb_eq. apply H. exact Hx.
Qed.

(** the parties' states and the messages of the run as literals *)
Definition d_tp_1 : tp := Eval vm_compute in d_tp 1.
Definition d_tp_4 : tp := Eval vm_compute in d_tp 4.
Definition d_tp_5 : tp := Eval vm_compute in d_tp 5.
Definition d_tp_6 : tp := Eval vm_compute in d_tp 6.
Definition d_tp_7 : tp := Eval vm_compute in d_tp 7.
Definition d_tp_8 : tp := Eval vm_compute in d_tp 8.
Definition d_net_1 : bytes := Eval vm_compute in d_net 1.
Definition d_net_2 : bytes := Eval vm_compute in d_net 2.
Definition d_net_3 : bytes := Eval vm_compute in d_net 3.
Definition d_net_4 : bytes := Eval vm_compute in d_net 4.
Definition d_net_5 : bytes := Eval vm_compute in d_net 5.
Definition d_net_6 : bytes := Eval vm_compute in d_net 6.
Definition d_net_7 : bytes := Eval vm_compute in d_net 7.
Definition d_net_8 : bytes := Eval vm_compute in d_net 8.
Definition d_peer_1 : peer toyC := ltac:(
  let t := eval vm_compute in (let q := d_peer 1 1 in (p_step toyC q, p_prev toyC q, p_sid toyC q, p_n toyC q, p_t toyC q, p_index toyC q, p_lt_sk toyC q, p_sk toyC q, p_noise_sk toyC q, p_tp_pk toyC q, p_tp_last toyC q, p_last toyC q, p_eps toyC q, p_pks toyC q, p_npks toyC q, p_dev toyC q, p_outs toyC q, p_ins toyC q, p_com toyC q, p_shares toyC q, p_xshares toyC q, p_complaints toyC q, p_cmax toyC q, p_my toyC q, p_mymax toyC q, p_transcript toyC q, p_share toyC q)) in
  match t with (?x0, ?x1, ?x2, ?x3, ?x4, ?x5, ?x6, ?x7, ?x8, ?x9, ?x10, ?x11, ?x12, ?x13, ?x14, ?x15, ?x16, ?x17, ?x18, ?x19, ?x20, ?x21, ?x22, ?x23, ?x24, ?x25, ?x26) =>
    exact (mkPeer toyC x0 x1 x2 x3 x4 x5 x6 x7 x8 x9 x10 x11 x12 x13 x14 x15 x16 x17 x18 x19 x20 x21 x22 x23 x24 x25 x26) end).
Definition d_peer_4 : peer toyC := ltac:(
  let t := eval vm_compute in (let q := d_peer 4 1 in (p_step toyC q, p_prev toyC q, p_sid toyC q, p_n toyC q, p_t toyC q, p_index toyC q, p_lt_sk toyC q, p_sk toyC q, p_noise_sk toyC q, p_tp_pk toyC q, p_tp_last toyC q, p_last toyC q, p_eps toyC q, p_pks toyC q, p_npks toyC q, p_dev toyC q, p_outs toyC q, p_ins toyC q, p_com toyC q, p_shares toyC q, p_xshares toyC q, p_complaints toyC q, p_cmax toyC q, p_my toyC q, p_mymax toyC q, p_transcript toyC q, p_share toyC q)) in
  match t with (?x0, ?x1, ?x2, ?x3, ?x4, ?x5, ?x6, ?x7, ?x8, ?x9, ?x10, ?x11, ?x12, ?x13, ?x14, ?x15, ?x16, ?x17, ?x18, ?x19, ?x20, ?x21, ?x22, ?x23, ?x24, ?x25, ?x26) =>
    exact (mkPeer toyC x0 x1 x2 x3 x4 x5 x6 x7 x8 x9 x10 x11 x12 x13 x14 x15 x16 x17 x18 x19 x20 x21 x22 x23 x24 x25 x26) end).
Definition d_peer_6 : peer toyC := ltac:(
  let t := eval vm_compute in (let q := d_peer 6 1 in (p_step toyC q, p_prev toyC q, p_sid toyC q, p_n toyC q, p_t toyC q, p_index toyC q, p_lt_sk toyC q, p_sk toyC q, p_noise_sk toyC q, p_tp_pk toyC q, p_tp_last toyC q, p_last toyC q, p_eps toyC q, p_pks toyC q, p_npks toyC q, p_dev toyC q, p_outs toyC q, p_ins toyC q, p_com toyC q, p_shares toyC q, p_xshares toyC q, p_complaints toyC q, p_cmax toyC q, p_my toyC q, p_mymax toyC q, p_transcript toyC q, p_share toyC q)) in
  match t with (?x0, ?x1, ?x2, ?x3, ?x4, ?x5, ?x6, ?x7, ?x8, ?x9, ?x10, ?x11, ?x12, ?x13, ?x14, ?x15, ?x16, ?x17, ?x18, ?x19, ?x20, ?x21, ?x22, ?x23, ?x24, ?x25, ?x26) =>
    exact (mkPeer toyC x0 x1 x2 x3 x4 x5 x6 x7 x8 x9 x10 x11 x12 x13 x14 x15 x16 x17 x18 x19 x20 x21 x22 x23 x24 x25 x26) end).
Definition d_pin (k i : nat) : bytes :=
  match tp_next toyC (d_env k) (d_tp k) (d_net k) (d_out k) with
  | Ok (_, c', out') => match dispatch c' out' (Z.of_nat i) with Ok (Some m) => m | _ => [] end
  | UB => [] end.
Definition d_pin_0 : bytes := Eval vm_compute in d_pin 0 1.
Definition d_pin_1 : bytes := Eval vm_compute in d_pin 1 1.
Definition d_pin_2 : bytes := Eval vm_compute in d_pin 2 1.
Definition d_pin_3 : bytes := Eval vm_compute in d_pin 3 1.
Definition d_pin_4 : bytes := Eval vm_compute in d_pin 4 1.
Definition d_pin_5 : bytes := Eval vm_compute in d_pin 5 1.
Definition d_pin_6 : bytes := Eval vm_compute in d_pin 6 1.
Definition d_peer_7 : peer toyC := ltac:(
  let t := eval vm_compute in (let q := match peer_next toyC (d_penv 1 6) (d_peer 6 1) (d_pin 6 1) [] with Ok (_, p, _) => p | UB => d_pblank end in (p_step toyC q, p_prev toyC q, p_sid toyC q, p_n toyC q, p_t toyC q, p_index toyC q, p_lt_sk toyC q, p_sk toyC q, p_noise_sk toyC q, p_tp_pk toyC q, p_tp_last toyC q, p_last toyC q, p_eps toyC q, p_pks toyC q, p_npks toyC q, p_dev toyC q, p_outs toyC q, p_ins toyC q, p_com toyC q, p_shares toyC q, p_xshares toyC q, p_complaints toyC q, p_cmax toyC q, p_my toyC q, p_mymax toyC q, p_transcript toyC q, p_share toyC q)) in
  match t with (?x0, ?x1, ?x2, ?x3, ?x4, ?x5, ?x6, ?x7, ?x8, ?x9, ?x10, ?x11, ?x12, ?x13, ?x14, ?x15, ?x16, ?x17, ?x18, ?x19, ?x20, ?x21, ?x22, ?x23, ?x24, ?x25, ?x26) =>
    exact (mkPeer toyC x0 x1 x2 x3 x4 x5 x6 x7 x8 x9 x10 x11 x12 x13 x14 x15 x16 x17 x18 x19 x20 x21 x22 x23 x24 x25 x26) end).
Definition d_env_ (k : Z) : env := s_tp d_sched k.
Definition d_out_ (c : tp) : bytes := zeros (Z.to_nat (tp_output_size c)).
Definition d_pout_ (p : peer toyC) : bytes := zeros (Z.to_nat (peer_output_size toyC p)).

(** the complaint messages of the run, with peer 1 naming peer 2 (the body is not signed) *)
Definition d_complain : bytes := patch 111 [x01; x02] d_net_6.

Lemma C35_example : exists c input out c' out', tp_wf c /\ t_step c = 6 /\ tp_next toyC (d_env_ 6) c input out = Ok (0, c', out') /\
  tp_input_size c = Ok (zlen input) /\ zlen out = tp_output_size c /\ t_complaints c' = [258].
Proof.
  destruct (run_ok (tp_next toyC (d_env_ 6) d_tp_6 d_complain (d_out_ d_tp_6)) (fun o => (fst (fst o), t_complaints (snd (fst o)))) (0, [258]))
    as ([[ret c'] out'] & E & H); [vm_compute; reflexivity|]. injection H as H1 H2. cbn [fst snd] in H1, H2. subst ret.
  exists d_tp_6, d_complain, (d_out_ d_tp_6), c', out'. split; [apply wf_of_b; vm_compute; reflexivity|]. split; [vm_compute; reflexivity|].
  split; [exact E|]. split; [vm_compute; reflexivity|]. split; [vm_compute; reflexivity|exact H2].
Qed.

(** the trusted party's call followed by a peer's call on (the start of) its output *)
Definition then_peer (e : env) (c : tp) (input out : bytes) (pe : penv) (p : peer toyC) (off len : Z) (pout : bytes) :
    res (Z * tp * bytes * (Z * peer toyC * bytes)) :=
  do x <- tp_next toyC e c input out ;;
  do m <- rd (snd x) off (if len =? 0 then zlen (snd x) else len) ;;
  do y <- peer_next toyC pe p m pout ;; Ok (x, y).

Lemma then_peer_inv e c input out pe p pout x y : then_peer e c input out pe p 0 0 pout = Ok (x, y) ->
  tp_next toyC e c input out = Ok x /\ peer_next toyC pe p (snd x) pout = Ok y.
Proof.
  unfold then_peer. intros H. apply bind_ok in H. destruct H as (x1 & E1 & H). apply bind_ok in H. destruct H as (m & E2 & H).
  apply bind_ok in H. destruct H as (y1 & E3 & H). injection H as -> ->. cbn [Z.eqb] in E2. rewrite rd_all in E2 by reflexivity. injection E2 as <-. auto.
Qed.

Lemma C36_example : exists c input out c' out' (p : peer toyC) pout p' pout', crypto_ok toyC /\ tp_wf c /\ is_u64 (e_s (d_env_ 6) 0) /\ t_step c = 6 /\
  tp_next toyC (d_env_ 6) c input out = Ok (0, c', out') /\ p_step toyC p = 6 /\ p_n toyC p = t_n c /\ p_complaints toyC p = [] /\ p_my toyC p = [] /\
  1 <= p_index toyC p <= t_n c /\ peer_next toyC (d_penv 1 6) p out' pout = Ok (0, p', pout') /\ t_complaints c' = [258] /\ p_my toyC p' = [1].
Proof.
  destruct (run_ok (then_peer (d_env_ 6) d_tp_6 d_complain (d_out_ d_tp_6) (d_penv 1 6) d_peer_6 0 0 [])
    (fun o => (fst (fst (fst o)), fst (fst (snd o)), t_complaints (snd (fst (fst o))), p_my toyC (snd (fst (snd o))))) (0, 0, [258], [1]))
    as ([[[ret c'] out'] [[ret2 p'] pout']] & E & H); [vm_compute; reflexivity|]. cbn [fst snd] in H. injection H as -> -> H3 H4.
  apply then_peer_inv in E. destruct E as (E1 & E2). cbn [snd] in E2.
  exists d_tp_6, d_complain, (d_out_ d_tp_6), c', out', d_peer_6, [], p', pout'. split; [exact toyC_ok|]. split; [apply wf_of_b; vm_compute; reflexivity|].
  split; [vm_compute; intuition discriminate|]. split; [vm_compute; reflexivity|]. split; [exact E1|]. split; [vm_compute; reflexivity|].
  split; [vm_compute; reflexivity|]. split; [vm_compute; reflexivity|]. split; [vm_compute; reflexivity|].
  split; [vm_compute; intuition discriminate|]. split; [exact E2|]. split; assumption.
Qed.

Lemma C52_example : exists c input out c' out' (p : peer toyC) pout p' pout', crypto_ok toyC /\ tp_wf c /\ is_u64 (e_s (d_env_ 1) 0) /\ t_step c = 1 /\
  tp_next toyC (d_env_ 1) c input out = Ok (0, c', out') /\ p_step toyC p = 1 /\ p_n toyC p = t_n c /\ zlen (p_pks toyC p) = t_n c /\
  peer_next toyC (d_penv 1 1) p out' pout = Ok (0, p', pout').
Proof.
  destruct (run_ok (then_peer (d_env_ 1) d_tp_1 d_net_1 (d_out_ d_tp_1) (d_penv 1 1) d_peer_1 0 0 (d_pout_ d_peer_1))
    (fun o => (fst (fst (fst o)), fst (fst (snd o)))) (0, 0))
    as ([[[ret c'] out'] [[ret2 p'] pout']] & E & H); [vm_compute; reflexivity|]. cbn [fst snd] in H. injection H as -> ->.
  apply then_peer_inv in E. destruct E as (E1 & E2). cbn [snd] in E2.
  exists d_tp_1, d_net_1, (d_out_ d_tp_1), c', out', d_peer_1, (d_pout_ d_peer_1), p', pout'. split; [exact toyC_ok|]. split; [apply wf_of_b; vm_compute; reflexivity|].
  split; [vm_compute; intuition discriminate|]. split; [vm_compute; reflexivity|]. split; [exact E1|]. split; [vm_compute; reflexivity|].
  split; [vm_compute; reflexivity|]. split; [vm_compute; reflexivity|]. exact E2.
Qed.

Lemma C51_example : exists c input out c' out', crypto_ok toyC /\ tp_wf c /\ is_u64 (e_s (d_env_ 1) 0) /\ t_step c = 1 /\
  tp_next toyC (d_env_ 1) c input out = Ok (0, c', out').
Proof. destruct C52_example as (c & input & out & c' & out' & _ & _ & _ & _ & H1 & H2 & H3 & H4 & H5 & _). exists c, input, out, c', out'. tauto. Qed.

Lemma C53_example : exists c input out c' out' (p : peer toyC) pout p' pout', crypto_ok toyC /\ tp_wf c /\ is_u64 (e_s (d_env_ 4) 0) /\ t_step c = 4 /\
  tp_next toyC (d_env_ 4) c input out = Ok (0, c', out') /\ p_step toyC p = 4 /\ p_n toyC p = t_n c /\ p_t toyC p = t_t c /\ zlen (p_com toyC p) = t_n c /\
  peer_next toyC (d_penv 1 4) p out' pout = Ok (0, p', pout').
Proof.
  destruct (run_ok (then_peer (d_env_ 4) d_tp_4 d_net_4 (d_out_ d_tp_4) (d_penv 1 4) d_peer_4 0 0 (d_pout_ d_peer_4))
    (fun o => (fst (fst (fst o)), fst (fst (snd o)))) (0, 0))
    as ([[[ret c'] out'] [[ret2 p'] pout']] & E & H); [vm_compute; reflexivity|]. cbn [fst snd] in H. injection H as -> ->.
  apply then_peer_inv in E. destruct E as (E1 & E2). cbn [snd] in E2.
  exists d_tp_4, d_net_4, (d_out_ d_tp_4), c', out', d_peer_4, (d_pout_ d_peer_4), p', pout'. split; [exact toyC_ok|]. split; [apply wf_of_b; vm_compute; reflexivity|].
  split; [vm_compute; intuition discriminate|]. split; [vm_compute; reflexivity|]. split; [exact E1|]. split; [vm_compute; reflexivity|].
  split; [vm_compute; reflexivity|]. split; [vm_compute; reflexivity|]. split; [vm_compute; reflexivity|]. exact E2.
Qed.

Lemma C41_example : exists c input out c' out', 1 <= t_n c /\ In (t_step c) [2; 3; 5] /\ tp_next toyC (d_env_ 5) c input out = Ok (0, c', out') /\
  rd input 0 256 <> rd input 256 256.
Proof.
  destruct (run_ok (tp_next toyC (d_env_ 5) d_tp_5 d_net_5 (d_out_ d_tp_5)) (fun o => fst (fst o)) 0)
    as ([[ret c'] out'] & E & H); [vm_compute; reflexivity|]. cbn [fst] in H. subst ret.
  exists d_tp_5, d_net_5, (d_out_ d_tp_5), c', out'. split; [vm_compute; discriminate|]. split; [right; right; left; vm_compute; reflexivity|].
  split; [exact E|]. vm_compute. discriminate.
Qed.

(** C46: an acknowledgement saying NO *)
Lemma C46_refutation : exists C e c input out c' out' i, crypto_ok C /\ tp_wf c /\ t_step c = 9 /\ 0 <= i < t_n c /\
  tp_next C e c input out = Ok (0, c', out') /\ t_cheaters c' = [] /\ rd input (i * msg21_SIZE + 111) 2 = Ok str_NO.
Proof.
  destruct (run_ok (tp_next toyC (d_env_ 9) d_tp_8 (patch 111 str_NO d_net_8) (d_out_ d_tp_8)) (fun o => (fst (fst o), t_cheaters (snd (fst o)))) (0, []))
    as ([[ret c'] out'] & E & H); [vm_compute; reflexivity|]. cbn [fst snd] in H. injection H as -> H2.
  exists toyC, (d_env_ 9), d_tp_8, (patch 111 str_NO d_net_8), (d_out_ d_tp_8), c', out', 0.
  split; [exact toyC_ok|]. split; [apply wf_of_b; vm_compute; reflexivity|]. split; [vm_compute; reflexivity|]. split; [vm_compute; intuition discriminate|].
  split; [exact E|]. split; [exact H2|vm_compute; reflexivity].
Qed.
Lemma C46_example : exists c input out c' out', tp_wf c /\ t_step c = 9 /\ tp_next toyC (d_env_ 9) c input out = Ok (0, c', out').
Proof.
  destruct (run_ok (tp_next toyC (d_env_ 9) d_tp_8 d_net_8 (d_out_ d_tp_8)) (fun o => fst (fst o)) 0)
    as ([[ret c'] out'] & E & H); [vm_compute; reflexivity|]. cbn [fst snd] in H. subst ret.
  exists d_tp_8, d_net_8, (d_out_ d_tp_8), c', out'. split; [apply wf_of_b; vm_compute; reflexivity|]. split; [vm_compute; reflexivity|]. exact E.
Qed.

(** C39: the calls of the run *)
Definition d_calls : list tp_call :=
  map (fun x => (d_env_ (fst (fst x)), snd (fst x), zeros (Z.to_nat (snd x))))
    [(0, [], 333); (1, d_net_1, 636); (2, d_net_2, 1431); (3, d_net_3, 1431); (4, d_net_4, 636); (5, d_net_5, 2304); (6, d_net_6, 456)].
Definition d_pcalls : list peer_call :=
  map (fun x => (d_penv 1 (fst (fst x)), snd (fst x), zeros (Z.to_nat (snd x))))
    [(0, d_pin_0, 239); (1, d_pin_1, 477); (2, d_pin_2, 477); (3, d_pin_3, 175); (4, d_pin_4, 768); (5, d_pin_5, 115); (6, d_pin_6, 0)].

Lemma C39_digest_example : exists c input out c' out' (p : peer toyC) pout p' m i, crypto_ok toyC /\ tp_wf c /\ is_u64 (e_s (d_env_ 8) 0) /\ t_step c = 8 /\
  tp_next toyC (d_env_ 8) c input out = Ok (0, c', out') /\ zlen (p_sid toyC p) = 32 /\ is_u64 (pe_s (d_penv 1 8) 0) /\ 0 <= p_index toyC p < 256 /\
  p_step toyC p = 8 /\ peer_next toyC (d_penv 1 8) p [] pout = Ok (0, p', m) /\ 0 <= i < t_n c /\ rd input (i * msg19_SIZE) msg19_SIZE = Ok m.
Proof.
  set (p := d_peer_7).
  destruct (run_ok (tp_next toyC (d_env_ 8) d_tp_7 d_net_7 (d_out_ d_tp_7)) (fun o => fst (fst o)) 0) as ([[ret c'] out'] & E & H); [vm_compute; reflexivity|].
  destruct (run_ok (do x <- peer_next toyC (d_penv 1 8) p [] (zeros 143) ;; do m <- rd d_net_7 143 143 ;; Ok (fst (fst x), bytes_eqb (snd x) m)) (fun x => x) (0, true))
    as (x & E2 & H2); [vm_compute; reflexivity|].
  apply bind_ok in E2. destruct E2 as ([[r2 p'] m] & E2 & E3). apply bind_ok in E3. destruct E3 as (m' & E3 & E4). injection E4 as <-. injection H2 as H2 H3.
  cbn [fst snd] in H, H2, H3. subst ret r2. apply bytes_eqb_eq in H3. subst m'.
  exists d_tp_7, d_net_7, (d_out_ d_tp_7), c', out', p, (zeros 143), p', m, 1. split; [exact toyC_ok|]. split; [apply wf_of_b; vm_compute; reflexivity|].
  split; [vm_compute; intuition discriminate|]. split; [vm_compute; reflexivity|]. split; [exact E|]. split; [vm_compute; reflexivity|].
  split; [vm_compute; intuition discriminate|]. split; [vm_compute; intuition discriminate|]. split; [vm_compute; reflexivity|]. split; [exact E2|].
  split; [vm_compute; intuition discriminate|]. exact E3.
Qed.

Lemma C39_example : exists outs pouts,
  start_tp toyC d_blank 3600 3 2 [x70] (zeros (Z.to_nat msg0_SIZE)) tx_sid tx_sk tx_now = Ok (0, d_c1, d_msg0) /\ tp_wf (d_bufs d_c1) /\
  tp_run toyC (d_bufs d_c1) d_calls = Ok outs /\ Forall (fun o => fst (fst o) = 0) outs /\
  start_peer toyC d_pblank 3600 (d_lt 1) d_msg0 (tx_now + 1) = Ok (0, d_p1 1) /\ zlen d_msg0 = msg0_SIZE /\
  peer_run toyC (d_pbufs (d_p1 1)) d_pcalls = Ok pouts /\ Forall (fun o => fst (fst o) = 0) pouts /\
  p_transcript toyC (final (d_pbufs (d_p1 1)) pouts) = t_transcript (final (d_bufs d_c1) outs) /\ length (tp_said (d_bufs d_c1) outs) = 3%nat.
Proof.
  destruct (run_ok (tp_run toyC (d_bufs d_c1) d_calls)
    (fun outs => (forallb (fun o => fst (fst o) =? 0) outs, length (tp_said (d_bufs d_c1) outs))) (true, 3%nat)) as (outs & E & H); [vm_compute; reflexivity|].
  injection H as H1 H2.
  assert (EP : exists pouts, peer_run toyC (d_pbufs (d_p1 1)) d_pcalls = Ok pouts /\
     forallb (fun o => fst (fst o) =? 0) pouts = true /\ p_transcript toyC (final (d_pbufs (d_p1 1)) pouts) = t_transcript (final (d_bufs d_c1) outs)).
  { destruct (run_ok (do outs <- tp_run toyC (d_bufs d_c1) d_calls ;;
       do pouts <- peer_run toyC (d_pbufs (d_p1 1)) d_pcalls ;;
       Ok (forallb (fun o => fst (fst o) =? 0) pouts, bytes_eqb (p_transcript toyC (final (d_pbufs (d_p1 1)) pouts)) (t_transcript (final (d_bufs d_c1) outs))))
       (fun x => x) (true, true)) as (x & EX & HX); [vm_compute; reflexivity|].
    rewrite E in EX. apply bind_ok in EX. destruct EX as (o & EX & E2). injection EX as <-. apply bind_ok in E2. destruct E2 as (pouts & E2 & E3).
    injection E3 as <-. injection HX as X1 X2. apply bytes_eqb_eq in X2. eauto. }
  destruct EP as (pouts & E2 & P1 & P2). exists outs, pouts. split; [vm_compute; reflexivity|]. split; [apply wf_of_b; vm_compute; reflexivity|].
  split; [exact E|]. split; [apply Forall_forall; intros o Ho; apply Z.eqb_eq; exact (proj1 (forallb_forall _ _) H1 o Ho)|].
  split.
  { destruct (run_ok (d_pstarted 1) fst 0) as ([r q] & Q & Hq); [vm_compute; reflexivity|]. cbn [fst] in Hq. subst r. unfold d_p1. rewrite Q. exact Q. }
  split; [vm_compute; reflexivity|]. split; [exact E2|].
  split; [apply Forall_forall; intros o Ho; apply Z.eqb_eq; exact (proj1 (forallb_forall _ _) P1 o Ho)|]. split; assumption.
Qed.
