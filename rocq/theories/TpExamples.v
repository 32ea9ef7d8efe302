(** Concrete cases for the theorems of PropertiesTp.v: three peers, threshold 2. *)
From Coq Require Import ZArith Lia List Bool.
From Coq.Strings Require Import Byte.
From Verif Require Import Bytes Res Mem Sodium ToprfModel DkgModel WireModel WireSpec TpCrypto TpModel PeerModel TpSpec TpControl.
Import ListNotations.
Open Scope list_scope.
Open Scope Z_scope.

Definition tx_sk : bytes := le_bytes 64 77.
Definition tx_sid : bytes := le_bytes 32 4711.
Definition tx_now : Z := 1700000000.

(** a trusted party in step [step] *)
Definition tx_tp (step : Z) : tp :=
  mkTp step step tx_sid 3 2 (sig_pk toyS tx_sk) tx_sk (repeat tx_now 3) 3600 (repeat (zeros 32) 3) (repeat (le_bytes 32 5) 3)
    (repeat (repeat (zeros 32) 2) 3) (zeros (Z.to_nat (9 * msg8_SIZE))) [] 9 [] 20 [].
Definition tx_env : env := mkEnv true (fun _ => tx_now) (fun _ => tx_now).

Lemma tx_wf step : 0 <= step -> tp_wf (tx_tp step).
Proof.
  intros H. constructor; cbn [tx_tp t_step t_n t_t t_sid t_last t_pks t_lt t_com t_enc t_cmax t_chmax t_cheaters]; try lia;
    try reflexivity; try (vm_compute; discriminate).
  - repeat constructor.
Qed.

(** a call with buffers of the right sizes; the input is all zero *)
Definition tx_call (step : Z) : tp_call :=
  (tx_env, zeros (Z.to_nat (match tp_input_size (tx_tp step) with Ok k => k | UB => 0 end)), zeros (Z.to_nat (tp_output_size (tx_tp step)))).

(** a peer in step [step] *)
Definition tx_peer (step : Z) : peer toyC :=
  mkPeer toyC step step tx_sid 3 2 1 (zeros 64) (le_bytes 64 78) (zeros 32) (sig_pk toyS tx_sk) tx_now (repeat 0 3) 3600
    (repeat (zeros 32) 3) (repeat (zeros 32) 3) None (repeat Null 3) (repeat Null 3) (repeat (repeat (zeros 32) 2) 3)
    [mkShare 1 10; mkShare 2 20; mkShare 3 30] [mkShare 1 5; mkShare 1 6; mkShare 1 7] [] 9 [] 3 [] (mkShare 0 0).
Definition tx_penv : penv := mkPenv true (fun _ => tx_now) (fun _ => tx_now) tx_sk (zeros 32) (fun _ => zeros 32) (fun _ => zeros 32) true [1; 2].

(** the trusted party's final message with the given body *)
Definition tx_final (body : bytes) : bytes :=
  let hd := header 21 113 0 255 tx_now tx_sid in message (sig_sign toyS tx_sk hd) hd body.

(** evaluate a call without normalising the (parametrised) states *)
Lemma run_ok {X Y} (r : res X) (f : X -> Y) v : match r with Ok x => Some (f x) | UB => None end = Some v -> exists x, r = Ok x /\ f x = v.
Proof. destruct r as [x|]; intros H; [|discriminate]. injection H as H. eauto. Qed.

Lemma C29_tp_example : exists c (input out : bytes) isz, 0 <= t_step c <= 9 /\ 1 <= t_n c /\ tp_input_size c = Ok isz /\
  0 < isz /\ zlen input = isz /\ zlen out = tp_output_size c /\ 0 < zlen out.
Proof.
  exists (tx_tp 2), (snd (fst (tx_call 2))), (snd (tx_call 2)), (159 * 9). cbn [tx_tp t_step t_n]. vm_compute.
  repeat split; discriminate.
Qed.

Lemma C29_peer_example : exists s (c : tp) (p : peer toyC), In (s, p_step toyC p) consumes /\ t_step c = s /\ 1 <= t_n c /\
  p_n toyC p = t_n c /\ p_t toyC p = t_t c /\ 0 < peer_output_size toyC p.
Proof. exists 5, (tx_tp 5), (tx_peer 4). cbn [tx_tp tx_peer t_step t_n p_n t_t p_t p_step]. repeat split; try lia; cbn; auto 20; lia. Qed.

Lemma C48_example : exists s (c : tp) (p : peer toyC) i j, In (s, p_step toyC p) delivers /\ t_prev c = s /\ 0 < t_n c /\
  0 <= i < j /\ j < t_n c /\ p_n toyC p = t_n c /\ p_t toyC p = t_t c /\ 0 < peer_input_size toyC p.
Proof. exists 5, (tx_tp 5), (tx_peer 5), 1, 2. cbn [tx_tp tx_peer t_prev t_n p_n t_t p_t p_step]. repeat split; try lia; cbn; auto 20; lia. Qed.

(** the first step succeeds, the second rejects the zeros, and then the trusted party is done *)
Lemma C30_example : exists outs, tp_run toyC (tx_tp 0) (tx_call 0 :: repeat (tx_call 1) 9) = Ok outs /\
  map (fun o => (fst (fst o), t_step (snd (fst o)))) outs = (0, 1) :: (3, 99) :: repeat (99, 99) 8.
Proof. eexists. split; [vm_compute; reflexivity|]. vm_compute. reflexivity. Qed.

Lemma C30_peer_example : exists outs, peer_run toyC (tx_peer 9)
    [(tx_penv, tx_final str_OK, zeros 113); (tx_penv, [], []); (tx_penv, [], [])] = Ok outs /\
  map (fun o => (fst (fst o), p_step toyC (snd (fst o)))) outs = [(0, 10); (0, 11); (99, 99)].
Proof. apply run_ok. vm_compute. reflexivity. Qed.

Lemma C31_refutation : exists C e c input out isz ret c' out', crypto_ok C /\ tp_wf c /\ tp_not_done c = true /\
  tp_input_size c = Ok isz /\ zlen input = isz /\ zlen out = tp_output_size c /\
  tp_next C e c input out = Ok (ret, c', out') /\ ret <> 0 /\ tp_not_done c' = true.
Proof.
  eexists toyC, tx_env, (tx_tp 6), (snd (fst (tx_call 6))), (snd (tx_call 6)), (115 * 3), 5, _, _.
  split; [exact toyC_ok|]. split; [apply tx_wf; lia|]. split; [reflexivity|]. split; [vm_compute; reflexivity|].
  split; [vm_compute; reflexivity|]. split; [vm_compute; reflexivity|]. split; [vm_compute; reflexivity|].
  split; [discriminate|reflexivity].
Qed.

Lemma C31_tp_example : exists c' out', t_step (tx_tp 4) <> 6 /\
  tp_next toyC tx_env (tx_tp 4) (snd (fst (tx_call 4))) (snd (tx_call 4)) = Ok (6, c', out') /\ zlen (t_cheaters c') = 3.
Proof. do 2 eexists. split; [discriminate|]. split; vm_compute; reflexivity. Qed.

Lemma C31_peer_example : exists c', peer_next toyC tx_penv (tx_peer 9) (tx_final str_NO) (zeros 113) = Ok (4, c', zeros 113).
Proof.
  destruct (run_ok (peer_next toyC tx_penv (tx_peer 9) (tx_final str_NO) (zeros 113)) (fun o => (fst (fst o), snd o)) (4, zeros 113))
    as ([[r c'] o] & E & H); [vm_compute; reflexivity|]. injection H as -> ->. eexists. exact E.
Qed.

Lemma C34_example : exists outs, zlen (t_cheaters (tx_tp 4)) <= t_chmax (tx_tp 4) /\
  tp_run toyC (tx_tp 4) [tx_call 4; tx_call 5] = Ok outs /\
  map (fun o => zlen (t_cheaters (snd (fst o)))) outs = [3; 3].
Proof. eexists. split; [vm_compute; discriminate|]. split; vm_compute; reflexivity. Qed.

Lemma C42_example : exists outs, peer_run toyC (tx_peer 8)
    [(tx_penv, [], zeros 143); (tx_penv, tx_final str_OK, zeros 113)] = Ok outs /\
  p_share toyC (final (tx_peer 8) outs) = mkShare 1 18 /\ p_share toyC (tx_peer 8) = mkShare 0 0 /\
  Forall (fun s => 0 <= s_value s < 2 ^ 255) (p_xshares toyC (tx_peer 8)).
Proof.
  destruct (run_ok (peer_run toyC (tx_peer 8) [(tx_penv, [], zeros 143); (tx_penv, tx_final str_OK, zeros 113)])
    (fun outs => p_share toyC (final (tx_peer 8) outs)) (mkShare 1 18)) as (outs & E & H); [vm_compute; reflexivity|].
  exists outs. split; [exact E|]. split; [exact H|]. split; [reflexivity|].
  repeat constructor; cbn; lia.
Qed.

Lemma C50_example : exists c outs, 1 <= t_step c /\ t_cheaters c <> [] /\
  tp_run toyC c [tx_call 6; tx_call 8; tx_call 9] = Ok outs /\ map (fun o => fst (fst o)) outs = [5; 3; 99].
Proof.
  exists (tp_cheaters_set (tx_tp 6) [mkCheater 14 70 2 1 0]). eexists. split; [cbn; lia|]. split; [discriminate|].
  split; vm_compute; reflexivity.
Qed.
