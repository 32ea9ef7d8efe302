(** C100 over the toy primitives: the session of GoodExamples.v (four peers, threshold 2), in which
    somebody on the network puts keys of its own in the place of those of peers 2 and 3 towards peer 1. *)
From Coq Require Import ZArith Lia List Bool.
From Coq.Strings Require Import Byte.
From Verif Require Import PrimeL Bytes Res Mem Sodium ToprfModel ToprfSpec DkgModel DkgSpec WireModel WireSpec TpCrypto TpModel PeerModel TpRun TpSpec TpControl SafeSpec TpExamples TpRunExamples SafeExamples GoodSpec GoodExamples MitmSpec.
Import ListNotations.
Open Scope list_scope.
Open Scope Z_scope.

Definition m_who (j : Z) : bool := (j =? 1) || (j =? 2).
Definition m_sk (j : Z) : bytes := le_bytes 64 (9000 + j).
Definition m_nsk (j : Z) : bytes := le_bytes 32 (9100 + j).
Definition m_npk (j : Z) : bytes := nz_pk toyN (m_nsk j).
Definition m_rand : bytes := le_bytes 32 77.
(** what the network would have brought peer 1 in call [k] *)
Definition m_got (k : nat) : bytes := nth 0 (nth k (map snd g_log) []) [].
Definition m_again (j : Z) (body m : bytes) : bytes := sig_sign toyS (m_sk j) (slice 64 47 m) ++ slice 64 47 m ++ body.
Definition m_each (at_ size : Z) (body : Z -> bytes -> bytes) (b : bytes) : bytes :=
  concat (map (fun j => let m := slice (at_ + j * size) size b in if m_who j then m_again j (body j m) m else m) (zrange 0 4)).
Definition m_calls_of (ins : list bytes) : list peer_call :=
  map (fun x => (d_penv 0 (fst (fst x)), snd (fst x), zeros (snd x))) (combine (combine [0; 1; 2; 3; 4] ins) [239; 636; 636; 175; 1024]%nat).
Definition m_sent (ins : list bytes) (k : nat) : bytes := match peer_run toyC (g_peer 0) (m_calls_of ins) with Ok outs => wrote outs k | UB => [] end.
Definition m_in2 : list bytes := Eval vm_compute in [m_got 0; forged toyC m_who m_sk m_npk 4 (m_got 1); m_each 0 159 (fun _ m => skipn 111 m) (m_got 2)].
(** the Noise key peer 1 sends in its first message *)
Definition m_key : bytes := Eval vm_compute in slice 143 32 (m_sent m_in2 0).
(** the stranger's device in the place of peer [j] *)
Definition m_dev (j : Z) : nz_dev toyN :=
  match nz_create toyN (j + 1) (m_nsk j) with
  | Some d => match nz_add_peer toyN d 1 m_key with Some (d', _) => d' | None => d end
  | None => (m_nsk j, [])
  end.
Definition m_answer (j : Z) : option (nz_sess toyN * bytes) := answer toyC (m_dev j) m_rand (slice (j * 159 + 111) 48 (m_sent m_in2 1)).
Definition m_in : list bytes := Eval vm_compute in
  m_in2 ++ [m_each 0 159 (fun j _ => match m_answer j with Some (_, m) => m | None => [] end) (m_got 3);
            slice 0 111 (m_got 4) ++ m_each 111 175 (fun _ m => skipn 111 m) (m_got 4)].
Definition m_calls : list peer_call := m_calls_of m_in.

Definition tap_b (outs : list (Z * peer toyC * bytes)) (j : Z) : bool :=
  bytes_eqb (slice (111 + j * 175 + 143) 32 (fed m_calls 1)) (nz_pk toyN (nz_static toyN (m_dev j))) && bytes_eqb (slice 143 32 (wrote outs 0)) m_key &&
  match answer toyC (m_dev j) m_rand (slice (j * 159 + 111) 48 (wrote outs 1)) with Some (_, h) => bytes_eqb (slice (j * 159 + 111) 48 (fed m_calls 3)) h | None => false end.
Lemma m_dev_reach j : In j [1; 2] -> nz_reach toyN (m_dev j) /\ In m_key (map snd (nz_peers toyN (m_dev j))).
Proof.
  intros Hj. split.
  - apply (reach_add toyN (m_nsk j, []) 1 m_key _ 1); [apply (reach_create toyN (j + 1) (m_nsk j)); reflexivity|reflexivity|destruct Hj as [<-|[<-|[]]]; vm_compute; reflexivity].
  - left. destruct Hj as [<-|[<-|[]]]; vm_compute; reflexivity.
Qed.
Lemma tap_ok outs j : In j [1; 2] -> tap_b outs j = true -> exists s h, between toyC (g_peer 0) m_calls outs j (m_dev j) m_rand s h.
Proof.
  intros Hj H. unfold tap_b in H. apply andb_true_iff in H. destruct H as (H & H3). apply andb_true_iff in H. destruct H as (H1 & H2). apply bytes_eqb_eq in H1, H2.
  destruct (answer toyC (m_dev j) m_rand (slice (j * 159 + 111) 48 (wrote outs 1))) as [[s h]|] eqn:E; [|discriminate]. apply bytes_eqb_eq in H3. destruct (m_dev_reach j Hj) as (R & K).
  assert (Hn : p_n toyC (g_peer 0) = 4) by (vm_compute; reflexivity).
  exists s, h. constructor; [rewrite Hn; cbn [In] in Hj; lia|exact R|exact H1|rewrite H2; exact K|exact E|exact H3].
Qed.
Lemma m_clock e i o j : In (e, i, o) m_calls -> is_u64 (pe_s e j).
Proof.
  intros H. unfold m_calls, m_calls_of in H. apply in_map_iff in H. destruct H as ([[s a] z] & E & H). cbn [fst snd] in E. injection E as <- <- <-.
  apply in_combine_l in H. apply in_combine_l in H. cbn [d_penv pe_s]. unfold is_u64, tx_now. cbn [In] in H. intuition (subst; lia).
Qed.

(** peer 1's two random coefficients are 7 and 11 *)
Lemma C100_example : exists C p calls outs a (taps : list (Z * nz_sess (cN C))), crypto_ok C /\ dealt C p calls outs a /\
  Forall (fun t => exists d rand hs2, between C p calls outs (fst t) d rand (snd t) hs2) taps /\ NoDup (map fst taps) /\ p_t C p <= Z.of_nat (length taps) /\
  map fst taps = [1; 2] /\ a = [7; 11].
Proof.
  destruct (run_ok (peer_run toyC (g_peer 0) m_calls) (fun outs => forallb (fun o => fst (fst o) =? 0) outs && (tap_b outs 1 && tap_b outs 2)) true) as (outs & R & H); [vm_compute; reflexivity|].
  apply andb_true_iff in H. destruct H as (H1 & H). apply andb_true_iff in H. destruct H as (H2 & H3). destruct (tap_ok outs 1 ltac:(cbn; auto) H2) as (s1 & h1 & B1). destruct (tap_ok outs 2 ltac:(cbn; auto) H3) as (s2 & h2 & B2).
  exists toyC, (g_peer 0), m_calls, outs, [7; 11], [(1, s1); (2, s2)]. split; [exact toyC_ok|]. split.
  - constructor; [apply fresh_b_ok; vm_compute; reflexivity|exact R|reflexivity|apply all_0; exact H1|exact m_clock|do 3 eexists; split; reflexivity|].
    split; [vm_compute; reflexivity|]. pose proof Fq.L_gt_65536. constructor; [|constructor; [|constructor]]; unfold random_scalar; lia.
  - split; [constructor; [exists (m_dev 1), m_rand, h1; exact B1|constructor; [exists (m_dev 2), m_rand, h2; exact B2|constructor]]|].
    split; [cbn [map fst]; repeat constructor; cbn [In]; lia|]. split; [vm_compute; discriminate|]. split; reflexivity.
Qed.

(** the trusted party's key broadcast, and the one with the stranger's keys *)
Definition m_attack : res (Z * tp * bytes * (Z * peer toyC * bytes)) :=
  do x <- tp_next toyC (d_env_ 1) d_tp_1 d_net_1 (d_out_ d_tp_1) ;;
  do y <- peer_next toyC (d_penv 1 1) d_peer_1 (forged toyC m_who m_sk m_npk 3 (snd x)) (d_pout_ d_peer_1) ;; Ok (x, y).
Definition same_keys (a b : list bytes) : bool := bytes_eqb (concat a) (concat b).
Lemma C100_refutation : exists C e c input out c' out' pe p heard pout p' pout', crypto_ok C /\ tp_wf c /\ is_u64 (e_s e 0) /\ t_step c = 1 /\
  tp_next C e c input out = Ok (0, c', out') /\ peer_wf C p /\ p_step C p = 1 /\ p_n C p = t_n c /\ p_sid C p = t_sid c /\ p_tp_pk C p = sig_pk (cS C) (t_sk c) /\
  zlen heard = zlen out' /\ slice 0 111 heard = slice 0 111 out' /\ peer_next C pe p heard pout = Ok (0, p', pout') /\ p_pks C p' <> t_pks c'.
Proof.
  destruct (run_ok m_attack (fun o => ((fst (fst (fst o)) =? 0) && (fst (fst (snd o)) =? 0)) && ((zlen (forged toyC m_who m_sk m_npk 3 (snd (fst o))) =? zlen (snd (fst o))) &&
    bytes_eqb (slice 0 111 (forged toyC m_who m_sk m_npk 3 (snd (fst o)))) (slice 0 111 (snd (fst o))) && negb (same_keys (p_pks toyC (snd (fst (snd o)))) (t_pks (snd (fst (fst o))))))) true)
    as ([[[ret c'] out'] [[ret2 p'] pout']] & E & H); [vm_compute; reflexivity|]. cbn [fst snd] in H.
  apply andb_true_iff in H. destruct H as (H1 & H3). apply andb_true_iff in H1, H3. destruct H1 as (H1 & H2). destruct H3 as (H3 & H5).
  apply andb_true_iff in H3. destruct H3 as (H3 & H4). apply Z.eqb_eq in H1, H2, H3. subst ret ret2. apply bytes_eqb_eq in H4. apply negb_true_iff in H5.
  unfold m_attack in E. apply bind_ok in E. destruct E as (x & E1 & E). apply bind_ok in E. destruct E as (y & E2 & E).
  assert (Hx : x = (0, c', out')) by congruence. assert (Hy : y = (0, p', pout')) by congruence. subst x y. cbn [snd] in E2.
  exists toyC, (d_env_ 1), d_tp_1, d_net_1, (d_out_ d_tp_1), c', out', (d_penv 1 1), d_peer_1, (forged toyC m_who m_sk m_npk 3 out'), (d_pout_ d_peer_1), p', pout'.
  split; [exact toyC_ok|]. split; [apply wf_of_b; vm_compute; reflexivity|]. split; [vm_compute; intuition discriminate|]. split; [vm_compute; reflexivity|]. split; [exact E1|].
  split; [apply wf_b_ok; vm_compute; reflexivity|]. split; [vm_compute; reflexivity|]. split; [vm_compute; reflexivity|]. split; [vm_compute; reflexivity|]. split; [vm_compute; reflexivity|].
  split; [exact H3|]. split; [exact H4|]. split; [exact E2|].
  intros Q. unfold same_keys in H5. rewrite Q in H5. assert (bytes_eqb (concat (t_pks c')) (concat (t_pks c')) = true) by (apply bytes_eqb_eq; reflexivity). congruence.
Qed.
Lemma keys_authentic_refuted : ~ forall C e c input out c' out' pe p heard pout p' pout',
  crypto_ok C -> tp_wf c -> is_u64 (e_s e 0) -> t_step c = 1 -> tp_next C e c input out = Ok (0, c', out') ->
  peer_wf C p -> p_step C p = 1 -> p_n C p = t_n c -> p_sid C p = t_sid c -> p_tp_pk C p = sig_pk (cS C) (t_sk c) ->
  zlen heard = zlen out' -> slice 0 111 heard = slice 0 111 out' ->
  peer_next C pe p heard pout = Ok (0, p', pout') -> p_pks C p' = t_pks c'.
Proof.
  intros A. destruct C100_refutation as (C & e & c & input & out & c' & out' & pe & p & heard & pout & p' & pout' & H1 & H2 & H3 & H4 & H5 & H6 & H7 & H8 & H9 & H10 & H11 & H12 & H13 & H14).
  apply H14. exact (A C e c input out c' out' pe p heard pout p' pout' H1 H2 H3 H4 H5 H6 H7 H8 H9 H10 H11 H12 H13).
Qed.
