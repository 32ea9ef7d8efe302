(** Concrete cases and witnesses for sessions driven from Python (C58) *)
From Coq Require Import ZArith Lia List Bool.
From Coq.Strings Require Import Byte.
From Verif Require Import Bytes Res Mem Sodium ToprfModel DkgModel WireModel WireSpec TpCrypto TpModel PeerModel TpRun TpSpec SafeSpec PyModel PySpec PyProofs PySession
  TpExamples TpRunExamples SafeExamples PyExamples.
Import ListNotations.
Open Scope list_scope.
Open Scope Z_scope.

Lemma py_ok {X Y} (r : py X) (f : X -> Y) v : match r with Ret x => Some (f x) | _ => None end = Some v -> exists x, r = Ret x /\ f x = v.
Proof. destruct r as [x| |]; intros H; try discriminate. injection H as H. exists x. auto. Qed.

Definition ps_lts : list bytes := map (fun i => sig_pk toyS (d_lt i)) (zrange 0 3).
Definition ps_start (n t : Z) : py (tp * bytes) := py_start_tp toyC yes 64 n t 3600 [x70] ps_lts tx_sid tx_sk tx_now (tx_now - 100).

(** 258 peers asked for, a session for 2 started *)
Lemma C58_start_witness : exists C al addr n t eps name lts sid sk now now' c msg, crypto_ok C /\
  py_start_tp C al addr n t eps name lts sid sk now now' = Ret (c, msg) /\ n = 258 /\ t_n c = 2.
Proof.
  destruct (py_ok (ps_start 258 1) (fun o => t_n (fst o)) 2) as ([c msg] & E & Hn); [vm_compute; reflexivity|].
  exists toyC, yes, 64, 258, 1, 3600, [x70], ps_lts, tx_sid, tx_sk, tx_now, (tx_now - 100), c, msg.
  split; [exact toyC_ok|]. split; [exact E|]. split; [reflexivity|exact Hn].
Qed.

Definition ps_env (k : Z) : env := s_quiet (d_env_ k).
Definition ps_calls : list ((Z -> bool) * env * bytes) := [(yes, ps_env 0, []); (yes, ps_env 1, d_net_1)].
Definition is_bad {X} (r : py X) : bool := match r with Bad => true | _ => false end.
Lemma is_bad_eq {X} (r : py X) : is_bad r = true -> r = Bad.
Proof. destruct r; try discriminate. reflexivity. Qed.
Definition all_some (l : list (option bytes)) : bool := forallb (fun o => match o with Some _ => true | None => false end) l.
Lemma all_some_eq l : all_some l = true -> Forall (fun o => o <> None) l.
Proof. intros H. apply Forall_forall. intros o Ho ->. apply (proj1 (forallb_forall _ _) H) in Ho. discriminate. Qed.

Definition ps_run (calls : list ((Z -> bool) * env * bytes)) : py (tp * bytes * (list (option bytes) * tp)) :=
  get s <- ps_start 3 2 ;; get r <- py_tp_run toyC (fst s) calls ;; Ret (s, r).
Lemma ps_run_inv calls s r : ps_run calls = Ret (s, r) -> ps_start 3 2 = Ret s /\ py_tp_run toyC (fst s) calls = Ret r.
Proof.
  unfold ps_run. intros H. apply pbind_ret in H. destruct H as (s1 & E & H). apply pbind_ret in H. destruct H as (r1 & E1 & H). injection H as <- <-. auto.
Qed.

(** a wrong message number in the third call *)
Lemma C58_log_witness : exists C al addr n t eps name lts sid sk now now' c0 msg0 calls outs c e msg, crypto_ok C /\
  py_start_tp C al addr n t eps name lts sid sk now now' = Ret (c0, msg0) /\
  2 <= n <= 128 /\ 2 <= t < n /\ zlen sid = 32 /\ 32 * n <= zlen (concat lts) /\
  Forall quiet calls /\ py_tp_run C c0 calls = Ret (outs, c) /\ Forall (fun o => o <> None) outs /\
  e_log e = false /\ py_tp_next C al e c msg = Bad.
Proof.
  destruct (py_ok (ps_run ps_calls) (fun o => (all_some (fst (snd o)), is_bad (py_tp_next toyC yes (ps_env 2) (snd (snd o)) s_net_2))) (true, true))
    as ([[c0 msg0] [outs c]] & E & H); [vm_compute; reflexivity|].
  apply ps_run_inv in E. destruct E as (E1 & E2). cbn [fst snd] in H, E2. injection H as H1 H2.
  exists toyC, yes, 64, 3, 2, 3600, [x70], ps_lts, tx_sid, tx_sk, tx_now, (tx_now - 100), c0, msg0, ps_calls, outs, c, (ps_env 2), s_net_2.
  split; [exact toyC_ok|]. split; [exact E1|]. split; [lia|]. split; [lia|]. split; [reflexivity|]. split; [vm_compute; discriminate|].
  split; [repeat constructor|]. split; [exact E2|]. split; [apply all_some_eq; exact H1|]. split; [reflexivity|]. apply is_bad_eq. exact H2.
Qed.

(** three calls in a row succeed, one with a message of the wrong size in between does not *)
Definition ps_calls3 : list ((Z -> bool) * env * bytes) := [(yes, ps_env 0, []); (yes, ps_env 1, [x00]); (yes, ps_env 1, d_net_1); (yes, ps_env 2, d_net_2)].
Lemma C58_tp_example : exists al addr n t eps name lts sid sk now now' c0 msg0 calls outs c, crypto_ok toyC /\
  py_start_tp toyC al addr n t eps name lts sid sk now now' = Ret (c0, msg0) /\
  0 <= n < 256 /\ 1 <= t < 256 /\ zlen sid = 32 /\ 32 * n <= zlen (concat lts) /\
  Forall quiet calls /\ py_tp_run toyC c0 calls = Ret (outs, c) /\
  map (fun o => match o with Some _ => true | None => false end) outs = [true; false; true; true] /\ t_step c = 3.
Proof.
  destruct (py_ok (ps_run ps_calls3) (fun o => (map (fun o => match o with Some _ => true | None => false end) (fst (snd o)), t_step (snd (snd o)))) ([true; false; true; true], 3))
    as ([[c0 msg0] [outs c]] & E & H); [vm_compute; reflexivity|].
  apply ps_run_inv in E. destruct E as (E1 & E2). cbn [fst snd] in H, E2. injection H as H1 H2.
  exists yes, 64, 3, 2, 3600, [x70], ps_lts, tx_sid, tx_sk, tx_now, (tx_now - 100), c0, msg0, ps_calls3, outs, c.
  split; [exact toyC_ok|]. split; [exact E1|]. split; [lia|]. split; [lia|]. split; [reflexivity|]. split; [vm_compute; discriminate|].
  split; [repeat constructor|]. split; [exact E2|]. split; [exact H1|exact H2].
Qed.

(** peers *)
Definition ps_peer : py (peer toyC) := py_start_peer toyC yes 64 3600 (d_lt 1) d_msg0 (tx_now + 1).
Lemma C58_peer_example : exists al addr eps sk msg0 now (c : peer toyC), crypto_ok toyC /\ py_start_peer toyC al addr eps sk msg0 now = Ret c /\
  p_n toyC c = 3 /\ zlen msg0 = 177.
Proof.
  destruct (py_ok ps_peer (fun c => p_n toyC c) 3) as (c & E & H); [vm_compute; reflexivity|].
  exists yes, 64, 3600, (d_lt 1), d_msg0, (tx_now + 1), c. split; [exact toyC_ok|]. split; [exact E|]. split; [exact H|vm_compute; reflexivity].
Qed.
Lemma C58_short_witness : exists C al addr eps sk msg0 now, crypto_ok C /\ zlen sk = 64 /\ py_start_peer C al addr eps sk msg0 now = Bad.
Proof.
  exists toyC, yes, 64, 3600, (d_lt 1), (zeros 20), tx_now. split; [exact toyC_ok|]. split; [reflexivity|].
  apply py_start_peer_short; [reflexivity|lia|reflexivity].
Qed.

Definition ps_prun (calls : list ((Z -> bool) * penv * bytes)) : py (peer toyC * (list (option bytes) * peer toyC)) :=
  get c <- ps_peer ;; get r <- py_peer_run toyC c calls ;; Ret (c, r).
Lemma ps_prun_inv calls s r : ps_prun calls = Ret (s, r) -> ps_peer = Ret s /\ py_peer_run toyC s calls = Ret r.
Proof.
  unfold ps_prun. intros H. apply pbind_ret in H. destruct H as (s1 & E & H). apply pbind_ret in H. destruct H as (r1 & E1 & H). injection H as <- <-. auto.
Qed.
Definition ps_pcalls : list ((Z -> bool) * penv * bytes) :=
  [(yes, d_penv 1 0, d_pin_0); (yes, d_penv 1 1, d_pin_1); (yes, d_penv 1 2, d_pin_2); (yes, d_penv 1 3, d_pin_3)].
Lemma C58_prun_example : exists al addr eps sk msg0 now (c0 : peer toyC) calls outs c e msg, crypto_ok toyC /\ py_start_peer toyC al addr eps sk msg0 now = Ret c0 /\
  py_peer_run toyC c0 calls = Ret (outs, c) /\ Forall (fun o => o <> None) outs /\ p_step toyC c = 4 /\ Forall usable (p_outs toyC c) /\
  exists out c', py_peer_next toyC al e c msg = Ret (Some out, c').
Proof.
  destruct (py_ok (ps_prun ps_pcalls) (fun o => (all_some (fst (snd o)), p_step toyC (snd (snd o)), forallb usable_b (p_outs toyC (snd (snd o))),
    match py_peer_next toyC yes (d_penv 1 4) (snd (snd o)) d_pin_4 with Ret (Some _, _) => true | _ => false end)) (true, 4, true, true))
    as ([c0 [outs c]] & E & H); [vm_compute; reflexivity|].
  apply ps_prun_inv in E. destruct E as (E1 & E2). cbn [fst snd] in H, E2. injection H as H1 H2 H3 H4.
  exists yes, 64, 3600, (d_lt 1), d_msg0, (tx_now + 1), c0, ps_pcalls, outs, c, (d_penv 1 4), d_pin_4.
  split; [exact toyC_ok|]. split; [exact E1|]. split; [exact E2|]. split; [apply all_some_eq; exact H1|]. split; [exact H2|].
  split; [apply usable_all; exact H3|].
  revert H4. generalize (py_peer_next toyC yes (d_penv 1 4) c d_pin_4). intros r Hr. destruct r as [[[o|] c']| |]; try discriminate Hr.
  exists o, c'. reflexivity.
Qed.

(** messages for the peers: 256 is taken for 0 *)
Lemma C58_slice_witness : exists c base peer m, tp_wf c /\ t_n c <= peer /\ py_tp_peer_msg c base peer = Ret m /\ zlen m = 111.
Proof.
  destruct (py_ok (py_tp_peer_msg d_tp_1 (zeros 333) 256) zlen 111) as (m & E & H); [vm_compute; reflexivity|].
  exists d_tp_1, (zeros 333), 256, m. split; [apply wf_of_b; vm_compute; reflexivity|]. split; [vm_compute; discriminate|]. split; [exact E|exact H].
Qed.
