(** C98 over the toy primitives: the session of GoodExamples.v, and the same with another polynomial
    drawn by peer 1. *)
From Coq Require Import ZArith Lia List Bool.
From Coq.Strings Require Import Byte.
From Verif Require Import PrimeL Bytes Res Mem Sodium ToprfModel ToprfSpec DkgModel DkgSpec WireModel WireSpec TpCrypto TpModel PeerModel TpRun TpSpec TpControl SafeSpec TpExamples TpRunExamples SafeExamples GoodSpec GoodExamples KeySpec.
Import ListNotations.
Open Scope list_scope.
Open Scope Z_scope.

Definition k_penv (i s : Z) : penv := if i =? 0 then with_poly [20; 11] (d_penv i s) else d_penv i s.
Definition k_sched : sched := mkSched (s_tp d_sched) k_penv (s_buf d_sched).
Fixpoint k_rec (fuel : nat) (r : run toyC) : list (bytes * list bytes) :=
  match fuel with
  | O => []
  | S fuel' =>
      let ins := match tp_next toyC (s_tp k_sched (t_step (r_tp toyC r))) (r_tp toyC r) (r_net toyC r) (zeros (Z.to_nat (tp_output_size (r_tp toyC r)))) with
        | Ok (_, c', out') => match dispatch_all c' out' (zrange 0 4) with Ok (Some l) => l | _ => [] end
        | UB => [] end in
      (r_net toyC r, ins) :: match round toyC k_sched r with Ok (Some r') => k_rec fuel' r' | _ => [] end
  end.
Definition k_log := Eval vm_compute in k_rec 9 g_start.
Definition k_pcalls (i : Z) : list peer_call :=
  let m k := nth (Z.to_nat i) (nth k (map snd k_log) []) [] in
  map (fun x => (k_penv i (fst (fst x)), snd (fst x), zeros (snd x)))
    (combine (combine [0; 1; 2; 3; 4; 5; 6; 8; 9] [m 0; m 1; m 2; m 3; m 4; m 5; m 6; []; m 7]%nat) [239; 636; 636; 175; 1024; 116; 0; 143; 113]%nat).

Lemma k_s i s j : pe_s (k_penv i s) j = tx_now + 10 * s + 6.
Proof. unfold k_penv. destruct (i =? 0); reflexivity. Qed.
Lemma k_clock i e inp o j : In (e, inp, o) (k_pcalls i) -> is_u64 (pe_s e j).
Proof.
  intros H. unfold k_pcalls in H. cbv zeta in H. apply in_map_iff in H. destruct H as ([[s a] z] & E & H). cbn [fst snd] in E. injection E as <- <- <-.
  apply in_combine_l in H. apply in_combine_l in H. rewrite k_s. unfold is_u64, tx_now. cbn [In] in H. intuition (subst; lia).
Qed.
Lemma k_took outs i pouts : In i [0; 1] -> peer_run toyC (g_peer i) (k_pcalls i) = Ok pouts -> took_b (g_calls k_log) outs i (k_pcalls i) pouts = true ->
  took_part toyC g_tp (g_calls k_log) outs i (g_peer i) (k_pcalls i) pouts.
Proof.
  intros Hi R H. unfold took_b in H. apply andb_true_iff in H. destruct H as (H & H3). apply andb_true_iff in H. destruct H as (H1 & H2).
  assert (F : forall j, In j [0; 1] -> peer_fresh toyC (g_peer j) /\ p_n toyC (g_peer j) = 4 /\ p_t toyC (g_peer j) = 2).
  { intros j [<-|[<-|[]]]; (split; [apply fresh_b_ok; vm_compute; reflexivity|split; vm_compute; reflexivity]). }
  destruct (F i Hi) as (F1 & F2 & F3). constructor.
  - change (t_n g_tp) with 4. cbn [In] in Hi. lia.
  - exact F1.
  - exact F2.
  - exact F3.
  - exact R.
  - reflexivity.
  - apply all_0. exact H1.
  - intros e inp o j. apply k_clock.
  - intros e inp o E. unfold k_pcalls in E. cbn [combine map nth_error fst snd] in E. injection E as <- _ _. rewrite F3. pose proof Fq.L_gt_65536.
    destruct Hi as [<-|[<-|[]]]; (split; [reflexivity|]); unfold k_penv; cbn [Z.eqb with_poly pe_a d_penv]; (constructor; [|constructor; [|constructor]]); unfold random_scalar; lia.
  - intros s Hs. apply gets_b_ok. apply (proj1 (forallb_forall _ _) H2). apply in_seq. lia.
  - intros s Hs. apply gives_b_ok. apply (proj1 (forallb_forall _ _) H3). apply in_seq. lia.
Qed.

Definition two_runs : Type := list (Z * tp * bytes) * (list (Z * peer toyC * bytes) * list (Z * peer toyC * bytes)).
Definition k_all (log : list (bytes * list bytes)) (pc : Z -> list peer_call) : res two_runs :=
  do outs <- tp_run toyC g_tp (g_calls log) ;;
  do p0 <- peer_run toyC (g_peer 0) (pc 0) ;;
  do p1 <- peer_run toyC (g_peer 1) (pc 1) ;;
  Ok (outs, (p0, p1)).
Definition k_checks (log : list (bytes * list bytes)) (pc : Z -> list peer_call) (x : two_runs) : list bool * list share * list (list bytes) :=
  let '(outs, (p0, p1)) := x in
  ([forallb (fun o => fst (fst o) =? 0) outs; took_b (g_calls log) outs 0 (pc 0) p0; took_b (g_calls log) outs 1 (pc 1) p1;
    plain_b (received toyC (g_peer 0) p0); plain_b (received toyC (g_peer 1) p1); forallb usable_cs (published g_tp outs)],
   [key_share toyC (g_peer 0) p0; key_share toyC (g_peer 1) p1], published g_tp outs).
Lemma k_lift log pc x ks coms : length log = 9%nat -> k_all log pc = Ok x -> k_checks log pc x = ([true; true; true; true; true; true], ks, coms) ->
  (forall outs i pouts, In i [0; 1] -> peer_run toyC (g_peer i) (pc i) = Ok pouts -> took_b (g_calls log) outs i (pc i) pouts = true -> took_part toyC g_tp (g_calls log) outs i (g_peer i) (pc i) pouts) ->
  exists outs p0 p1, let parties := [(0, g_peer 0, pc 0, p0); (1, g_peer 1, pc 1, p1)] : list (party toyC) in
    ended toyC g_tp (g_calls log) outs parties /\ map share_of_party parties = ks /\ published g_tp outs = coms.
Proof.
  intros Hl E H HT. destruct x as (outs & (p0 & p1)). unfold k_all in E. apply bind_ok in E. destruct E as (o & E0 & E). apply bind_ok in E. destruct E as (q0 & E1 & E).
  apply bind_ok in E. destruct E as (q1 & E2 & E). injection E as -> -> ->.
  unfold k_checks in H. apply pair_equal_spec in H. destruct H as (H & Hc). apply pair_equal_spec in H. destruct H as (H & Hk). injection H as H1 H2 H3 H4 H5 H6.
  exists outs, p0, p1. cbv zeta. split; [|split; [exact Hk|exact Hc]]. constructor.
  - apply g_done; assumption.
  - apply sound_ok. exact H6.
  - constructor; [|constructor; [|constructor]]; (apply HT; [cbn; auto|assumption|assumption]).
  - constructor; [|constructor; [|constructor]]; apply plain_b_ok; assumption.
  - cbn [map number fst]. constructor; [intros [X|[]]; discriminate|constructor; [intros []|constructor]].
  - vm_compute. discriminate.
Qed.

Lemma C98_example : exists C c calls outs parties c' calls' outs' parties' (x x' : party C) a a', crypto_ok C /\
  ended C c calls outs parties /\ ended C c' calls' outs' parties' /\ t_n c = t_n c' /\ In x parties /\ In x' parties' /\ number x = number x' /\
  drew x a /\ drew x' a' /\ others_same (number x) (published c outs) (published c' outs') /\
  secret a = 7 /\ secret a' = 20 /\ key_of parties = 34 /\ key_of parties' = 47.
Proof.
  set (cm := map (fun i => commitments_of toyR [7 + i; 11 + i])). 
  destruct (run_ok (k_all g_log (g_pcalls g_log)) (k_checks g_log (g_pcalls g_log)) ([true; true; true; true; true; true], [mkShare 1 84; mkShare 2 134], cm [0; 1; 2; 3])) as (x & E & H); [vm_compute; reflexivity|].
  destruct (run_ok (k_all k_log k_pcalls) (k_checks k_log k_pcalls) ([true; true; true; true; true; true], [mkShare 1 97; mkShare 2 147], commitments_of toyR [20; 11] :: cm [1; 2; 3])) as (y & E' & H'); [vm_compute; reflexivity|].
  destruct (k_lift g_log (g_pcalls g_log) _ _ _ eq_refl E H) as (outs & p0 & p1 & D & K & P).
  { intros. apply g_took; [|assumption|assumption]. match goal with I : In _ [0; 1] |- _ => destruct I as [<-|[<-|[]]]; cbn; auto end. }
  destruct (k_lift k_log k_pcalls _ _ _ eq_refl E' H' k_took) as (outs' & p0' & p1' & D' & K' & P').
  exists toyC, g_tp, (g_calls g_log), outs, [(0, g_peer 0, g_pcalls g_log 0, p0); (1, g_peer 1, g_pcalls g_log 1, p1)],
    g_tp, (g_calls k_log), outs', [(0, g_peer 0, k_pcalls 0, p0'); (1, g_peer 1, k_pcalls 1, p1')],
    (0, g_peer 0, g_pcalls g_log 0, p0), (0, g_peer 0, k_pcalls 0, p0'), [7; 11], [20; 11].
  split; [exact toyC_ok|]. split; [exact D|]. split; [exact D'|]. split; [reflexivity|]. split; [left; reflexivity|]. split; [left; reflexivity|]. split; [reflexivity|].
  split; [unfold drew, g_pcalls; cbn [fst snd combine map nth_error]; do 3 eexists; split; reflexivity|].
  split; [unfold drew, k_pcalls; cbn [fst snd combine map nth_error]; do 3 eexists; split; reflexivity|].
  split. { rewrite P, P'. unfold others_same. cbn [number fst]. change (Z.to_nat 0) with 0%nat. intros [|j] Hj; [contradiction|]. unfold cm. cbn [map nth_error]. reflexivity. }
  split; [reflexivity|]. split; [reflexivity|]. unfold key_of. rewrite K, K'. pose proof Fq.L_gt_65536. rewrite !(two_rec 1) by lia. split; apply Z.mod_small; lia.
Qed.

Lemma C98_before_example : exists C p calls calls' outs, crypto_ok C /\ p_step C p = 0 /\ length calls = 3%nat /\ Forall2 same_but_poly calls calls' /\
  map (fun x => pe_a (fst (fst x))) calls <> map (fun x => pe_a (fst (fst x))) calls' /\
  peer_run C p calls = Ok outs /\ map (fun o => fst (fst o)) outs = [0; 0; 0].
Proof.
  destruct (run_ok (peer_run toyC (g_peer 0) (firstn 3 (g_pcalls g_log 0))) (fun outs => map (fun o => fst (fst o)) outs) [0; 0; 0]) as (outs & E & H); [vm_compute; reflexivity|].
  exists toyC, (g_peer 0), (firstn 3 (g_pcalls g_log 0)), (map (fun x => (with_poly [20; 11] (fst (fst x)), snd (fst x), snd x)) (firstn 3 (g_pcalls g_log 0))), outs.
  split; [exact toyC_ok|]. split; [vm_compute; reflexivity|]. split; [reflexivity|].
  split. { generalize (firstn 3 (g_pcalls g_log 0)). induction l as [|c l IH]; [constructor|constructor; [exists [20; 11]; reflexivity|exact IH]]. }
  split; [|split; [exact E|exact H]]. vm_compute. discriminate.
Qed.
