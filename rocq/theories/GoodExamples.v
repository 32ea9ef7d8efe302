(** C80 over the toy primitives: four peers, threshold 2; everybody follows the protocol, or peer 4
    publishes useless commitments and deals inconsistent shares. *)
From Coq Require Import ZArith Lia List Bool.
From Coq.Strings Require Import Byte.
From Verif Require Import PrimeL Bytes Res Mem Sodium ToprfModel ToprfSpec DkgModel DkgSpec WireModel WireSpec TpCrypto TpModel PeerModel TpRun TpSpec TpControl SafeSpec TpExamples TpRunExamples SafeExamples GoodSpec.
From Verif Require DkgProofs.
Import ListNotations.
Open Scope list_scope.
Open Scope Z_scope.

Definition g_started : hres tp := start_tp toyC d_blank 3600 4 2 [x70] (zeros (Z.to_nat msg0_SIZE)) tx_sid tx_sk tx_now.
Definition g_c1 : tp := match g_started with Ok (_, c, _) => c | UB => d_blank end.
Definition g_msg0 : bytes := match g_started with Ok (_, _, m) => m | UB => [] end.
Definition g_tp : tp :=
  tp_set_bufs g_c1 (repeat (repeat (zeros 32) 2) 4) 16 (zeros (Z.to_nat (16 * msg8_SIZE))) 4 (repeat (zeros 32) 4)
    (map (fun i => sig_pk toyS (d_lt i)) (zrange 0 4)) (tx_now - 100).
Definition g_peer (i : Z) : peer toyC :=
  match start_peer toyC d_pblank 3600 (d_lt i) g_msg0 (tx_now + 1) with
  | Ok (_, p) => peer_set_bufs toyC p (repeat (zeros 32) 4) (repeat (zeros 32) 4) (repeat Null 4) (repeat Null 4)
      (repeat (mkShare 0 0) 4) (repeat (mkShare 0 0) 4) (repeat (repeat (zeros 32) 2) 4) 16 4
  | UB => d_pblank end.

(** the inputs of the trusted party and of the peers, round by round; [bad k r] is what becomes of the
    parties and the network before round k *)
Fixpoint g_rec (bad : nat -> run toyC -> run toyC) (fuel k : nat) (r : run toyC) : list (bytes * list bytes) :=
  match fuel with
  | O => []
  | S fuel' =>
      let r := bad k r in
      let ins := match tp_next toyC (s_tp d_sched (t_step (r_tp toyC r))) (r_tp toyC r) (r_net toyC r) (zeros (Z.to_nat (tp_output_size (r_tp toyC r)))) with
        | Ok (_, c', out') => match dispatch_all c' out' (zrange 0 4) with Ok (Some l) => l | _ => [] end
        | UB => [] end in
      (r_net toyC r, ins) :: match round toyC d_sched r with Ok (Some r') => g_rec bad fuel' (S k) r' | _ => [] end
  end.
Definition g_start : run toyC := mkRun toyC g_tp (map g_peer (zrange 0 4)) [].
Definition g_good (k : nat) (r : run toyC) : run toyC := r.
(** before round 4: peer 4 has published its commitments, and is about to send its shares *)
Definition g_bad (k : nat) (r : run toyC) : run toyC :=
  match k with
  | 4%nat => mkRun toyC (r_tp toyC r)
      (firstn 3 (r_peers toyC r) ++ map (fun p => peer_shares_set toyC p [mkShare 1 5; mkShare 2 70; mkShare 3 6; mkShare 4 0]) (skipn 3 (r_peers toyC r)))
      (patch (3 * 175 + 111) (zeros 64) (r_net toyC r))
  | _ => r
  end.
Definition g_log : list (bytes * list bytes) := Eval vm_compute in g_rec g_good 9 0 g_start.
Definition g_badlog : list (bytes * list bytes) := Eval vm_compute in g_rec g_bad 9 0 g_start.

Definition g_calls (log : list (bytes * list bytes)) : list tp_call :=
  map (fun x => (d_env_ (fst (fst x)), snd (fst x), zeros (snd x)))
    (combine (combine [0; 1; 2; 3; 4; 5; 6; 8; 9] (map fst log)) [444; 811; 2544; 2544; 811; 4096; 575; 113; 0]%nat).
Definition g_pcalls (log : list (bytes * list bytes)) (i : Z) : list peer_call :=
  let m k := nth (Z.to_nat i) (nth k (map snd log) []) [] in
  map (fun x => (d_penv i (fst (fst x)), snd (fst x), zeros (snd x)))
    (combine (combine [0; 1; 2; 3; 4; 5; 6; 8; 9] [m 0; m 1; m 2; m 3; m 4; m 5; m 6; []; m 7]%nat) [239; 636; 636; 175; 1024; 116; 0; 143; 113]%nat).

(** the conditions, as computations *)
Definition g_eq (r : res bytes) (b : bytes) : bool := match r with Ok m => bytes_eqb m b | UB => false end.
Lemma g_eq_ok r b : g_eq r b = true -> r = Ok b.
Proof. destruct r as [m|]; [|discriminate]. intros H. apply bytes_eqb_eq in H. congruence. Qed.
Definition gets_b (k : Z) (outs : list (Z * tp * bytes)) (pcalls : list peer_call) (s : nat) : bool :=
  match nth_error outs s, nth_error pcalls s with
  | Some (r, c', out'), Some (_, input, _) => (r =? 0) && match tp_peer_msg c' (zlen out') k with (r', Some (off, len)) => (r' =? 0) && g_eq (rd out' off len) input | _ => false end
  | _, _ => false
  end.
Lemma gets_b_ok k outs pcalls s : gets_b k outs pcalls s = true -> gets toyC k outs pcalls s.
Proof.
  unfold gets_b. intros H. destruct (nth_error outs s) as [[[r c'] out']|] eqn:E1; [|discriminate]. destruct (nth_error pcalls s) as [[[e input] out]|] eqn:E2; [|discriminate].
  apply andb_true_iff in H. destruct H as (H1 & H). apply Z.eqb_eq in H1. subst r. destruct (tp_peer_msg c' (zlen out') k) as [r' [[off len]|]] eqn:E3; [|discriminate].
  apply andb_true_iff in H. destruct H as (H1 & H). apply Z.eqb_eq in H1. subst r'. apply g_eq_ok in H. exists c', out', off, len, e, input, out. repeat split; assumption.
Qed.
Definition gives_b (k : Z) (calls : list tp_call) (pouts : list (Z * peer toyC * bytes)) (s : nat) : bool :=
  match nth_error pouts s, nth_error calls (S s) with
  | Some (r, _, w), Some (_, input, _) => (r =? 0) && g_eq (rd input (k * zlen w) (zlen w)) w
  | _, _ => false
  end.
Lemma gives_b_ok k calls pouts s : gives_b k calls pouts s = true -> gives toyC k calls pouts s.
Proof.
  unfold gives_b. intros H. destruct (nth_error pouts s) as [[[r p'] w]|] eqn:E1; [|discriminate]. destruct (nth_error calls (S s)) as [[[e input] out]|] eqn:E2; [|discriminate].
  apply andb_true_iff in H. destruct H as (H1 & H). apply Z.eqb_eq in H1. subst r. apply g_eq_ok in H. exists p', w, e, input, out. repeat split; assumption.
Qed.
Definition took_b (calls : list tp_call) (outs : list (Z * tp * bytes)) (k : Z) (pcalls : list peer_call) (pouts : list (Z * peer toyC * bytes)) : bool :=
  forallb (fun o => fst (fst o) =? 0) pouts && forallb (gets_b k outs pcalls) (seq 0 7) && forallb (gives_b k calls pouts) (seq 0 6).
Lemma all_0 {A B} (l : list (Z * A * B)) : forallb (fun o => fst (fst o) =? 0) l = true -> Forall (fun o => fst (fst o) = 0) l.
Proof. intros H. apply Forall_forall. intros o Ho. apply Z.eqb_eq. exact (proj1 (forallb_forall _ _) H o Ho). Qed.
Lemma clock_p log i e inp o j : In (e, inp, o) (g_pcalls log i) -> is_u64 (pe_s e j).
Proof.
  intros H. unfold g_pcalls in H. cbv zeta in H. apply in_map_iff in H. destruct H as ([[s a] z] & E & H). cbn [fst snd] in E. injection E as <- <- <-.
  apply in_combine_l in H. apply in_combine_l in H. cbn [d_penv pe_s]. unfold is_u64, tx_now. cbn [In] in H. intuition (subst; lia).
Qed.
Lemma clock_t log e inp o j : In (e, inp, o) (g_calls log) -> is_u64 (e_s e j).
Proof.
  intros H. unfold g_calls in H. apply in_map_iff in H. destruct H as ([[s a] z] & E & H). cbn [fst snd] in E. injection E as <- <- <-.
  apply in_combine_l in H. apply in_combine_l in H. cbn [d_env_ d_sched s_tp e_s]. unfold is_u64, tx_now. cbn [In] in H. intuition (subst; lia).
Qed.
Lemma g_took log outs i pouts : In i [0; 1; 2; 3] -> peer_run toyC (g_peer i) (g_pcalls log i) = Ok pouts -> took_b (g_calls log) outs i (g_pcalls log i) pouts = true ->
  took_part toyC g_tp (g_calls log) outs i (g_peer i) (g_pcalls log i) pouts.
Proof.
  intros Hi R H. unfold took_b in H. apply andb_true_iff in H. destruct H as (H & H3). apply andb_true_iff in H. destruct H as (H1 & H2).
  assert (F : forall j, In j [0; 1; 2; 3] -> peer_fresh toyC (g_peer j) /\ p_n toyC (g_peer j) = 4 /\ p_t toyC (g_peer j) = 2).
  { intros j [<-|[<-|[<-|[<-|[]]]]]; (split; [apply fresh_b_ok; vm_compute; reflexivity|split; vm_compute; reflexivity]). }
  destruct (F i Hi) as (F1 & F2 & F3). constructor.
  - change (t_n g_tp) with 4. cbn [In] in Hi. lia.
  - exact F1.
  - exact F2.
  - exact F3.
  - exact R.
  - reflexivity.
  - apply all_0. exact H1.
  - intros e inp o j. apply clock_p.
  - intros e inp o E. unfold g_pcalls in E. cbn [combine map nth_error fst snd] in E. injection E as <- _ _. rewrite F3. cbn [d_penv pe_a]. split; [reflexivity|].
    pose proof Fq.L_gt_65536. constructor; [|constructor; [|constructor]]; unfold random_scalar; cbn [In] in Hi; lia.
  - intros s Hs. apply gets_b_ok. apply (proj1 (forallb_forall _ _) H2). apply in_seq. lia.
  - intros s Hs. apply gives_b_ok. apply (proj1 (forallb_forall _ _) H3). apply in_seq. lia.
Qed.
Lemma g_done log outs : length log = 9%nat -> tp_run toyC g_tp (g_calls log) = Ok outs -> forallb (fun o => fst (fst o) =? 0) outs = true -> done_well toyC g_tp (g_calls log) outs.
Proof.
  intros Hl R H. constructor.
  - apply wf_of_b. vm_compute. reflexivity.
  - vm_compute. reflexivity.
  - vm_compute. reflexivity.
  - exact R.
  - unfold g_calls. rewrite map_length, !combine_length, map_length, Hl. reflexivity.
  - apply all_0. exact H.
  - intros e inp o j. apply clock_t.
Qed.

(** the trusted party and peers 1, 2, 3 *)
Definition g_all (log : list (bytes * list bytes)) : res (list (Z * tp * bytes) * (list (Z * peer toyC * bytes) * list (Z * peer toyC * bytes) * list (Z * peer toyC * bytes))) :=
  do outs <- tp_run toyC g_tp (g_calls log) ;;
  do p0 <- peer_run toyC (g_peer 0) (g_pcalls log 0) ;;
  do p1 <- peer_run toyC (g_peer 1) (g_pcalls log 1) ;;
  do p2 <- peer_run toyC (g_peer 2) (g_pcalls log 2) ;;
  Ok (outs, (p0, p1, p2)).
Definition plain_b (l : list share) : bool := forallb (fun s => (0 <=? s_value s) && (s_value s <? 2 ^ 255)) l.
Lemma plain_b_ok l : plain_b l = true -> plain_shares l.
Proof. intros H. apply Forall_forall. intros s Hs. apply (proj1 (forallb_forall _ _) H) in Hs. apply andb_true_iff in Hs. destruct Hs as (A & B). apply Z.leb_le in A. apply Z.ltb_lt in B. lia. Qed.
Definition g_checks (log : list (bytes * list bytes)) (x : list (Z * tp * bytes) * (list (Z * peer toyC * bytes) * list (Z * peer toyC * bytes) * list (Z * peer toyC * bytes))) : list bool * list share :=
  let '(outs, (p0, p1, p2)) := x in
  ([forallb (fun o => fst (fst o) =? 0) outs;
    took_b (g_calls log) outs 0 (g_pcalls log 0) p0; took_b (g_calls log) outs 1 (g_pcalls log 1) p1; took_b (g_calls log) outs 2 (g_pcalls log 2) p2;
    plain_b (received toyC (g_peer 0) p0); plain_b (received toyC (g_peer 1) p1); plain_b (received toyC (g_peer 2) p2)],
   [key_share toyC (g_peer 0) p0; key_share toyC (g_peer 1) p1; key_share toyC (g_peer 2) p2]).

(** before round 4: bit 255 is set in the share peer 4 is about to send to peer 2 *)
Definition g_bad2 (k : nat) (r : run toyC) : run toyC :=
  match k with
  | 4%nat => mkRun toyC (r_tp toyC r)
      (firstn 3 (r_peers toyC r) ++ map (fun p => peer_shares_set toyC p (map (fun s => if s_index s =? 2 then mkShare 2 (s_value s + 2 ^ 255) else s) (p_shares toyC p))) (skipn 3 (r_peers toyC r)))
      (r_net toyC r)
  | _ => r
  end.
Definition g_bad2log : list (bytes * list bytes) := Eval vm_compute in g_rec g_bad2 9 0 g_start.

Definition g_party (log : list (bytes * list bytes)) (i : Z) (pouts : list (Z * peer toyC * bytes)) : party toyC := (i, g_peer i, g_pcalls log i, pouts).
Lemma g_lift log x pl ks : length log = 9%nat -> g_all log = Ok x -> g_checks log x = ([true; true; true; true; true; pl; true], ks) ->
  exists outs p0 p1 p2, x = (outs, (p0, p1, p2)) /\ done_well toyC g_tp (g_calls log) outs /\
    Forall (honest toyC g_tp (g_calls log) outs) [g_party log 0 p0; g_party log 1 p1; g_party log 2 p2] /\
    plain_shares (received_by (g_party log 0 p0)) /\ (pl = true -> plain_shares (received_by (g_party log 1 p1))) /\ plain_shares (received_by (g_party log 2 p2)) /\
    map share_of_party [g_party log 0 p0; g_party log 1 p1; g_party log 2 p2] = ks.
Proof.
  intros Hl E H. destruct x as (outs & ((p0 & p1) & p2)). unfold g_all in E. apply bind_ok in E. destruct E as (o & E0 & E). apply bind_ok in E. destruct E as (q0 & E1 & E).
  apply bind_ok in E. destruct E as (q1 & E2 & E). apply bind_ok in E. destruct E as (q2 & E3 & E). injection E as -> -> -> ->.
  unfold g_checks in H. apply pair_equal_spec in H. destruct H as (H & Hk). injection H as H1 H2 H3 H4 H5 H6 H7.
  exists outs, p0, p1, p2. split; [reflexivity|]. split; [apply g_done; assumption|].
  split. { constructor; [|constructor; [|constructor; [|constructor]]]; (apply g_took; [cbn; auto|assumption|assumption]). }
  split; [apply plain_b_ok; exact H5|]. split; [intros ->; apply plain_b_ok; exact H6|]. split; [apply plain_b_ok; exact H7|]. exact Hk.
Qed.

Definition usable_cs (cs : list bytes) : bool := forallb (fun b => match rdec toyR b with Some x => negb (bytes_eqb (renc toyR x) (renc toyR (rzero toyR))) | None => false end) (tl cs).
Lemma usable_cs_ok cs : usable_cs cs = true -> DkgSpec.usable toyR cs.
Proof.
  unfold usable_cs, DkgSpec.usable. induction (tl cs) as [|b l IH]; intros H; [exists []; split; constructor|]. cbn [forallb] in H. apply andb_true_iff in H. destruct H as (H & H').
  destruct (IH H') as (Cs & D & F). destruct (rdec toyR b) as [x|] eqn:E; [|discriminate]. exists (x :: Cs). split; [constructor; assumption|]. constructor; [|exact F].
  intros ->. apply negb_true_iff in H. assert (bytes_eqb (renc toyR (rzero toyR)) (renc toyR (rzero toyR)) = true) by (apply bytes_eqb_eq; reflexivity). congruence.
Qed.
Lemma sound_ok coms : forallb usable_cs coms = true -> sound_commitments toyC coms.
Proof. intros H. apply Forall_forall. intros cs Hc. apply usable_cs_ok. exact (proj1 (forallb_forall _ _) H cs Hc). Qed.

Lemma g_example : let C := toyC in let c := g_tp in let calls := g_calls g_log in exists outs (parties : list (party C)), crypto_ok C /\ done_well C c calls outs /\ sound_commitments C (published c outs) /\
  Forall (honest C c calls outs) parties /\ Forall (fun x => plain_shares (received_by x)) parties /\ NoDup (map number parties) /\ t_t c <= Z.of_nat (length parties) /\
  t_n c = 4 /\ map share_of_party parties = [mkShare 1 84; mkShare 2 134; mkShare 3 184].
Proof.
  intros C c calls.
  destruct (run_ok (g_all g_log) (fun x => (g_checks g_log x, forallb usable_cs (published g_tp (fst x)))) ([true; true; true; true; true; true; true], [mkShare 1 84; mkShare 2 134; mkShare 3 184], true))
    as (x & E & H); [vm_compute; reflexivity|]. apply pair_equal_spec in H. destruct H as (H & Hs).
  destruct (g_lift g_log x true _ eq_refl E H) as (outs & p0 & p1 & p2 & -> & D & HF & P0 & P1 & P2 & K). cbn [fst] in Hs.
  exists outs, [g_party g_log 0 p0; g_party g_log 1 p1; g_party g_log 2 p2]. split; [exact toyC_ok|]. split; [exact D|]. split; [apply sound_ok; exact Hs|].
  split; [exact HF|]. split; [constructor; [exact P0|constructor; [exact (P1 eq_refl)|constructor; [exact P2|constructor]]]|].
  split; [cbn [map number g_party fst]; repeat constructor; cbn [In]; lia|]. split; [vm_compute; discriminate|]. split; [reflexivity|]. exact K.
Qed.
Lemma C80_example : exists C c calls outs (parties : list (party C)), crypto_ok C /\ done_well C c calls outs /\ sound_commitments C (published c outs) /\
  Forall (honest C c calls outs) parties /\ Forall (fun x => plain_shares (received_by x)) parties /\ NoDup (map number parties) /\ t_t c <= Z.of_nat (length parties) /\
  t_n c = 4 /\ map share_of_party parties = [mkShare 1 84; mkShare 2 134; mkShare 3 184].
Proof. exists toyC, g_tp, (g_calls g_log). exact g_example. Qed.

Lemma two_of l a b c (q0 q1 q2 : party toyC) : map share_of_party [q0; q1; q2] = [a; b; c] -> l = [a; b; c] -> map share_of_party [q0; q1] = [a; b] /\ map share_of_party [q1; q2] = [b; c].
Proof. cbn [map]. intros H _. injection H as -> -> ->. split; reflexivity. Qed.

(** two neighbouring shares, without inverting anything *)
Lemma two_rec i v w : 1 <= i <= 254 -> dkg_reconstruct [mkShare i v; mkShare (i + 1) w] = (v - i * (w - v)) mod L.
Proof.
  intros Hi. rewrite (DkgProofs.dkg_reconstruct_spec [v - i * (w - v); w - v]).
  - f_equal. cbn [poly]. lia.
  - cbn [map s_index]. constructor; [intros [E|[]]; lia|constructor; [intros []|constructor]].
  - cbn [map s_index]. unfold index_ok. constructor; [lia|constructor; [lia|constructor]].
  - cbn [length]. lia.
  - intros s [<-|[<-|[]]]; cbn [s_value s_index poly]; f_equal; lia.
Qed.

Lemma C80_commitments_refutation : exists C c calls outs (q q' : list (party C)), crypto_ok C /\ done_well C c calls outs /\
  Forall (honest C c calls outs) q /\ Forall (honest C c calls outs) q' /\ Forall (fun x => plain_shares (received_by x)) (q ++ q') /\
  NoDup (map number q) /\ NoDup (map number q') /\ t_t c <= Z.of_nat (length q) /\ t_t c <= Z.of_nat (length q') /\
  dkg_reconstruct (map share_of_party q) <> dkg_reconstruct (map share_of_party q').
Proof.
  destruct (run_ok (g_all g_badlog) (g_checks g_badlog) ([true; true; true; true; true; true; true], [mkShare 1 65; mkShare 2 166; mkShare 3 138]))
    as (x & E & H); [vm_compute; reflexivity|].
  destruct (g_lift g_badlog x true _ eq_refl E H) as (outs & p0 & p1 & p2 & -> & D & HF & P0 & P1 & P2 & K). specialize (P1 eq_refl).
  destruct (two_of _ _ _ _ _ _ _ K eq_refl) as (K1 & K2). inversion HF as [|? ? F0 HF1]. inversion HF1 as [|? ? F1 HF2]. inversion HF2 as [|? ? F2 _]. subst.
  exists toyC, g_tp, (g_calls g_badlog), outs, [g_party g_badlog 0 p0; g_party g_badlog 1 p1], [g_party g_badlog 1 p1; g_party g_badlog 2 p2]. split; [exact toyC_ok|]. split; [exact D|].
  split; [constructor; [exact F0|constructor; [exact F1|constructor]]|]. split; [constructor; [exact F1|constructor; [exact F2|constructor]]|].
  split; [constructor; [exact P0|constructor; [exact P1|constructor; [exact P1|constructor; [exact P2|constructor]]]]|].
  split; [cbn [map number g_party fst]; repeat constructor; cbn [In]; lia|]. split; [cbn [map number g_party fst]; repeat constructor; cbn [In]; lia|].
  split; [vm_compute; discriminate|]. split; [vm_compute; discriminate|]. rewrite K1, K2. rewrite (two_rec 1), (two_rec 2) by lia. vm_compute. discriminate.
Qed.

Lemma C80_bit255_refutation : exists C c calls outs (q q' : list (party C)), crypto_ok C /\ done_well C c calls outs /\ sound_commitments C (published c outs) /\
  Forall (honest C c calls outs) q /\ Forall (honest C c calls outs) q' /\
  NoDup (map number q) /\ NoDup (map number q') /\ t_t c <= Z.of_nat (length q) /\ t_t c <= Z.of_nat (length q') /\
  dkg_reconstruct (map share_of_party q) <> dkg_reconstruct (map share_of_party q').
Proof.
  destruct (run_ok (g_all g_bad2log) (fun x => (g_checks g_bad2log x, forallb usable_cs (published g_tp (fst x)))) ([true; true; true; true; true; false; true], [mkShare 1 84; mkShare 2 ((134 + 2 ^ 255) mod L); mkShare 3 184], true))
    as (x & E & H); [vm_compute; reflexivity|]. apply pair_equal_spec in H. destruct H as (H & Hs).
  destruct (g_lift g_bad2log x false _ eq_refl E H) as (outs & p0 & p1 & p2 & -> & D & HF & P0 & _ & P2 & K). cbn [fst] in Hs.
  destruct (two_of _ _ _ _ _ _ _ K eq_refl) as (K1 & K2). inversion HF as [|? ? F0 HF1]. inversion HF1 as [|? ? F1 HF2]. inversion HF2 as [|? ? F2 _]. subst.
  exists toyC, g_tp, (g_calls g_bad2log), outs, [g_party g_bad2log 0 p0; g_party g_bad2log 1 p1], [g_party g_bad2log 1 p1; g_party g_bad2log 2 p2]. split; [exact toyC_ok|]. split; [exact D|].
  split; [apply sound_ok; exact Hs|].
  split; [constructor; [exact F0|constructor; [exact F1|constructor]]|]. split; [constructor; [exact F1|constructor; [exact F2|constructor]]|].
  split; [cbn [map number g_party fst]; repeat constructor; cbn [In]; lia|]. split; [cbn [map number g_party fst]; repeat constructor; cbn [In]; lia|].
  split; [vm_compute; discriminate|]. split; [vm_compute; discriminate|]. rewrite K1, K2. rewrite (two_rec 1), (two_rec 2) by lia. vm_compute. discriminate.
Qed.
