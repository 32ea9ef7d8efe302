(** The honest run, part 6: a session of honest parties succeeds and its shares make a key. *)
From Coq Require Import ZArith Lia List Bool Sorted.
From Coq.Strings Require Import Byte.
From Verif Require Import PrimeL Bytes Res Mem Sodium ToprfModel ToprfSpec DkgModel DkgSpec DkgProofs WireModel WireSpec WireProofs TpCrypto TpModel PeerModel
  TpFrame PeerFrame TpRun TpSpec TpMsg TpContent TpControl TpAgree TpStart RunSpec HonestMsg HonestState HonestTp HonestPeer HonestRun HonestWorld.
Import ListNotations.
Open Scope list_scope.
Open Scope Z_scope.

Section HONEST.
Variable C : crypto.
Hypothesis HC : crypto_ok C.
Variable x : ceremony C.
Variable w : sched.
Hypothesis HH : honest C x w.
Notation n := (h_n C x).
Notation t := (h_t C x).

(** the first message *)
Definition first (msg0 : bytes) : Prop := exists c, start_tp C (h_tp C x) (h_eps C x) n t (h_name C x) (h_msg0 C x) (h_sid C x) (h_sk C x) (h_now C x) = Ok (0, c, msg0).
Lemma begins_with : exists msg0, first msg0 /\ forall d0 s0, let W := W_ C x w d0 s0 (update_transcript str_transcript msg0) in begin C x = Ok (Some (mkRun C (T0 W) (zmap (P0 W) n) [])).
Proof.
  pose proof (hp_n C x w HH) as Hn. pose proof (hp_clock C x w HH) as (Hnow & _).
  destruct (start_forward C (h_tp C x) (h_eps C x) n t (h_name C x) (h_msg0 C x) (h_sid C x) (h_sk C x) (h_now C x) (ok_cS C HC) (ok_cH C HC)
    ltac:(lia) ltac:(lia) (hp_name C x w HH) (hp_msg0 C x w HH) (hp_sid C x w HH) Hnow) as (c' & msg0 & dst & E & Lm & Ld & Sg).
  exists msg0. split; [exists c'; exact E|]. intros d0 s0. cbv zeta. unfold begin. rewrite E. cbn [bind Z.eqb negb]. apply start_tp_exact in E. subst c'. cbn [t_n].
  set (W := W_ C x w d0 s0 (update_transcript str_transcript msg0)).
  assert (Lpk : zlen (sig_pk (cS C) (h_sk C x)) = 32) by (apply (zlen_len _ 32), (ok_sig_pk_len _ (ok_cS C HC))).
  assert (B : forall i, 0 <= i < n -> begin_peer C x msg0 i = Ok (Some (P0 W i))).
  { intros i Hi. destruct (hp_from_tp C x w HH i Hi) as (F0 & _). unfold begin_peer.
    destruct (start_peer_forward C (h_peer C x i) (h_peps C x i) (h_lt C x i) msg0 (h_pnow C x i) _ (h_sid C x) (h_now C x) dst n t Lm Lpk Ld (hp_sid C x w HH) ltac:(lia) ltac:(lia) Sg F0)
      as (p & E & G1 & G2 & G3 & G4 & G5).
    rewrite (proj2 (Z.ltb_ge t 2)), (proj2 (Z.leb_gt n t)), (proj2 (Z.ltb_ge 128 n)) in E by lia. rewrite E. cbn [bind Z.eqb]. apply start_peer_exact in E; [|exact Lm].
    rewrite G1, G2, G3, G4, G5 in E. subst p. cbn [p_n]. unfold peer_set_bufs. cbn [p_step p_prev p_sid p_n p_t p_index p_lt_sk p_sk p_noise_sk p_tp_pk p_tp_last p_eps p_dev p_complaints p_my p_transcript p_share].
    rewrite repeat_zmap. reflexivity. }
  assert (Bs : begin_peers C x msg0 (zrange 0 (Z.to_nat n)) = Ok (Some (zmap (P0 W) n))).
  { unfold zmap. assert (forall l, Forall (fun i => 0 <= i < n) l -> begin_peers C x msg0 l = Ok (Some (map (P0 W) l))) as G.
    { induction l as [|i l IH]; intros Hl; [reflexivity|]. apply Forall_cons_iff in Hl. destruct Hl as [Hi Hl]. cbn [begin_peers map]. rewrite B by exact Hi. cbn [bind]. rewrite (IH Hl). reflexivity. }
    apply G. apply Forall_forall. intros i Hi. apply zrange_In in Hi. lia. }
  rewrite Bs. cbn [bind]. unfold tp_set_bufs. cbn [t_step t_prev t_sid t_n t_t t_pk t_sk t_eps t_complaints t_cheaters t_transcript]. rewrite repeat_zmap. reflexivity.
Qed.

Lemma begins d0 s0 : exists tr0, let W := W_ C x w d0 s0 tr0 in begin C x = Ok (Some (mkRun C (T0 W) (zmap (P0 W) n) [])).
Proof. destruct begins_with as (msg0 & _ & B). eexists. exact (B d0 s0). Qed.

Lemma incl_zmap_inv {X} (f : Z -> X) k qs : incl qs (zmap f k) -> exists js, qs = map f js /\ Forall (fun j => 0 <= j < k) js.
Proof.
  induction qs as [|q qs IH]; intros H.
  - exists []. split; [reflexivity|constructor].
  - apply incl_cons_inv in H. destruct H as [H1 H2]. destruct (IH H2) as (js & -> & Hj). apply in_map_iff in H1. destruct H1 as (j & <- & H1). apply zrange_In in H1.
    exists (j :: js). split; [reflexivity|]. constructor; [lia|exact Hj].
Qed.

Theorem honest_run : exists r0 r,
  begin C x = Ok (Some r0) /\ rounds C w 10 r0 = Ok (Some r) /\
  tp_not_done (r_tp C r) = false /\ t_cheaters (r_tp C r) = [] /\ t_complaints (r_tp C r) = [] /\ r_net C r = [] /\
  zlen (r_peers C r) = n /\
  (forall i, 0 <= i < n -> exists p, nth_error (r_peers C r) (Z.to_nat i) = Some p /\ peer_not_done C p = false /\ s_index (p_share C p) = i + 1 /\
     p_complaints C p = [] /\ p_n C p = n /\ p_t C p = t) /\
  forall qs, quorum t (map (p_share C) (r_peers C r)) qs -> dkg_reconstruct qs = zsum (map (fun i => hd 0 (pe_a (s_peer w i 3))) (zrange 0 (Z.to_nat n))) mod L.
Proof.
  pose proof (hp_n C x w HH) as Hn.
  pose proof (ok_cN C HC) as HN.
  destruct (ok_nz_create (cN C) HN 0 []) as (d0 & D0 & Ds & Dp). pose proof (reach_create (cN C) _ _ _ D0) as R0.
  assert (exists s0 : nz_sess (cN C), True) as (s0 & _).
  { destruct (ok_nz_add (cN C) HN d0 0 (nz_pk (cN C) (nz_static (cN C) d0)) R0 (ok_nz_pk_len (cN C) HN _)) as (d1 & id & E1 & E2 & E3); [rewrite Dp; unfold zlen; cbn [length]; lia|rewrite Dp; intros []|]. pose proof (reach_add (cN C) _ _ _ _ _ R0 (ok_nz_pk_len (cN C) HN _) E1) as R1. rewrite Dp in E3. cbn [app] in E3.
    destruct (ok_nz_chain (cN C) HN d1 d1 id [] [] [] R1 R1) as (si & _); [unfold zlen; cbn [length]; lia|rewrite E3, E2; left; reflexivity|rewrite E3; cbn; constructor; [intros []|constructor]|rewrite E3, E2; left; reflexivity|].
    exists si. exact I. }
  destruct (begins d0 s0) as (tr0 & B). cbv zeta in B. set (W := W_ C x w d0 s0 tr0) in *. pose proof (W_ok C HC x w HH d0 s0 tr0) as HW. fold W in HW.
  eexists _, _. split; [exact B|]. split; [exact (world_run W HW)|]. cbn [r_tp r_peers r_net].
  split; [reflexivity|]. split; [reflexivity|]. split; [reflexivity|]. split; [reflexivity|]. split; [apply zlen_zmap; change (wn W) with n; lia|]. split.
  - intros i Hi. exists (P10 W i). split; [|repeat split; reflexivity]. change (wn W) with n. unfold zmap.
    erewrite map_nth_error by (apply zrange_nth; lia). f_equal. f_equal. lia.
  - intros qs (Q1 & Q2 & Q3). change (wn W) with n in Q2. rewrite map_zmap in Q2. destruct (incl_zmap_inv _ _ _ Q2) as (js & -> & Hj).
    rewrite map_length in Q3. pose proof (world_shares W HW js (NoDup_map_inv _ _ Q1) Hj Q3) as F. unfold zmap in F. rewrite map_map in F. exact F.
Qed.
End HONEST.

(** The condition on the clocks holds, for instance, if all time stamps and clock readings lie within
    one window and the stamps of each sender do not decrease. *)
Lemma orderly_fresh window T l : forall r, 0 < window -> 0 < T -> T + 2 * window < 2 ^ 64 -> window < T -> 
  (r = 0 \/ T <= r <= T + window) -> Forall (fun p => T <= fst p <= T + window /\ T <= snd p <= T + window) l -> Sorted Z.le (r :: map fst l) -> all_fresh window r l.
Proof.
  induction l as [|(ts, now) l IH]; intros r Hw HT Hb HwT Hr Hl Hs; [exact I|]. apply Forall_cons_iff in Hl. destruct Hl as ((H1 & H2) & Hl). cbn [fst snd] in *.
  cbn [map fst] in Hs. apply Sorted_inv in Hs. destruct Hs as (Hs & Hh). apply HdRel_inv in Hh. split.
  - unfold fresh. destruct (Z.eqb_spec r 0) as [e0|e0].
    + rewrite !Z.mod_small by lia. lia.
    + rewrite Z.mod_small by lia. lia.
  - apply IH; try assumption. right. lia.
Qed.
