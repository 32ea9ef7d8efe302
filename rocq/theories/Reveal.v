(** C88: proofs. *)
From Coq Require Import ZArith Lia List Bool Permutation.
From Coq.Strings Require Import Byte.
From Verif Require Import PrimeL Bytes Res Mem Sodium ToprfModel ToprfSpec DkgModel DkgSpec DkgProofs WireModel WireSpec WireProofs TpCrypto TpModel PeerModel.
From Verif Require Import TpFrame PeerFrame TpSpec TpMsg TpContent TpComplaints PeerContent TpControl TpAgree SafeSpec TpSafe PeerSafe HonestMsg HonestPeer PeerAnswer Cleared FairPeer Fair RevealSpec.
Import ListNotations.
Open Scope list_scope.
Open Scope Z_scope.

Section REVEAL.
Variable C : crypto.
Hypothesis HC : crypto_ok C.
Notation peer := (peer C).
Notation N := (cN C).
Notation S := (cS C).
Let HN : noise_ok N := ok_cN C HC.
Let HS : sigs_ok S := ok_cS C HC.

(** ** Step 17: every recorded complaint is in the broadcast *)
Definition listed (n : Z) (input : bytes) (l : list Z) : Prop :=
  NoDup l /\ forall y, In y l -> exists b a, y = b * 256 + a /\ 1 <= b <= n /\ 0 <= a < 256 /\ accuses n input b a.
Lemma b17c_listed n input i d0 lim k c c' : 0 <= i < n -> n <= 128 -> getz input (111 + i * msg9_SIZE n + 111) = Ok d0 -> 0 <= k < bz d0 ->
  listed n input (p_complaints C c) -> peer_step17_complaint C input (111 + i * msg9_SIZE n) i lim k c = Ok (Next c') -> listed n input (p_complaints C c').
Proof.
  intros Hi Hn Hd Hk (Nd & Al) H. unfold peer_step17_complaint in H. destruct (k + 1 <? lim); cbn [negb] in H; [|injection H as <-; split; assumption].
  apply bind_ok in H. destruct H as (d & G & H). cbn zeta in H. pose proof (bz_range d) as Rd. rewrite pair16_val in H by lia.
  destruct (existsb _ _) eqn:Ex; [injection H as <-; split; assumption|]. destruct (_ <? p_cmax C c); cbn [negb] in H; [|discriminate].
  assert (Q : listed n input (p_complaints C c ++ [(i + 1) * 256 + bz d])).
  { split.
    - apply (Permutation_NoDup (Permutation_cons_append _ _)). constructor; [|exact Nd]. intros I. assert (T : existsb (Z.eqb ((i + 1) * 256 + bz d)) (p_complaints C c) = true) by (apply existsb_exists; eexists; split; [exact I|apply Z.eqb_refl]). congruence.
    - intros y I. apply in_app_or in I. destruct I as [I|[<-|[]]]; [auto|]. exists (i + 1), (bz d). split; [reflexivity|]. split; [lia|]. split; [lia|]. unfold accuses. replace (i + 1 - 1) with i by lia. exists d0, k, d.
      split; [exact Hd|]. split; [exact Hk|]. split; [|reflexivity]. rewrite <- G. f_equal. rewrite hdr_val. lia. }
  cbn [p_index p_my p_mymax peer_complaints_set] in H. destruct (bz d =? p_index C c).
  - destruct (_ <? p_mymax C c) in H; [|discriminate]. injection H as <-. exact Q.
  - injection H as <-. exact Q.
Qed.
Lemma b17c_same input p i lim k c c' : peer_step17_complaint C input p i lim k c = Ok (Next c') -> p_n C c' = p_n C c /\ p_sid C c' = p_sid C c /\ p_pks C c' = p_pks C c /\ p_step C c' = p_step C c.
Proof.
  intros H. unfold peer_step17_complaint in H. destruct (k + 1 <? lim); cbn [negb] in H; [|injection H as <-; auto].
  apply bind_ok in H. destruct H as (d & G & H). cbn zeta in H. destruct (existsb _ _); [injection H as <-; auto|]. destruct (_ <? p_cmax C c); cbn [negb] in H; [|discriminate].
  cbn [p_index p_my p_mymax peer_complaints_set] in H. destruct (bz d =? p_index C c); [destruct (_ <? p_mymax C c) in H; [|discriminate]|]; injection H as <-; auto.
Qed.
Lemma s17_listed e c input out p out' : 0 <= p_n C c <= 128 -> p_complaints C c = [] -> peer_step17 C e c input out = Ok (0, p, out') ->
  let n := p_n C c in listed n input (p_complaints C p) /\ out' = [] /\ p_pks C p = p_pks C c /\ p_step C p = (if zlen (p_complaints C p) =? 0 then p_step C c + 1 else p_step C c) /\
  forall i, 0 <= i < n -> exists pk, getz (p_pks C c) i = Ok pk /\ delivered C input (111 + i * msg9_SIZE n) (msg9_SIZE n) pk (p_sid C c) 9 (i + 1) 255.
Proof.
  intros Hn Hc H n. unfold peer_step17 in H. fold n in H. destruct (zlen input =? _) eqn:E1; cbn [negb] in H; [|discriminate]. apply Z.eqb_eq in E1.
  destruct (zlen out =? _) eqn:E2; cbn [negb] in H; [|discriminate]. apply Z.eqb_eq in E2. apply zlen_0 in E2.
  apply bind_ok in H. destruct H as ((rt & c1) & E3 & H). apply peer_recv_tp_inv in E3. destruct E3 as (last & Hr & ->). pose proof (recv_codes _ _ _ _ _ _ _ _ _ _ _ _ _ _ Hr) as Cr.
  destruct (rt =? 0) eqn:Er; cbn [negb] in H; [|apply Z.eqb_neq in Er; assert (16 + rt = 0) by congruence; lia].
  apply bind_ok in H. destruct H as (r & Lp & H). cbn [p_n peer_transcript_set peer_tp_last_set] in Lp. fold n in Lp.
  set (c0 := peer_transcript_set C _ _) in Lp.
  destruct r as [c1|code c1].
  2:{ exfalso. assert (code = 0) by congruence. subst code. clear H.
      assert (HH : (fun r => r <> 0) 0); [|apply HH; reflexivity]. refine (loopM_code (fun r => r <> 0) _ _ _ _ _ _ Lp).
      intros x a r1 s2 E'. unfold peer_step17_body in E'. apply bind_ok in E'. destruct E' as (pk & _ & E').
      apply bind_ok in E'. destruct E' as ((ret & c2) & E2' & E'). apply peer_recv_inv in E2'. destruct E2' as (? & ? & ? & _ & R2 & _).
      apply recv_codes in R2. inv E'; try lia.
      match goal with HQ : loopM _ _ _ = Ok (Return _ _) |- _ => refine (loopM_code (fun r => r <> 0) _ _ _ _ _ _ HQ) end.
      intros ? ? ? ? E''. unfold peer_step17_complaint in E''. inv E''. }
  pose (J := fun k (c1 : peer) => (p_n C c1 = n /\ p_sid C c1 = p_sid C c /\ p_pks C c1 = p_pks C c /\ p_step C c1 = p_step C c) /\ listed n input (p_complaints C c1) /\
    forall i, 0 <= i < k -> exists pk, getz (p_pks C c) i = Ok pk /\ delivered C input (111 + i * msg9_SIZE n) (msg9_SIZE n) pk (p_sid C c) 9 (i + 1) 255).
  assert (HJ : J (Z.of_nat (Z.to_nat n)) c1).
  { apply (next_loop (peer_step17_body C e input) J _ c0 c1); [| |exact Lp].
    - unfold J, c0. split; [auto 6|]. cbn [p_complaints peer_transcript_set peer_tp_last_set]. rewrite Hc. split; [split; [constructor|intros y []]|]. intros; lia.
    - clear Lp H. intros i a b Hi ((J1 & J2 & J3 & J4) & Jl & Jd) Hb. unfold peer_step17_body in Hb. rewrite J1, hdr_val in Hb.
      apply bind_ok in Hb. destruct Hb as (pk & G & Hb). apply bind_ok in Hb. destruct Hb as ((ret & c2) & E3 & Hb). apply peer_recv_inv in E3. destruct E3 as (l1 & l2 & l3 & R1 & R2 & R3 & ->).
      destruct (ret =? 0) eqn:Er2; cbn [negb] in Hb; [|discriminate]. apply Z.eqb_eq in Er2. subst ret.
      apply bind_ok in Hb. destruct Hb as (flen & _ & Hb). apply bind_ok in Hb. destruct Hb as (d0 & D0 & Hb). cbn zeta in Hb. destruct (_ <? bz d0); [discriminate|].
      pose (K := fun (k : Z) (x : peer) => (p_n C x = n /\ p_sid C x = p_sid C c /\ p_pks C x = p_pks C c /\ p_step C x = p_step C c) /\ listed n input (p_complaints C x)).
      pose proof (bz_range d0) as Rd. pose proof (msg9_val n) as V9.
      assert (HK : K (Z.of_nat (Z.to_nat (bz d0))) b).
      { refine (next_loop (peer_step17_complaint C input (111 + i * msg9_SIZE n) i _) K _ _ _ _ _ Hb).
        - unfold K. cbn [p_n p_sid p_pks p_step p_complaints peer_last_set]. auto 6.
        - intros k x y Hk (K1 & K2) Hy. pose proof (b17c_same _ _ _ _ _ _ _ Hy) as (Y1 & Y2 & Y3 & Y4). split; [intuition congruence|]. eapply b17c_listed; [| |exact D0| |exact K2|exact Hy]; lia. }
      destruct HK as (K1 & K2). split; [exact K1|]. split; [exact K2|]. intros j Hj. destruct (Z.eq_dec j i) as [->|Ne]; [|apply Jd; lia]. rewrite J3 in G. exists pk. split; [exact G|].
      rewrite J2 in R2. destruct (recv_rd C _ _ _ _ _ _ _ _ _ _ _ _ _ R2 eq_refl) as (m & Rm); [nia|lia|]. exact (recv_delivered C _ _ _ _ _ _ _ _ _ _ _ _ _ Rm ltac:(lia) R2). }
  destruct HJ as ((_ & _ & Pk & St) & J1 & J2). rewrite Z2Nat.id in J2 by lia.
  destruct (zlen (p_complaints C c1) =? 0) eqn:Ez; assert (Eo : out' = out) by congruence; subst out'; match type of H with Ok (0, ?x, _) = _ => assert (Ep : p = x) by congruence end; subst p;
    cbn [p_complaints p_pks p_step peer_step_set]; rewrite ?Ez; repeat (split; [assumption || congruence|]); exact J2.
Qed.

(** ** The calls of a peer *)
Section RUN.
Variables (p : peer) (calls : list peer_call) (outs : list (Z * peer * bytes)).
Hypothesis F : peer_fresh C p.
Hypothesis R : peer_run C p calls = Ok outs.
Hypothesis A0 : Forall (fun o => fst (fst o) = 0) outs.
Notation P := (state_at p outs).

Lemma one s : (s < length outs)%nat -> exists e i o w, nth_error calls s = Some (e, i, o) /\ nth_error outs s = Some (0, P (Datatypes.S s), w) /\ peer_next C e (P s) i o = Ok (0, P (Datatypes.S s), w).
Proof.
  intros Hs. destruct (nth_error outs s) as [[[r c'] w]|] eqn:E; [|apply nth_error_None in E; lia].
  destruct (peer_call_at C _ _ _ _ _ _ _ R E) as (e & i & o & B1 & B2). assert (ET : P (Datatypes.S s) = c') by (cbn [state_at]; rewrite E; reflexivity).
  pose proof (proj1 (Forall_forall _ _) A0 _ (nth_error_In _ _ E)) as Q. cbn in Q. subst r. rewrite ET. exists e, i, o, w. auto.
Qed.
Lemma inv_at s : (s <= length outs)%nat -> pinv C (P s) /\ ((s <= 6)%nat -> p_step C (P s) = Z.of_nat s).
Proof.
  induction s as [|s IH]; intros Hs.
  - split; [apply (fresh_inv C); exact F|]. intros _. apply F.
  - destruct (IH ltac:(lia)) as (I & St). destruct (one s ltac:(lia)) as (e & i & o & w & _ & _ & E). split; [eapply (pinv_next C HN); eassumption|]. intros H6.
    rewrite (next_step C _ _ _ _ _ _ ltac:(rewrite St by lia; lia) E), St by lia. lia.
Qed.

Lemma next_is c e input out c' out' h : peer_next C e c input out = Ok (0, c', out') ->
  (forall x, x = p_step C c -> match x with 0 => peer_step23 C e c input out | 1 => peer_step5 C e c input out | 2 => peer_step7 C e c input out | 3 => peer_step911 C e c input out
    | 4 => peer_step13 C e c input out | 5 => peer_step15 C e c input out | 6 => peer_step17 C e c input out | 7 => peer_step17a C e c input out | 8 => peer_step19 C e c input out
    | 9 => peer_step21 C e c input out | 10 => Ok (0, c, out) | _ => Ok (99, c, out) end = h) ->
  exists c1, h = Ok (0, c1, out') /\ c' = peer_step_set C c1 (p_step C c1 + 1) (p_step C c1).
Proof.
  intros H Hh. unfold peer_next in H. rewrite (Hh _ eq_refl) in H. unfold peer_finish_step in H. apply bind_ok in H. destruct H as (((ret & c1) & o) & -> & H).
  assert (ret = 0) by congruence. subst ret. exists c1. split; [congruence|]. cbn [Z.eqb] in H. congruence.
Qed.

Theorem reveals e6 i6 o6 p6 w6 e7 i7 o7 p7 w7 p4 w4 :
  nth_error outs 4 = Some (0, p4, w4) -> nth_error calls 6 = Some (e6, i6, o6) -> nth_error outs 6 = Some (0, p6, w6) ->
  nth_error calls 7 = Some (e7, i7, o7) -> nth_error outs 7 = Some (0, p7, w7) -> is_u64 (pe_s e7 0) ->
  w6 = [] /\
  (w7 = [] \/
   (p_complaints C p6 = [] /\ exists body, signed S (sig_pk S (p_sk C p6)) (p_sid C p6) 20 (p_index C p6) 0 (pe_s e7 0) body w7) \/
   exists bs body, bs <> [] /\ NoDup bs /\ signed S (sig_pk S (p_sk C p6)) (p_sid C p6) 11 (p_index C p6) 0 (pe_s e7 0) body w7 /\ keys_for C p4 bs body /\
     forall b, In b bs -> 1 <= b <= p_n C p6 /\ accuses (p_n C p6) i6 b (p_index C p6) /\
       exists pk, getz (p_pks C p6) (b - 1) = Ok pk /\ delivered C i6 (111 + (b - 1) * msg9_SIZE (p_n C p6)) (msg9_SIZE (p_n C p6)) pk (p_sid C p6) 9 b 255).
Proof.
  intros O4 C6 O6 C7 O7 Ts. assert (L8 : (8 <= length outs)%nat) by (assert (7 < length outs)%nat by (apply nth_error_Some; congruence); lia).
  assert (E4 : P 5 = p4) by (cbn [state_at]; rewrite O4; reflexivity). assert (E6 : P 7 = p6) by (cbn [state_at]; rewrite O6; reflexivity).
  destruct (one 5 ltac:(lia)) as (e5 & i5 & o5 & w5 & _ & _ & H5). destruct (one 6 ltac:(lia)) as (e6' & i6' & o6' & w6' & C6' & O6' & H6). destruct (one 7 ltac:(lia)) as (e7' & i7' & o7' & w7' & C7' & O7' & H7).
  rewrite C6 in C6'. rewrite C7 in C7'. rewrite O6 in O6'. rewrite O7 in O7'.
  assert (e6' = e6 /\ i6' = i6 /\ o6' = o6 /\ w6' = w6) as (-> & -> & -> & ->) by (repeat split; congruence). assert (e7' = e7 /\ i7' = i7 /\ o7' = o7 /\ w7' = w7) as (-> & -> & -> & ->) by (repeat split; congruence).
  clear C6' C7' O6' O7'. destruct (inv_at 5 ltac:(lia)) as (_ & S5). destruct (inv_at 6 ltac:(lia)) as (I6 & S6). destruct (inv_at 7 ltac:(lia)) as (I7 & _). specialize (S5 ltac:(lia)). specialize (S6 ltac:(lia)).
  pose proof (i_wf C _ I6) as W6. pose proof (v_n C _ W6) as Hn. destruct (i_none C (P 6) I6 ltac:(rewrite S6; lia)) as (N1 & N2).
  pose proof (next_frame C e6 (P 6) i6 o6 (P 7) w6 ltac:(rewrite S6; lia) ltac:(rewrite S6; lia) H6) as (F1 & F2 & F3 & F4 & F5).
  assert (K5 : p_outs C (P 6) = p_outs C p4).
  { destruct (next_is _ _ _ _ _ _ _ H5 (fun x Hx => ltac:(rewrite Hx, S5; reflexivity))) as (c1 & B1 & B2). apply (s15_keeps C) in B1. rewrite B2, <- E4. exact (proj2 B1). }
  destruct (next_is _ _ _ _ _ _ _ H6 (fun x Hx => ltac:(rewrite Hx, S6; reflexivity))) as (c1 & B1 & B2).
  pose proof (s17_keeps C e6 (P 6) i6 o6 0 c1 w6 ltac:(lia) B1) as ((_ & K6) & Ix & My). rewrite N1, N2 in My. specialize (My eq_refl).
  destruct (s17_listed e6 (P 6) i6 o6 c1 w6 ltac:(lia) N1 B1) as ((Nd & Al) & Ew & Pk & St & Dl). split; [exact Ew|].
  assert (Eq : p_complaints C (P 7) = p_complaints C c1 /\ p_my C (P 7) = p_my C c1 /\ p_outs C (P 7) = p_outs C c1 /\ p_pks C (P 7) = p_pks C c1 /\ p_step C (P 7) = p_step C c1 + 1) by (rewrite B2; auto 6).
  destruct Eq as (Q1 & Q2 & Q3 & Q4 & Q5). rewrite S6 in St. clear B2.
  pose proof (i_wf C _ I7) as W7. 
  destruct (zlen (p_complaints C c1) =? 0) eqn:Ez.
  - right. left. apply Z.eqb_eq in Ez. apply zlen_0 in Ez. rewrite <- E6. split; [congruence|]. assert (S7 : p_step C (P 7) = 8) by lia.
    destruct (next_is _ _ _ _ _ _ _ H7 (fun x Hx => ltac:(rewrite Hx, S7; reflexivity))) as (c2 & B3 & _).
    apply (s19_sent C HC) in B3; [|exact W7|pose proof (i_index C (P 7) I7 ltac:(rewrite S7; lia)); lia|exact Ts]. destruct B3 as (_ & B3 & _). exact B3.
  - assert (S7 : p_step C (P 7) = 7) by lia. assert (Nc : p_complaints C (P 7) <> []) by (rewrite Q1; intros Q; rewrite Q in Ez; discriminate).
    destruct (next_is _ _ _ _ _ _ _ H7 (fun x Hx => ltac:(rewrite Hx, S7; reflexivity))) as (c2 & B3 & _).
    destruct (s17a_out C HC _ _ _ _ _ _ I7 S7 Ts B3) as (O1 & O2). destruct (p_my C (P 7)) as [|b0 bs] eqn:Em; [left; auto|]. right. right.
    destruct (O2 ltac:(discriminate)) as (body & -> & Zb & Rv). exists (b0 :: bs), body. rewrite <- Em in *. rewrite <- E6.
    split; [rewrite Em; discriminate|]. rewrite Q2, My. split; [apply my_of_NoDup; exact Nd|]. split; [apply (signed_mk S HS); exact Ts|].
    rewrite <- My, <- Q2. split.
    + split; [exact Zb|]. intros k b G. pose proof (getz_inv _ _ _ G) as Gk. destruct (Rv k ltac:(lia)) as (x & s & key & G1 & G2 & G3 & G4 & G5). assert (x = b) by congruence. subst x. exists s, key.
      rewrite Q3, K6, K5 in G2. split; [exact G2|]. split; [exact G3|].
      set (m := mk_msg _ _ _ _ _ _ _ _) in *.
      assert (Rm : rd m (0 + 111) (zlen body) = Ok body) by (eapply (body_mk S HS _ (v_sid C _ W7)); apply rd_all; unfold m; rewrite (zlen_mk S HS _ (v_sid C _ W7)); reflexivity).
      rewrite <- G5. change (111 + 33 * k) with (0 + 111 + 33 * k). apply (rd_rd _ _ _ _ (33 * k) 33 Rm); lia.
    + intros b Hb. rewrite Q2, My in Hb. apply my_of_In in Hb. destruct Hb as (y & Hy & Ha & Hx). destruct (Al y Hy) as (b' & a & -> & Rb & Ra & Ac).
      assert (b' = b). { rewrite <- Hx. unfold complainer_of. apply (Z.div_unique _ _ _ a); lia. } subst b'.
      assert (Ea : a = p_index C (P 6)). { rewrite <- Ha. unfold accused_of. rewrite Z.add_comm, Z_mod_plus_full, Z.mod_small by lia. reflexivity. } subst a.
      rewrite F1, F3, F4, Q4, Pk. split; [exact Rb|]. split; [exact Ac|]. specialize (Dl (b - 1) ltac:(lia)). replace (b - 1 + 1) with b in Dl by lia. exact Dl.
Qed.
End RUN.
End REVEAL.
