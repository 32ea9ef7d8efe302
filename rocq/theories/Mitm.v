(** C100: keys of a stranger in the broadcast of keys. *)
From Coq Require Import ZArith Lia List Bool.
From Coq.Strings Require Import Byte.
From Verif Require Import PrimeL Fq Bytes Res Mem Sodium ToprfModel ToprfSpec DkgModel DkgSpec DkgProofs WireModel WireSpec WireProofs TpCrypto TpModel PeerModel.
From Verif Require Import TpFrame PeerFrame TpSpec TpMsg TpContent TpComplaints PeerContent TpControl TpSizes TpAgree TpMisc SafeSpec TpSafe PeerSafe HonestMsg HonestPeer.
From Verif Require Import PeerAnswer Cleared PeerSelf MitmSpec.
Import ListNotations.
Open Scope list_scope.
Open Scope Z_scope.

Lemma rd_slice (b : bytes) o l m : rd b o l = Ok m -> slice o l b = m.
Proof. intros H. apply rd_inv in H. destruct H as (_ & _ & _ & _ & ->). reflexivity. Qed.
Lemma slice_rd (b : bytes) o l : 0 <= o -> 0 <= l -> o + l <= zlen b -> rd b o l = Ok (slice o l b).
Proof. intros. apply rd_ok; assumption. Qed.
Lemma zlen_slice (b : bytes) o l : 0 <= o -> 0 <= l -> o + l <= zlen b -> zlen (slice o l b) = l.
Proof. intros H1 H2 H3. apply (slice_rd b o l H1 H2) in H3. apply rd_inv in H3. apply H3. Qed.

(** two runs of a loop side by side *)
Lemma loop_beside {X Y} (R : X -> Y -> Prop) (f : Z -> X -> res (ctl X)) (g : Z -> Y -> res (ctl Y)) : forall l x y x' r,
  (forall i a b a' q, In i l -> R a b -> f i a = Ok (Next a') -> g i b = Ok q -> exists b', q = Next b' /\ R a' b') ->
  loopM f l x = Ok (Next x') -> loopM g l y = Ok r -> R x y -> exists y', r = Next y' /\ R x' y'.
Proof.
  induction l as [|i l IH]; intros x y x' r Hb H1 H2 HR; cbn [loopM] in *; [injection H1 as <-; injection H2 as <-; eauto|].
  apply bind_ok in H1. destruct H1 as (q1 & E1 & H1). destruct q1 as [x1|]; [|discriminate].
  apply bind_ok in H2. destruct H2 as (q2 & E2 & H2). destruct (Hb i x y x1 q2 (or_introl eq_refl) HR E1 E2) as (y1 & -> & R1).
  eapply IH; [|exact H1|exact H2|exact R1]. intros j a b a' q I. apply Hb. right. exact I.
Qed.

Section MITM.
Variable C : crypto.
Hypothesis HC : crypto_ok C.
Notation peer := (peer C).
Notation N := (cN C).
Notation S := (cS C).
Let HN : noise_ok N := ok_cN C HC.
Let HS : sigs_ok S := ok_cS C HC.

Section FORGED.
Variables (who : Z -> bool) (sk npk : Z -> bytes) (n : Z) (input : bytes).
Hypothesis Hnpk : forall j, zlen (npk j) = 32.
Hypothesis Hn : 0 <= n.
Hypothesis Li : zlen input = 175 * n + 111.
Notation input' := (forged C who sk npk n input).
Notation item j := (slice (111 + j * 175) 175 input).
Notation item' := (replaced C who sk npk input).

Lemma zlen_item j : 0 <= j < n -> zlen (item j) = 175.
Proof. intros Hj. apply zlen_slice; lia. Qed.
Lemma zlen_item' j : 0 <= j < n -> zlen (item' j) = 175.
Proof.
  intros Hj. unfold replaced. destruct (who j); [|apply zlen_item; exact Hj]. unfold resigned. rewrite !zlen_app, (sig_zlen S HS), (pk_zlen S HS), Hnpk.
  rewrite zlen_slice by (try rewrite (zlen_item j Hj); lia). reflexivity.
Qed.
Lemma items_len : Forall (fun m => zlen m = 175) (map item' (zrange 0 (Z.to_nat n))).
Proof. apply Forall_forall. intros m I. apply in_map_iff in I. destruct I as (j & <- & I). apply zrange_In in I. apply zlen_item'. lia. Qed.
Lemma zlen_forged : zlen input' = zlen input.
Proof.
  unfold forged. rewrite zlen_app, (zlen_concat _ 175 items_len), zlen_slice by lia. unfold zlen at 1. rewrite map_length, zrange_length. lia.
Qed.
Lemma forged_item j : 0 <= j < n -> rd input' (111 + j * 175) 175 = Ok (item' j).
Proof.
  intros Hj. pose proof (rd_concat _ 175 j (item' j) items_len) as R.
  assert (G : getz (map item' (zrange 0 (Z.to_nat n))) j = Ok (item' j)).
  { apply getz_ok; [|lia]. rewrite nth_error_map. assert (Q : nth_error (zrange 0 (Z.to_nat n)) (Z.to_nat j) = Some j).
    { rewrite (nth_error_nth' _ 0) by (rewrite zrange_length; lia). f_equal. unfold zrange. change 0 with ((fun i => 0 + Z.of_nat i) 0%nat) at 2. rewrite map_nth, seq_nth by lia. lia. }
    rewrite Q. reflexivity. }
  specialize (R G). unfold forged. set (cc := concat _) in *. pose proof (rd_inv _ _ _ _ R) as (R1 & R2 & R3 & R4 & _).
  assert (J : rd (slice 0 111 input ++ cc) 111 (zlen cc) = Ok cc) by (rewrite <- (app_nil_r cc) at 1; apply rd_mid; [apply zlen_slice; lia|reflexivity]).
  rewrite <- (rd_rd _ _ _ _ (j * 175) 175 J) by lia. exact R.
Qed.

Lemma item_parts j : 0 <= j < n -> who j = true -> slice 111 32 (item' j) = sig_pk S (sk j) /\ slice 143 32 (item' j) = npk j.
Proof.
  intros Hj Hw. unfold replaced. rewrite Hw. unfold resigned. cbv zeta. set (h := slice 64 47 (item j)). set (sg := sig_sign S (sk j) h).
  assert (Zh : zlen h = 47) by (apply zlen_slice; rewrite ?zlen_item; lia).
  assert (Zs : zlen sg = 64) by apply (sig_zlen S HS). pose proof (pk_zlen S HS (sk j)) as Zp.
  split; apply rd_slice.
  - rewrite app_assoc. apply rd_mid; [rewrite zlen_app; lia|exact Zp].
  - assert (E : sg ++ h ++ sig_pk S (sk j) ++ npk j = (sg ++ h ++ sig_pk S (sk j)) ++ npk j ++ []) by (rewrite app_nil_r, <- !app_assoc; reflexivity).
    rewrite E. apply rd_mid; [rewrite !zlen_app; lia|apply Hnpk].
Qed.

Lemma forged_recv j pk sid eps last now last' : 0 <= j < n -> n <= 128 -> rd input (111 + j * 175 + 111) 32 = Ok pk ->
  recv_msg S input (111 + j * 175) 175 2 (j + 1) 255 pk sid eps last now = Ok (0, last') ->
  exists pk', rd input' (111 + j * 175 + 111) 32 = Ok pk' /\ recv_msg S input' (111 + j * 175) 175 2 (j + 1) 255 pk' sid eps last now = Ok (0, last').
Proof.
  intros Hj Hb Rp H. pose proof (slice_rd input (111 + j * 175) 175 ltac:(lia) ltac:(lia) ltac:(lia)) as Rm.
  destruct (recv_accepted _ _ _ _ _ _ _ _ _ _ _ _ _ _ Rm ltac:(lia) H) as (Zsid & Fr & body & sg & Zg & Ts & Em & Vf).
  pose proof (forged_item j Hj) as Rm'. assert (B1 : is_byte 2 /\ is_byte (j + 1) /\ is_byte 255) by (unfold is_byte; lia). destruct B1 as (B1 & B2 & B3).
  assert (Rpk : forall pk', slice 111 32 (item' j) = pk' -> rd input' (111 + j * 175 + 111) 32 = Ok pk').
  { intros pk' <-. rewrite <- (rd_rd _ _ _ _ 111 32 Rm') by lia. apply slice_rd; [lia|lia|rewrite (zlen_item' j Hj); lia]. }
  pose proof (zlen_item j Hj) as Zi. destruct (who j) eqn:Hw.
  - destruct (item_parts j Hj Hw) as (P1 & P2). exists (sig_pk S (sk j)). split; [apply Rpk; exact P1|].
    assert (Zb : zlen body = 64).
    { rewrite Em in Zi. unfold message in Zi. rewrite !zlen_app, Zg, zlen_header in Zi by exact Zsid. lia. }
    eapply (recv_signed S input' (111 + j * 175) 175 (item' j) 2 (j + 1) 255 _ sid eps last last' now (sig_pk S (sk j) ++ npk j)); try eassumption; [lia|].
    assert (Z64 : zlen (sig_pk S (sk j) ++ npk j) = 64) by (rewrite zlen_app, (pk_zlen S HS), Hnpk; reflexivity).
    assert (Hh : slice 64 47 (item j) = header 2 (111 + zlen (sig_pk S (sk j) ++ npk j)) (j + 1) 255 last' sid).
    { replace (zlen (sig_pk S (sk j) ++ npk j)) with (zlen body) by congruence. rewrite Em. apply rd_slice. unfold message. apply rd_mid; [exact Zg|apply zlen_header; exact Zsid]. }
    exists (sig_sign S (sk j) (slice 64 47 (item j))). split; [apply (sig_zlen S HS)|]. split; [exact Ts|]. split.
    + unfold replaced. rewrite Hw. unfold resigned, message. cbv zeta. rewrite Hh. reflexivity.
    + rewrite Hh. apply (ok_sig_complete S HS).
  - exists pk. assert (E : item' j = item j) by (unfold replaced; rewrite Hw; reflexivity). split.
    + apply Rpk. rewrite E. apply rd_slice. rewrite (rd_rd _ _ _ _ 111 32 Rm) by lia. exact Rp.
    + rewrite E in Rm'. eapply (recv_signed S input' (111 + j * 175) 175 (item j) 2 (j + 1) 255 pk sid eps last last' now body); try eassumption; [lia|].
      exists sg. repeat split; try assumption; apply Ts.
Qed.
Lemma forged_head pk sid eps last now msgno from to : recv_msg S input' 0 (zlen input') msgno from to pk sid eps last now = recv_msg S input 0 (zlen input) msgno from to pk sid eps last now.
Proof.
  rewrite zlen_forged. unfold forged. set (cc := concat _).
  assert (Zc : zlen cc = 175 * n).
  { unfold cc. rewrite (zlen_concat _ 175 items_len). unfold zlen. rewrite map_length, zrange_length. lia. }
  assert (Ei : input = slice 0 64 input ++ slice 64 47 input ++ slice 111 (175 * n) input).
  { pose proof (rd_join _ _ _ _ _ _ (slice_rd input 0 64 ltac:(lia) ltac:(lia) ltac:(lia)) (slice_rd input (0 + 64) 47 ltac:(lia) ltac:(lia) ltac:(lia))) as J.
    pose proof (rd_join _ _ _ _ _ _ J (slice_rd input (0 + (64 + 47)) (175 * n) ltac:(lia) ltac:(lia) ltac:(lia))) as J2.
    rewrite rd_all in J2 by lia. injection J2 as J2. rewrite <- app_assoc in J2. exact J2. }
  assert (Eh : slice 0 111 input = slice 0 64 input ++ slice 64 47 input).
  { apply rd_slice. change 111 with (64 + 47). apply rd_join; [apply slice_rd; lia|apply slice_rd; lia]. }
  rewrite Eh, <- app_assoc.
  pose proof (body_not_covered S (slice 0 64 input) (slice 64 47 input) (slice 111 (175 * n) input) cc [] [] (zlen input) msgno from to pk sid eps last now) as B.
  unfold message in B. rewrite !app_nil_r in B. cbn [app] in B. change (zlen (@nil byte)) with 0 in B. rewrite <- Ei in B. apply B; rewrite ?zlen_slice; lia.
Qed.
End FORGED.

(** the state of the loop over the keys, in two runs *)
Definition alike (s s2 : peer * bytes) : Prop := p_last C (fst s2) = p_last C (fst s) /\ p_sid C (fst s2) = p_sid C (fst s) /\ p_eps C (fst s2) = p_eps C (fst s).

Theorem keys_substituted e c input out c' out' who sk npk : peer_wf C c -> p_step C c = 1 -> (forall j, zlen (npk j) = 32) ->
  peer_next C e c input out = Ok (0, c', out') ->
  exists c2 out2, peer_next C e c (forged C who sk npk (p_n C c) input) out = Ok (0, c2, out2) /\
    forall j, 0 <= j < p_n C c -> getz (p_pks C c2) j = (if who j then Ok (sig_pk S (sk j)) else getz (p_pks C c') j) /\
      getz (p_npks C c2) j = (if who j then Ok (npk j) else getz (p_npks C c') j).
Proof.
  intros W S1 Hnpk H. rewrite (peer_next_1 C) in H |- * by exact S1. apply pfinish_inv in H. destruct H as (q & H & ->). cbn [Z.eqb].
  pose proof (v_n C c W) as Hn. pose proof H as H0. apply peer5_content in H0; [|lia]. destruct H0 as (Li & _ & _ & _ & _ & K).
  change msg2_SIZE with 175 in *. change hdr_SIZE with 111 in *.
  set (input' := forged C who sk npk (p_n C c) input). pose proof (zlen_forged who sk npk (p_n C c) input Hnpk ltac:(lia) Li) as Zf. fold input' in Zf.
  destruct (safe5 C HC e c input' out W) as (r & Er). destruct r as [[ret q2] out2].
  assert (R0 : ret = 0).
  { unfold peer_step5 in H, Er. change msg2_SIZE with 175 in *. change hdr_SIZE with 111 in *. rewrite Zf in Er.
    destruct (zlen input =? _); cbn [negb] in H, Er; [|discriminate]. destruct (zlen out =? _); cbn [negb] in H, Er; [|discriminate].
    unfold peer_recv_tp in H, Er. pose proof (forged_head who sk npk (p_n C c) input Hnpk ltac:(lia) Li (p_tp_pk C c) (p_sid C c) (p_eps C c) (p_tp_last C c) (pe_r e 0) 3 0 255) as FH.
    fold input' in FH. rewrite Zf in FH. rewrite FH in Er. clear FH.
    apply bind_ok in H. destruct H as ((rt & c1) & E1 & H). rewrite E1 in Er. cbn [bind] in Er. apply bind_ok in E1. destruct E1 as ((rt' & l') & E1 & Q). injection Q as <- <-.
    destruct (rt' =? 0) eqn:E0; cbn [negb] in H, Er.
    2:{ apply Z.eqb_neq in E0. apply recv_codes in E1. injection H as Q _ _. lia. }
    apply bind_ok in H. destruct H as (x & L & H). apply done_inv in H. destruct H as (_ & _ & [(-> & _)| ->]).
    2:{ exfalso. assert (HH : (fun r => r <> 0) 0); [|apply HH; reflexivity]. refine (loopM_code (fun r => r <> 0) _ _ _ _ _ _ L). intros y s r1 s2 E'. eapply code5; exact E'. }
    apply bind_ok in Er. destruct Er as (y & L2 & Er). cbn [p_n peer_dev_set peer_transcript_set peer_tp_last_set] in L, L2.
    assert (Y : exists s2, y = Next s2 /\ alike (q, out') s2).
    { eapply (loop_beside alike); [|exact L|exact L2|split; [reflexivity|split; reflexivity]].
      intros i [a oa] [b ob] [a' oa'] z Ii (A1 & A2 & A3) F1 F2. cbn [fst snd] in *. apply zrange_In in Ii.
      apply peer5_body in F1. cbv zeta in F1. destruct F1 as (pk & nk & last & last' & l & pks & npks & G1 & G2 & G3 & G4 & G5 & G6 & G7 & G8).
      change msg2_SIZE with 175 in *. change hdr_SIZE with 111 in *.
      destruct (forged_recv who sk npk (p_n C c) input Hnpk Li i pk _ _ _ _ _ ltac:(lia) ltac:(lia) G1 G4) as (pk' & G1' & G4'). fold input' in G1', G4'.
      unfold peer_step5_body in F2. change msg2_SIZE with 175 in *. change hdr_SIZE with 111 in *. rewrite G1' in F2. cbn [bind] in F2.
      unfold peer_recv in F2. rewrite A1, G3 in F2. cbn [bind] in F2. rewrite A2, A3, G4' in F2. cbn [bind] in F2. rewrite G5 in F2. cbn [bind Z.eqb negb] in F2.
      inv F2. eexists. split; [reflexivity|]. split; [rewrite G8; reflexivity|]. rewrite G8. cbn. split; assumption. }
    destruct Y as ([y1 y2] & -> & _). cbn in Er. injection Er as <- _ _. reflexivity. }
  subst ret. exists (peer_step_set C q2 (p_step C q2 + 1) (p_step C q2)), out2. split; [rewrite Er; reflexivity|].
  apply peer5_content in Er; [|lia]. destruct Er as (_ & _ & _ & _ & _ & K2). change msg2_SIZE with 175 in *. change hdr_SIZE with 111 in *.
  intros j Hj. cbn [p_pks p_npks peer_step_set]. destruct (K j Hj) as (m & pk & nk & M1 & M2 & M3 & M4 & M5 & _). destruct (K2 j Hj) as (m' & pk' & nk' & M1' & M2' & M3' & M4' & M5' & _).
  pose proof (forged_item who sk npk (p_n C c) input Hnpk Li j Hj) as FI. fold input' in FI. rewrite M1' in FI. injection FI as ->.
  rewrite M3, M5, M3', M5'. destruct (who j) eqn:Hw.
  - destruct (item_parts who sk npk (p_n C c) input Hnpk Li j Hj Hw) as (P1 & P2). apply rd_slice in M2', M4'. change (111 + 32) with 143 in M4'. split; congruence.
  - unfold replaced in M2', M4'. rewrite Hw in M2', M4'. rewrite (rd_slice _ _ _ _ M1) in M2', M4'. split; congruence.
Qed.

(** the channel to the holder of [d] *)
Lemma stranger_channel nsk rpk d0 d out1 k s1 r s2 m2 s3 p2 s4 m3 sh s5 ct hs1 : started_to C nsk rpk d0 out1 k s1 -> nz_reach N d -> rpk = nz_pk N (nz_static N d) ->
  In (nz_pk N nsk) (map snd (nz_peers N d)) -> rd out1 (k * 159 + 111) 48 = Ok hs1 -> answer C d r hs1 = Some (s2, m2) -> nz_read N s1 m2 = (s3, Some p2) ->
  nz_write N s3 [] = (s4, Some m3) -> nz_write N s4 (share_bytes sh) = (s5, Some ct) -> opened C s2 m3 ct = Some (share_bytes sh).
Proof.
  intros (da & id & ri & si & m1 & (Ra & Sa & Na) & Ia & A1 & A2 & A3 & _) Rd -> Kn E1 An B4 B5 B6.
  rewrite A3 in E1. injection E1 as ->. unfold answer in An.
  assert (Ls : zlen (share_bytes sh) <= 1024) by (unfold share_bytes, zlen; cbn [length]; rewrite le_bytes_length; lia).
  destruct (ok_nz_chain N HN da d id ri r (share_bytes sh) Ra Rd Ls Ia Na ltac:(rewrite Sa; exact Kn)) as (q1 & q2 & q3 & q4 & q5 & u1 & u2 & u3 & u4 & u5 & n1 & n2 & n3 & c & key & G1 & G2 & G3 & G4 & G5 & G6 & G7 & G8 & G9 & G10 & G11 & G12 & G13 & G14 & G15 & G16 & G17 & _).
  rewrite A1 in G1. injection G1 as <-. rewrite A2 in G2. injection G2 as <- <-. rewrite G4, G5, G6 in An. injection An as <- <-.
  rewrite B4 in G8. injection G8 as <- _. rewrite B5 in G9. injection G9 as <- <-. rewrite B6 in G11. injection G11 as <- <-.
  unfold opened. rewrite G15, G17. reflexivity.
Qed.

Lemma five {A} (l : list A) : length l = 5%nat -> exists a0 a1 a2 a3 a4, l = [a0; a1; a2; a3; a4].
Proof. do 5 (destruct l as [|? l]; [discriminate|]). destruct l; [eauto 20|discriminate]. Qed.

Theorem share_overheard p calls outs a j d rand s hs2 : dealt C p calls outs a -> between C p calls outs j d rand s hs2 ->
  overheard C outs j s = Some (share_bytes (mkShare (j + 1) (poly a (j + 1) mod L))).
Proof.
  intros [F PR Lp POk Tp (e & i & o & Ep & Ea) (Ra & Rs)] [Hj Rd Key Kn An Re].
  destruct (five _ Lp) as ([[e0 i0] o0] & [[e1 i1] o1] & [[e2 i2] o2] & [[e3 i3] o3] & [[e4 i4] o4] & ->). cbn [nth_error] in Ep. injection Ep as -> -> ->.
  apply run_cons in PR. destruct PR as (? & p1 & w0 & ? & -> & P0 & PR). apply run_cons in PR. destruct PR as (? & p2 & w1 & ? & -> & P1 & PR).
  apply run_cons in PR. destruct PR as (? & p3 & w2 & ? & -> & P2 & PR). apply run_cons in PR. destruct PR as (? & p4 & w3 & ? & -> & P3 & PR).
  apply run_cons in PR. destruct PR as (? & p5 & w4 & ? & -> & P4 & PR). injection PR as <-.
  repeat match goal with Q : Forall (fun o => fst (fst o) = 0) (_ :: _) |- _ => inversion Q; clear Q; subst end. cbn [fst] in *. subst.
  unfold fed, wrote in *. cbn [nth_error] in *.
  assert (U0 : is_u64 (pe_s e0 0)) by (eapply Tp; cbn; tauto). assert (U1 : forall x, is_u64 (pe_s e1 x)) by (intros x; eapply Tp; cbn; tauto).
  assert (U2 : forall x, is_u64 (pe_s e2 x)) by (intros x; eapply Tp; cbn; tauto). assert (U3 : forall x, is_u64 (pe_s e x)) by (intros x; eapply Tp; cbn; tauto).
  assert (U4 : forall x, is_u64 (pe_s e4 x)) by (intros x; eapply Tp; cbn; tauto).
  pose proof (fresh_inv C p F) as J0. pose proof (proj1 (proj2 F)) as s0.
  pose proof (pinv_next C HN _ _ _ _ _ _ _ J0 P0) as J1. pose proof (pinv_next C HN _ _ _ _ _ _ _ J1 P1) as J2.
  pose proof (pinv_next C HN _ _ _ _ _ _ _ J2 P2) as J3. pose proof (pinv_next C HN _ _ _ _ _ _ _ J3 P3) as J4.
  assert (t1 : p_step C p1 = 1) by (pose proof (next_step C _ p _ _ _ _ ltac:(lia) P0); lia).
  assert (t2 : p_step C p2 = 2) by (pose proof (next_step C _ p1 _ _ _ _ ltac:(lia) P1); lia).
  assert (t3 : p_step C p3 = 3) by (pose proof (next_step C _ p2 _ _ _ _ ltac:(lia) P2); lia).
  assert (t4 : p_step C p4 = 4) by (pose proof (next_step C _ p3 _ _ _ _ ltac:(lia) P3); lia).
  pose proof (next_frame C _ p1 _ _ _ _ ltac:(lia) ltac:(lia) P1) as (G1n & G1t & _). pose proof (next_frame C _ p2 _ _ _ _ ltac:(lia) ltac:(lia) P2) as (G2n & G2t & _).
  pose proof (next_frame C _ p3 _ _ _ _ ltac:(lia) ltac:(lia) P3) as (G3n & G3t & _). destruct (peer_nt_step C _ _ _ _ _ _ _ P0) as (G0n & G0t).
  (* the peer's keys *)
  pose proof P0 as Z0. rewrite (peer_next_0 C) in Z0 by exact s0. apply pfinish_inv in Z0. destruct Z0 as (q1 & Z0 & Eq1). cbn [Z.eqb] in Eq1.
  apply s23_out in Z0; [|exact HC|apply (v_sid C p (proj1 F))|apply U0]. destruct Z0 as (A1 & A2 & A3 & A4 & A5 & A6 & A7 & A8).
  assert (Nk : p_noise_sk C p1 = p_noise_sk C q1 /\ p_outs C p1 = p_outs C p) by (rewrite Eq1; auto). destruct Nk as (Nk & Ou1).
  set (nsk := p_noise_sk C p1) in *.
  assert (Kn' : slice 143 32 w0 = nz_pk N nsk).
  { apply rd_slice. rewrite <- Nk in A8. rewrite <- (Z.add_0_l 143). rewrite <- (rd_rd _ _ _ _ 143 32 A8) by lia. unfold mk_msg. cbv zeta. unfold message.
    rewrite !app_assoc. rewrite <- (app_nil_r (_ ++ nz_pk N nsk)). rewrite <- app_assoc. apply rd_mid; [|apply (ok_nz_pk_len N HN)].
    rewrite !zlen_app, (sig_zlen S HS), (pk_zlen S HS), zlen_header by apply (v_sid C p (proj1 F)). reflexivity. }
  rewrite Kn' in Kn.
  destruct F as (WF & _ & _ & _ & Fo & _).
  assert (NoLive : forall x, getz (p_outs C p1) j <> Ok (Live x)).
  { rewrite Ou1. intros x G. apply getz_In in G. apply (proj1 (Forall_forall _ _) Fo) in G. destruct G; discriminate. }
  (* step 5 *)
  pose proof P1 as Z1. rewrite (peer_next_1 C) in Z1 by exact t1. apply pfinish_inv in Z1. destruct Z1 as (q2 & Z1 & Eq2). cbn [Z.eqb] in Eq2.
  pose proof Z1 as Z1'. apply peer5_content in Z1'; [|lia]. destruct Z1' as (Li1 & _). change msg2_SIZE with 175 in Li1. change hdr_SIZE with 111 in Li1.
  assert (Rk : rd i1 (111 + j * 175 + 111 + 32) 32 = Ok (nz_pk N (nz_static N d))).
  { rewrite <- Key. replace (111 + j * 175 + 111 + 32) with (111 + j * 175 + 143) by lia. apply slice_rd; lia. }
  destruct (s5_to C HC nsk _ j e1 p1 i1 o1 q2 w1 (i_wf C _ J1) U1 ltac:(lia) eq_refl NoLive Rk Z1) as (Lw1 & _ & d0 & _ & _ & St2).
  (* step 7 *)
  pose proof P2 as Z2. rewrite (peer_next_2 C) in Z2 by exact t2. apply pfinish_inv in Z2. destruct Z2 as (q3 & Z2 & Eq3). cbn [Z.eqb] in Eq3.
  destruct (s7_self C HC j e2 p2 i2 o2 q3 w2 (i_wf C _ J2) U2 ltac:(lia) Z2) as (_ & Ou3 & _).
  (* step 9-11 *)
  pose proof P3 as Z3. rewrite (peer_next_3 C) in Z3 by exact t3. apply pfinish_inv in Z3. destruct Z3 as (q4 & Z3 & Eq4). cbn [Z.eqb] in Eq4.
  destruct (s911_self C j e p3 i o q4 w3 ltac:(lia) Z3) as (_ & _ & Fn4).
  destruct (s911_out C HC e p3 i o q4 w3 (i_wf C _ J3) (U3 0) ltac:(congruence) Rs Z3) as (Sh4 & _).
  (* step 13 *)
  pose proof P4 as Z4. rewrite (peer_next_4 C) in Z4 by exact t4. apply pfinish_inv in Z4. destruct Z4 as (q5 & Z4 & Eq5).
  destruct (s13_self C HC j e4 p4 i4 o4 q5 w4 (i_wf C _ J4) U4 ltac:(lia) Z4) as (_ & _ & sa & sb & sc & sh & m3 & ct & Y1 & Y2 & Y3 & Y4 & Y5 & Y6).
  rewrite Eq4 in Y1, Y2. cbn [p_outs p_shares peer_step_set] in Y1, Y2. destruct (Fn4 _ Y1) as (sa0 & m2 & p2' & Y7 & Y8 & Y9).
  rewrite Eq3 in Y7. cbn [p_outs peer_step_set] in Y7. rewrite Ou3, Eq2 in Y7. cbn [p_outs peer_step_set] in Y7. pose proof (St2 _ Y7) as Started.
  rewrite Sh4, shares_of_get in Y2 by lia. injection Y2 as <-.
  apply rd_slice in Y5, Y6, Y8. unfold overheard, wrote. cbn [nth_error]. rewrite Y5, Y6.
  eapply stranger_channel; [exact Started|exact Rd|reflexivity|exact Kn|apply slice_rd; lia|exact An| |exact Y3|exact Y4]. rewrite Y8. exact Y9.
Qed.

(** enough of them are the secret *)
Theorem secret_overheard p calls outs a (taps : list (Z * nz_sess N)) : dealt C p calls outs a ->
  Forall (fun t => exists d rand hs2, between C p calls outs (fst t) d rand (snd t) hs2) taps ->
  NoDup (map fst taps) -> p_t C p <= Z.of_nat (length taps) ->
  dkg_reconstruct (map (fun t => match overheard C outs (fst t) (snd t) with Some b => share_of b | None => mkShare 0 0 end) taps) = hd 0 a.
Proof.
  intros D Ft Nd Lt. pose proof (v_n C p (proj1 (de_fresh _ _ _ _ _ D))) as Hn. destruct (de_random _ _ _ _ _ D) as (La & Fa). pose proof (v_t C p (proj1 (de_fresh _ _ _ _ _ D))) as Ht.
  assert (E : map (fun t => match overheard C outs (fst t) (snd t) with Some b => share_of b | None => mkShare 0 0 end) taps = map (fun t => mkShare (fst t + 1) (poly a (fst t + 1) mod L)) taps).
  { apply map_ext_in. intros t I. apply (proj1 (Forall_forall _ _) Ft) in I. destruct I as (d & r & h & B). rewrite (share_overheard _ _ _ _ _ _ _ _ _ D B).
    pose proof (bt_j _ _ _ _ _ _ _ _ _ B). apply share_of_bytes; cbn; [unfold is_byte; lia|apply Z.mod_pos_bound; exact L_pos]. }
  rewrite E. rewrite (dkg_reconstruct_spec a).
  - destruct a as [|a0 a]; [cbn in La; lia|]. inversion Fa as [|? ? F1 _]; subst. cbn [hd]. cbn [poly]. rewrite Z.mul_0_l, Z.add_0_r. apply Z.mod_small. unfold random_scalar in F1. lia.
  - rewrite map_map. cbn [s_index]. rewrite <- (map_map fst (fun x => x + 1)). apply FinFun.Injective_map_NoDup; [intros x y; lia|exact Nd].
  - apply Forall_forall. intros x I. rewrite map_map in I. apply in_map_iff in I. destruct I as (t & <- & I). apply (proj1 (Forall_forall _ _) Ft) in I. destruct I as (d & r & h & B).
    pose proof (bt_j _ _ _ _ _ _ _ _ _ B). cbn [s_index]. unfold index_ok. lia.
  - rewrite map_length. lia.
  - intros s I. apply in_map_iff in I. destruct I as (t & <- & _). cbn [s_value s_index]. apply of_Z_mod.
Qed.

(** the broadcast as the trusted party wrote it *)
Theorem keys_authentic e c input out c' out' pe p pout p' pout' :
  crypto_ok C -> tp_wf c -> is_u64 (e_s e 0) -> t_step c = 1 -> tp_next C e c input out = Ok (0, c', out') ->
  p_step C p = 1 -> p_n C p = t_n c -> peer_next C pe p out' pout = Ok (0, p', pout') ->
  forall j, 0 <= j < t_n c -> exists m ltsig lt pk npk,
    rd input (j * 239) 175 = Ok m /\ rd input (j * 239 + 175) 64 = Ok ltsig /\ getz (t_lt c) j = Ok lt /\ sig_verify S lt m ltsig = true /\
    rd m 111 32 = Ok pk /\ rd m 143 32 = Ok npk /\ getz (p_pks C p') j = Ok pk /\ getz (p_npks C p') j = Ok npk.
Proof.
  intros HC' W Hu Hs H Hps Hpn HP j Hj. rewrite (tp_next_1 C) in H by assumption. rewrite (peer_next_1 C) in HP by assumption.
  apply finish_inv in H. destruct H as (c1 & H & ->). apply pfinish_inv in HP. destruct HP as (p1 & HP & ->). pose proof (w_n c W) as Hn.
  destruct (step4_content C e c input out c1 out' HC' (w_sid c W) Hu ltac:(lia) H) as (_ & _ & _ & _ & L5).
  apply peer5_content in HP; [|lia]. destruct HP as (_ & _ & _ & _ & _ & B6). cbn [p_pks p_npks peer_step_set].
  destruct (L5 j Hj) as (m & ltsig & lt & pk & Q1 & Q2 & Q3 & Q4 & Q5 & _ & _ & Q8). destruct (B6 j ltac:(lia)) as (m' & pk' & npk & K1 & K2 & K3 & K4 & K5 & _).
  rewrite Q8 in K1. injection K1 as <-. rewrite Q5 in K2. injection K2 as <-. exists m, ltsig, lt, pk, npk.
  change (msg2_SIZE + sign_BYTES) with 239 in *. change msg2_SIZE with 175 in *. change sign_BYTES with 64 in *. repeat (split; [assumption|]). assumption.
Qed.

End MITM.
