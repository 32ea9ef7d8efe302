(** C77: a peer that followed the protocol is not blamed when others complain about it. *)
From Coq Require Import ZArith Lia List Bool.
From Coq.Strings Require Import Byte.
From Verif Require Import PrimeL Fq Bytes Res Mem Sodium ToprfModel ToprfSpec DkgModel DkgSpec DkgProofs WireModel WireSpec WireProofs TpCrypto TpModel PeerModel CheaterModel.
From Verif Require Import TpFrame PeerFrame TpSpec TpMsg TpContent TpComplaints PeerContent TpControl TpSizes TpAgree SafeSpec TpSafe PeerSafe HonestMsg HonestPeer.
From Verif Require Import BlameSpec TpBlame TpClear PeerAnswer ClearSpec.
Import ListNotations.
Open Scope list_scope.
Open Scope Z_scope.

Lemma my_of_In idx l x : In x (my_of idx l) <-> exists y, In y l /\ accused_of y = idx /\ complainer_of y = x.
Proof.
  unfold my_of. rewrite in_map_iff. split.
  - intros (y & E & H). apply filter_In in H. destruct H as (H1 & H2). apply Z.eqb_eq in H2. eauto.
  - intros (y & H1 & H2 & E). exists y. split; [exact E|]. apply filter_In. split; [exact H1|]. apply Z.eqb_eq. exact H2.
Qed.
Lemma my_of_NoDup idx l : NoDup l -> NoDup (my_of idx l).
Proof.
  induction 1 as [|y l N D IH]; [constructor|]. unfold my_of. cbn [filter]. destruct (accused_of y =? idx) eqn:E; [|exact IH].
  cbn [map]. constructor; [|exact IH]. intros I. apply (my_of_In idx l) in I. destruct I as (z & I1 & I2 & I3). apply Z.eqb_eq in E.
  unfold accused_of, complainer_of in *. assert (z = y); [|congruence]. rewrite (Z.div_mod z 256), (Z.div_mod y 256) by lia. congruence.
Qed.
Lemma getz_one {A} (l : list A) i j x : NoDup l -> getz l i = Ok x -> getz l j = Ok x -> i = j.
Proof.
  intros N H1 H2. apply getz_inv in H1, H2. destruct H1 as (A1 & A2), H2 as (B1 & B2).
  assert (Z.to_nat i = Z.to_nat j); [|lia]. apply (proj1 (NoDup_nth_error l) N); [unfold zlen in *; lia|congruence].
Qed.
Lemma In_getz {A} (l : list A) x : In x l -> exists i, 0 <= i < zlen l /\ getz l i = Ok x.
Proof.
  intros H. apply In_nth_error in H. destruct H as (i & H). exists (Z.of_nat i).
  assert (i < length l)%nat by (apply nth_error_Some; congruence). split; [unfold zlen; lia|]. apply getz_ok; [|lia]. rewrite Nat2Z.id. exact H.
Qed.
Lemma shares_of_get a n j : 0 <= j < n -> getz (shares_of a n) j = Ok (mkShare (j + 1) (poly a (j + 1) mod L)).
Proof.
  intros Hj. apply getz_ok; [|lia]. unfold shares_of. rewrite !nth_error_map.
  rewrite (nth_error_nth' _ 0%nat) by (rewrite seq_length; lia). rewrite seq_nth by lia. cbn [option_map]. do 2 f_equal; [lia|do 2 f_equal; lia].
Qed.

Section CLEARED.
Variable C : crypto.
Hypothesis HC : crypto_ok C.
Notation peer := (peer C).
Notation N := (cN C).
Notation S := (cS C).
Let HN : noise_ok N := ok_cN C HC.
Let HS : sigs_ok S := ok_cS C HC.

(** what a call leaves alone *)
Definition frame (c c' : peer) : Prop := p_n C c' = p_n C c /\ p_t C c' = p_t C c /\ p_sid C c' = p_sid C c /\ p_index C c' = p_index C c /\ p_sk C c' = p_sk C c.
Lemma frame_trans a b c : frame a b -> frame b c -> frame a c.
Proof. unfold frame. intuition congruence. Qed.
Lemma next_frame e c input out c' out' : p_step C c <> 0 -> p_step C c <= 7 -> peer_next C e c input out = Ok (0, c', out') -> frame c c'.
Proof.
  intros H0 H7 H. apply peer_next_moves in H. destruct H as [(_ & Q & _)|(_ & c1 & X & H)]; [discriminate|].
  destruct H as [(Q & _)|[(_ & _ & ->)|[(_ & _ & _ & ->)|[(_ & _ & ->)|(_ & Q & _)]]]]; try lia;
    (unfold frame; cbn [p_n p_t p_sid p_index p_sk peer_step_set]; rewrite (y_n C _ _ X), (y_t C _ _ X), (y_sid C _ _ X), (y_index C _ _ X), (y_sk C _ _ X) by assumption; auto).
Qed.
Lemma next_step e c input out c' out' : 0 <= p_step C c <= 5 -> peer_next C e c input out = Ok (0, c', out') -> p_step C c' = p_step C c + 1.
Proof.
  intros H0 H. apply peer_next_moves in H. destruct H as [(_ & Q & _)|(_ & c1 & X & H)]; [discriminate|].
  destruct H as [(Q & _)|[(_ & _ & ->)|[(_ & Q & _)|[(_ & Q & _)|(_ & Q & _)]]]]; try lia. reflexivity.
Qed.

Lemma run_cons c e input out calls outs : peer_run C c ((e, input, out) :: calls) = Ok outs -> exists ret c' out' outs', outs = (ret, c', out') :: outs' /\
  peer_next C e c input out = Ok (ret, c', out') /\ peer_run C c' calls = Ok outs'.
Proof. cbn [peer_run]. intros H. inv H. eauto 10. Qed.

Section RUN.
Variables (p0 p1 p2 p3 p4 p5 p6 p7 p8 : peer) (q0 q1 q2 q5 q6 : peer_call) (e3 e4 e7 : penv) (i3 o3 i4 o4 i7 o7 w0 w1 w2 w3 w4 w5 w6 w7 : bytes).
Hypothesis F : peer_fresh C p0.
Hypothesis R : peer_run C p0 [q0; q1; q2; (e3, i3, o3); (e4, i4, o4); q5; q6; (e7, i7, o7)] =
  Ok [(0, p1, w0); (0, p2, w1); (0, p3, w2); (0, p4, w3); (0, p5, w4); (0, p6, w5); (0, p7, w6); (0, p8, w7)].
Hypothesis T3 : is_u64 (pe_s e3 0).
Hypothesis T4 : forall j, is_u64 (pe_s e4 j).
Hypothesis T7 : is_u64 (pe_s e7 0).
Hypothesis A1 : Z.of_nat (length (pe_a e3)) = p_t C p0.
Hypothesis A2 : Forall random_scalar (pe_a e3).

(** everything the peer did *)
Lemma run_facts : frame p7 p8 /\ p_complaints C p8 = p_complaints C p7 /\ 2 <= p_n C p8 <= 128 /\ zlen (p_sid C p8) = 32 /\ zlen (pe_a e3) = p_t C p8 /\
  skipn 111 w3 = concat (commitments_of (cR C) (pe_a e3)) /\
  (forall j, 0 <= j < p_n C p8 -> sent_share C (p_sk C p8) (p_sid C p8) (p_index C p8) (pe_s e4 j) (p_outs C p7) (mkShare (j + 1) (poly (pe_a e3) (j + 1) mod L)) w4 j) /\
  p_my C p7 = my_of (p_index C p8) (p_complaints C p8) /\
  (p_my C p7 <> [] -> exists body, w7 = mk_msg S (p_sid C p8) (p_sk C p8) 11 (p_index C p8) 0 (pe_s e7 0) body /\ zlen body = 33 * zlen (p_my C p7) /\
    forall k, 0 <= k < zlen (p_my C p7) -> revealed C p7 w7 k).
Proof.
  destruct q0 as [[e0 i0] o0], q1 as [[e1 i1] o1], q2 as [[e2 i2] o2], q5 as [[e5 i5] o5], q6 as [[e6 i6] o6].
  pose proof R as H.
  apply run_cons in H. destruct H as (? & ? & ? & ? & E & N0 & H). injection E as <- <- <- <-.
  apply run_cons in H. destruct H as (? & ? & ? & ? & E & N1 & H). injection E as <- <- <- <-.
  apply run_cons in H. destruct H as (? & ? & ? & ? & E & N2 & H). injection E as <- <- <- <-.
  apply run_cons in H. destruct H as (? & ? & ? & ? & E & N3 & H). injection E as <- <- <- <-.
  apply run_cons in H. destruct H as (? & ? & ? & ? & E & N4 & H). injection E as <- <- <- <-.
  apply run_cons in H. destruct H as (? & ? & ? & ? & E & N5 & H). injection E as <- <- <- <-.
  apply run_cons in H. destruct H as (? & ? & ? & ? & E & N6 & H). injection E as <- <- <- <-.
  apply run_cons in H. destruct H as (? & ? & ? & ? & E & N7 & H). injection E as <- <- <- <-. clear H.
  pose proof (fresh_inv C p0 F) as I0. pose proof (proj1 (proj2 F)) as S0.
  pose proof (pinv_next C HN _ _ _ _ _ _ _ I0 N0) as I1. pose proof (pinv_next C HN _ _ _ _ _ _ _ I1 N1) as I2.
  pose proof (pinv_next C HN _ _ _ _ _ _ _ I2 N2) as I3. pose proof (pinv_next C HN _ _ _ _ _ _ _ I3 N3) as I4.
  pose proof (pinv_next C HN _ _ _ _ _ _ _ I4 N4) as I5. pose proof (pinv_next C HN _ _ _ _ _ _ _ I5 N5) as I6.
  pose proof (pinv_next C HN _ _ _ _ _ _ _ I6 N6) as I7.
  pose proof (next_step _ p0 _ _ _ _ ltac:(lia) N0) as S1. rewrite S0 in S1. cbn in S1.
  pose proof (next_step _ p1 _ _ _ _ ltac:(lia) N1) as S2. rewrite S1 in S2. cbn in S2.
  pose proof (next_step _ p2 _ _ _ _ ltac:(lia) N2) as S3. rewrite S2 in S3. cbn in S3.
  pose proof (next_step _ p3 _ _ _ _ ltac:(lia) N3) as S4. rewrite S3 in S4. cbn in S4.
  pose proof (next_step _ p4 _ _ _ _ ltac:(lia) N4) as S5. rewrite S4 in S5. cbn in S5.
  pose proof (next_step _ p5 _ _ _ _ ltac:(lia) N5) as S6. rewrite S5 in S6. cbn in S6.
  pose proof (next_frame _ p3 _ _ _ _ ltac:(lia) ltac:(lia) N3) as (G3n & G3t & G3s & G3i & G3k).
  pose proof (next_frame _ p4 _ _ _ _ ltac:(lia) ltac:(lia) N4) as (G4n & G4t & G4s & G4i & G4k).
  pose proof (next_frame _ p5 _ _ _ _ ltac:(lia) ltac:(lia) N5) as (G5n & G5t & G5s & G5i & G5k).
  pose proof (next_frame _ p6 _ _ _ _ ltac:(lia) ltac:(lia) N6) as (G6n & G6t & G6s & G6i & G6k).
  assert (G0 : p_n C p3 = p_n C p0 /\ p_t C p3 = p_t C p0).
  { pose proof (next_frame _ p1 _ _ _ _ ltac:(lia) ltac:(lia) N1) as (Q1 & Q2 & _). pose proof (next_frame _ p2 _ _ _ _ ltac:(lia) ltac:(lia) N2) as (Q3 & Q4 & _).
    pose proof N0 as Q. apply peer_next_moves in Q. destruct Q as [(_ & Q & _)|(_ & c1 & X & Q)]; [discriminate|].
    destruct Q as [(Q & _)|[(_ & _ & Q)|[(_ & Q & _)|[(_ & Q & _)|(_ & Q & _)]]]]; try lia. rewrite Q in Q1, Q2. cbn [p_n p_t peer_step_set] in Q1, Q2.
    rewrite (y_n C _ _ X) in Q1. rewrite (y_t C _ _ X) in Q2. split; congruence. }
  destruct G0 as (G0n & G0t). pose proof (i_wf C _ I3) as W3.
  rewrite (peer_next_3 C) in N3 by exact S3. apply pfinish_inv in N3. destruct N3 as (x4 & N3 & E4). cbn [Z.eqb] in E4.
  apply (s911_out C HC) in N3; [|exact W3|exact T3|congruence|exact A2]. destruct N3 as (Sh4 & Cm).
  rewrite (peer_next_4 C) in N4 by exact S4. apply pfinish_inv in N4. destruct N4 as (x5 & N4 & E5). cbn [Z.eqb] in E5.
  assert (Sid4 : zlen (p_sid C p4) = 32) by apply (v_sid C _ (i_wf C _ I4)).
  apply (s13_out C HC) in N4; [|apply (v_outs C _ (i_wf C _ I4))|apply (i_fin C _ I4); exact S4|exact Sid4|exact T4].
  destruct N4 as (Sh5 & _ & _ & Sent).
  rewrite (peer_next_5 C) in N5 by exact S5. apply pfinish_inv in N5. destruct N5 as (x6 & N5 & E6). cbn [Z.eqb] in E6. apply s15_keeps in N5. destruct N5 as (Sh6 & Ou6).
  rewrite (peer_next_6 C) in N6 by exact S6. apply pfinish_inv in N6. destruct N6 as (x7 & N6 & E7). cbn [Z.eqb] in E7.
  pose proof N6 as N6'. apply pext_step17 in N6'. destruct N6' as (c1 & X & N6').
  pose proof (v_n C _ (i_wf C _ I6)) as Hn6.
  apply s17_keeps in N6; [|lia]. destruct N6 as ((Sh7 & Ou7) & Ix7 & My7).
  destruct (i_none C _ I6 ltac:(lia)) as (C6 & M6).
  specialize (My7 ltac:(rewrite M6, C6; reflexivity)).
  assert (Ec7 : p_complaints C p7 = p_complaints C x7 /\ p_my C p7 = p_my C x7 /\ p_outs C p7 = p_outs C x7) by (rewrite E7; auto).
  assert (Eo5 : p_outs C p5 = p_outs C x5 /\ p_shares C p5 = p_shares C x5 /\ p_n C p5 = p_n C x5 /\ p_sk C p5 = p_sk C x5 /\ p_sid C p5 = p_sid C x5 /\ p_index C p5 = p_index C x5) by (rewrite E5; auto 10).
  assert (Eo6 : p_outs C p6 = p_outs C x6 /\ p_complaints C p6 = p_complaints C x6) by (rewrite E6; auto 10).
  assert (Eo4 : p_shares C p4 = p_shares C x4) by (rewrite E4; auto).
  destruct Ec7 as (Ec7 & Em7 & Eu7). destruct Eo5 as (Eo5 & Es5 & En5 & Ek5 & Ed5 & Ei5). destruct Eo6 as (Eo6 & Ec6).
  assert (D7 : p_step C p7 = 7 \/ p_step C p7 = 8 /\ p_complaints C p7 = []).
  { destruct N6' as [->|(-> & _ & Hc)]; rewrite E7; cbn [p_step p_complaints peer_step_set]; rewrite (y_step C _ _ X), S6; [left; reflexivity|right; split; [reflexivity|exact Hc]]. }
  assert (Fr : frame p7 p8 /\ p_complaints C p8 = p_complaints C p7).
  { destruct D7 as [D7|(D7 & _)].
    - split; [eapply next_frame; [| |exact N7]; lia|]. rewrite (peer_next_7 C) in N7 by exact D7. apply pfinish_inv in N7. destruct N7 as (x8 & N7 & ->). apply pext_step17a in N7. destruct N7 as [->|(-> & _)]; reflexivity.
    - rewrite (peer_next_8 C) in N7 by exact D7. apply pfinish_inv in N7. destruct N7 as (x8 & N7 & ->). apply pext_step19 in N7. subst x8. split; [repeat split|reflexivity]. }
  destruct Fr as (Fr & Ec8). pose proof Fr as (G7n & G7t & G7s & G7i & G7k).
  split; [exact Fr|]. split; [exact Ec8|]. split; [lia|]. split; [rewrite G7s, G6s, G5s, G4s; exact Sid4|]. split; [unfold zlen; lia|]. split; [exact Cm|]. split.
  { intros j Hj. destruct (Sent j ltac:(congruence)) as (sh & Gs & Ss). rewrite Sh5, Eo4, Sh4 in Gs. rewrite shares_of_get in Gs by lia. injection Gs as <-.
    replace (p_sk C p8) with (p_sk C x5) by congruence. replace (p_sid C p8) with (p_sid C x5) by congruence. replace (p_index C p8) with (p_index C x5) by congruence.
    replace (p_outs C p7) with (p_outs C x5) by congruence. exact Ss. }
  split; [congruence|].
  intros Hm. destruct D7 as [D7|(_ & Q)].
  2:{ exfalso. apply Hm. rewrite Em7, My7, <- Ec7, Q. reflexivity. }
  rewrite (peer_next_7 C) in N7 by exact D7. apply pfinish_inv in N7. destruct N7 as (x8 & N7 & E8).
  apply (s17a_out C HC) in N7; [|exact I7|exact D7|exact T7]. destruct N7 as (_ & N7). destruct (N7 Hm) as (body & B1 & B2 & B3).
  exists body. rewrite G7s, G7k, G7i. auto.
Qed.

Lemma cleared_answers e c input : tp_wf c -> Forall (complaint_ok (t_n c)) (t_complaints c) -> NoDup (t_complaints c) ->
  same_session C c p8 -> heard C e c input p8 (pe_s e7 0) w3 w4 w7 -> 0 <= t_eps c -> (forall j, 0 <= j < t_n c -> 0 < pe_s e4 j /\ pe_s e4 j + t_eps c < 2 ^ 64) ->
  let a := p_index C p8 in answers_all C e c input a /\
  (forall b, 1 <= b <= t_n c -> In (b * 256 + a) (t_complaints c) -> reveal_accepted C e c input a /\ exists key sh row, answers c input a b key /\ share_kept C c a b /\ opens C c a b key sh /\ s_index sh = b /\
    getz (t_com c) (a - 1) = Ok row /\ matches (cR C) b row (s_value sh)).
Proof.
  intros W Hok Hnd [Sn St Ss Si Sp Sc] [(row & Hr1 & Hr2 & Hr3) He Hk Hf] Heps Hts a.
  destruct run_facts as (Fr & Ec & Hn & Hsid & Ha & Cm & Sent & My & Rev).
  fold a in Si, Sp, Hr1, He, Hk, Hf, Sent, My. rewrite Ss in *. rewrite Sc in My. rewrite Sn in Sent. pose proof (w_n c W) as Hnn. pose proof (w_t c W) as Htt.
  assert (Zm : zlen (p_my C p7) = accusations a (t_complaints c)) by (rewrite My; apply my_of_zlen).
  assert (Hrow : row = commitments_of (cR C) (pe_a e3)).
  { rewrite Cm in Hr3. assert (P : forall l1 l2 : list bytes, Forall (fun b => zlen b = 32) l1 -> Forall (fun b => zlen b = 32) l2 -> concat l1 = concat l2 -> l1 = l2).
    { clear. induction l1 as [|x l1 IH]; intros [|y l2] F1 F2 E; try reflexivity; inversion F1; inversion F2; subst; cbn [concat] in E.
      - destruct y; [discriminate|discriminate].
      - destruct x; [discriminate|discriminate].
      - apply app_inj_len in E; [|unfold zlen in *; lia]. destruct E as (-> & E). f_equal. auto. }
    apply P; [exact Hr2| |exact Hr3]. unfold commitments_of. apply Forall_forall. intros x Hx. apply in_map_iff in Hx. destruct Hx as (y & <- & _). unfold zlen. rewrite (ok_enc_len _ (ok_cR C HC)). reflexivity. }
  assert (HM : forall b, 1 <= b <= t_n c -> matches (cR C) b row (poly (pe_a e3) b mod L)).
  { intros b Hb. rewrite Hrow. apply honest_matches; [apply (ok_cR C HC)|unfold index_ok; lia|exact A2|reflexivity]. }
  assert (Msg : forall b, 1 <= b <= t_n c -> exists s k ct m3, getz (p_outs C p7) (b - 1) = Ok (Live s) /\ nz_key N s = Some k /\ zlen k = 32 /\ zlen m3 = 64 /\ zlen ct = 49 /\
     nz_aead_decrypt N k ct = Some (share_bytes (mkShare b (poly (pe_a e3) b mod L))) /\
     rd (t_enc c) (share_off (t_n c) a b) 256 = Ok (mk_msg S (t_sid c) (p_sk C p8) 8 a b (pe_s e4 (b - 1)) (m3 ++ ct ++ c_auth C k ct))).
  { intros b Hb. destruct (Sent (b - 1) ltac:(lia)) as (s & k & ct & m3 & Q1 & Q2 & Q3 & Q4 & Q5 & Q6 & Q7). replace (b - 1 + 1) with b in * by lia.
    exists s, k, ct, m3. repeat (split; [assumption|]). rewrite <- Q7. change msg8_SIZE with 256 in *. symmetry. rewrite (rd_rd _ _ _ _ _ _ He) by lia. f_equal. unfold share_off. change msg8_SIZE with 256. lia. }
  assert (In_my : forall x, In x (p_my C p7) <-> In (x * 256 + a) (t_complaints c)).
  { intros x. rewrite My, my_of_In. split.
    - intros (y & Y1 & Y2 & Y3). unfold accused_of, complainer_of in *. replace (x * 256 + a) with y; [exact Y1|]. rewrite (Z.div_mod y 256) by lia. lia.
    - intros I. exists (x * 256 + a). destruct (pair_parts x a ltac:(lia)) as (P1 & P2). auto. }
  assert (My_ok : forall x, In x (p_my C p7) -> 1 <= x <= t_n c).
  { intros x I. apply In_my in I. pose proof (proj1 (Forall_forall _ _) Hok _ I) as Q. destruct Q as (Q & _). destruct (pair_parts x a ltac:(lia)) as (P1 & P2). rewrite P1 in Q. exact Q. }
  assert (HB : 0 < accusations a (t_complaints c) -> reveal_accepted C e c input a /\ forall k, 0 <= k < accusations a (t_complaints c) ->
     exists x key s, getz (p_my C p7) k = Ok x /\ names_at c input a k x /\ rd input (reveal_off (t_complaints c) a + 111 + 33 * k + 1) 32 = Ok key /\ getz (p_outs C p7) (x - 1) = Ok (Live s) /\ nz_key N s = Some key).
  { intros H0. assert (Hm : p_my C p7 <> []) by (intros Q; rewrite Q in Zm; change (zlen []) with 0 in Zm; lia).
    destruct (Rev Hm) as (body & Ew & Zb & Rv). assert (Rs : reveal_size (t_complaints c) a = 111 + 33 * accusations a (t_complaints c)) by (unfold reveal_size; rewrite (proj2 (Z.eqb_neq _ 0)) by lia; reflexivity).
    split.
    - assert (Hne : w7 <> []). { intros Q. pose proof (zlen_mk S HS _ Hsid (p_sk C p8) 11 a 0 (pe_s e7 0) body) as Z1. fold a in Ew. rewrite <- Ew, Q in Z1. pose proof (zlen_nonneg body). change (zlen []) with 0 in Z1. lia. }
      destruct (Hf Hne) as (last & L1 & L2). exists (sig_pk S (p_sk C p8)), last. split; [exact Sp|]. split; [exact L1|].
      exists w7, (pe_s e7 0), body. split; [exact Hk|]. split; [|exact L2]. fold a in Ew. rewrite Ew. apply (signed_mk S HS). exact T7.
    - intros k Hk'. destruct (Rv k ltac:(lia)) as (x & s & key & B1 & B2 & B3 & B4 & B5). exists x, key, s. split; [exact B1|].
      rewrite (rd_rd _ _ _ _ _ _ Hk) in B5 by lia. replace (reveal_off (t_complaints c) a + (111 + 33 * k)) with (reveal_off (t_complaints c) a + 111 + 33 * k) in B5 by lia.
      split; [split; [exact Hk'|]|split; [|auto]].
      + destruct (getz_of_rd _ _ _ _ 0 (zb x) B5 eq_refl) as (_ & Q). rewrite Z.add_0_r in Q. exact Q.
      + rewrite <- (rd_rd _ _ _ _ 1 32 B5) by lia. change (zb x :: key) with ([zb x] ++ key). rewrite <- (app_nil_r ([zb x] ++ key)), <- app_assoc. apply rd_mid; [reflexivity|exact B4]. }
  assert (One : forall k k' b, names_at c input a k b -> names_at c input a k' b -> k = k').
  { intros k k' b (K1 & K2) (K3 & K4). destruct (HB ltac:(lia)) as (_ & Q). destruct (Q k K1) as (x & _ & _ & X1 & (_ & X2) & _). destruct (Q k' K3) as (x' & _ & _ & X3 & (_ & X4) & _).
    assert (zb x = zb x') by congruence. assert (x = x').
    { pose proof (My_ok x (getz_In _ _ _ X1)). pose proof (My_ok x' (getz_In _ _ _ X3)). rewrite <- (bz_zb_small x), <- (bz_zb_small x') by lia. congruence. }
    subst x'. refine (getz_one _ _ _ _ _ X1 X3). rewrite My. apply my_of_NoDup. exact Hnd. }
  assert (Op : forall b s key, 1 <= b <= t_n c -> getz (p_outs C p7) (b - 1) = Ok (Live s) -> nz_key N s = Some key -> share_kept C c a b /\ opens C c a b key (mkShare b (poly (pe_a e3) b mod L))).
  { intros b s key Hb G1 G2. destruct (Msg b Hb) as (s' & k' & ct & m3 & Q1 & Q2 & Q3 & Q4 & Q5 & Q6 & Q7). rewrite G1 in Q1. injection Q1 as <-. rewrite G2 in Q2. injection Q2 as <-. split.
    - eexists _, _, _, _. split; [exact Sp|]. split; [exact Q7|]. split; [apply (signed_mk S HS); apply T4|]. destruct (Hts (b - 1) ltac:(lia)). auto.
    - exists ct, (share_bytes (mkShare b (poly (pe_a e3) b mod L))). split; [|split; [|split]].
      + eapply (part_mk S HS _ Hsid); [exact Q7|lia|lia].
      + rewrite app_assoc in Q7. rewrite <- (app_nil_r (c_auth C key ct)) in Q7. eapply (part_mk S HS _ Hsid); [exact Q7|rewrite zlen_app; lia|rewrite (ok_auth_len C HC); reflexivity].
      + exact Q6.
      + symmetry. apply share_of_bytes; cbn [s_index s_value]; [unfold is_byte; lia|]. apply Z.mod_pos_bound. exact L_pos. }
  split; [split; [|split]|].
  - intros H0. apply HB. exact H0.
  - intros k Hk'. destruct (HB ltac:(lia)) as (_ & Q). destruct (Q k Hk') as (x & key & s & X1 & X2 & X3 & X4 & X5). pose proof (My_ok x (getz_In _ _ _ X1)) as Hx.
    destruct (Op x s key Hx X4 X5) as (O1 & O2). exists x, key, (mkShare x (poly (pe_a e3) x mod L)), row.
    split; [exact Hx|]. split; [exact X2|]. split; [apply In_my; eapply getz_In; exact X1|]. split; [exact X3|]. split; [exact O1|]. split; [exact O2|]. split; [reflexivity|]. split; [exact Hr1|]. right. apply HM. exact Hx.
  - exact One.
  - intros b Hb I. apply In_my in I. destruct (In_getz _ _ I) as (k & K1 & K2). rewrite Zm in K1. destruct (HB ltac:(lia)) as (RA & Q). split; [exact RA|].
    destruct (Q k K1) as (x & key & s & X1 & X2 & X3 & X4 & X5). rewrite K2 in X1. injection X1 as <-. destruct (Op b s key Hb X4 X5) as (O1 & O2).
    exists key, (mkShare b (poly (pe_a e3) b mod L)), row. split.
    { exists k. split; [exact X2|]. split; [|exact X3]. intros k' Hk' Nk. pose proof (One _ _ _ X2 Nk). lia. }
    repeat (split; [assumption|]). split; [reflexivity|]. split; [exact Hr1|]. apply HM. exact Hb.
Qed.

Theorem cleared e c input out c' out' : tp_wf c -> Forall (complaint_ok (t_n c)) (t_complaints c) -> NoDup (t_complaints c) -> t_step c = 7 ->
  same_session C c p8 -> heard C e c input p8 (pe_s e7 0) w3 w4 w7 -> 0 <= t_eps c -> (forall j, 0 <= j < t_n c -> 0 < pe_s e4 j /\ pe_s e4 j + t_eps c < 2 ^ 64) ->
  tp_next C e c input out = Ok (3, c', out') ->
  let a := p_index C p8 in exists new, recorded c c' new /\
  (forall b, 1 <= b <= t_n c -> In (b * 256 + a) (t_complaints c) -> exists ch, In ch new /\ ch_peer ch = a /\ ch_other ch = b /\ blames ch = b) /\
  (forall ch, In ch new -> blames ch = a -> exists x, In (a * 256 + x) (t_complaints c)).
Proof.
  intros W Hok Hnd Hs Sm Hd Heps Hts H a. destruct (cleared_answers e c input W Hok Hnd Sm Hd Heps Hts) as (An & Each). fold a in An, Each.
  pose proof (ss_index C c p8 Sm) as Si. fold a in Si.
  destruct (step18_clean C HC e c input out c' out' a W Hok Hnd Hs H Si An) as (new & Rn & Fn).
  exists new. split; [exact Rn|]. split.
  - intros b Hb I. destruct (Each b Hb I) as (RA & key & sh & row & E1 & E2 & E3 & E4 & E5 & E6).
    destruct (complaint_answered C e c input out c' out' a b key sh row HC W Hok Hnd Hs H Si Hb I RA E1 E2 E3 E4 E5) as (new' & Rn' & (ch & C1 & _ & C3 & C4 & C5 & _) & _).
    assert (new' = new) by (unfold recorded in *; rewrite Rn in Rn'; apply app_inv_head in Rn'; congruence). subst new'.
    exists ch. split; [exact C1|]. split; [exact C3|]. split; [exact C4|]. apply C5. right. exact E6.
  - intros ch Hch Bl. exact (proj1 (Forall_forall _ _) Fn ch Hch Bl).
Qed.
End RUN.
End CLEARED.
