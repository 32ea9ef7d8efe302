(** Concrete complaints, reveals, cheater entries and parameters, over the toy primitives. *)
From Coq Require Import ZArith Lia List Bool.
From Coq.Strings Require Import Byte.
From Verif Require Import Bytes Res Mem Sodium ToprfModel DkgModel DkgSpec DkgProofs WireModel WireSpec TpCrypto TpModel PeerModel CheaterModel TpRun TpSpec TpMsg TpControl TpExamples TpRunExamples.
From Verif Require Import BlameSpec TpBlame TpReports TpStart TpMisc.
Import ListNotations.
Open Scope list_scope.
Open Scope Z_scope.

(** the trusted party after peer 1 complained about peer 2 *)
Definition b_step6 : hres tp := tp_next toyC (d_env_ 6) d_tp_6 d_complain (d_out_ d_tp_6).
Definition b_tp : tp := Eval vm_compute in match b_step6 with Ok (_, c, _) => c | UB => d_blank end.
Definition b_cast : bytes := Eval vm_compute in match b_step6 with Ok (_, _, o) => o | UB => [] end.
(** the reveal message of peer 2 *)
Definition b_reveal : bytes := Eval vm_compute in
  match peer_next toyC (d_penv 1 6) d_peer_6 b_cast [] with
  | Ok (_, p, _) => match peer_next toyC (d_penv 1 7) p [] (zeros 144) with Ok (_, _, m) => m | UB => [] end
  | UB => [] end.
Definition b_key : bytes := Eval vm_compute in skipn 112 b_reveal.

(** the same, after peer 2 published other commitments (those of peer 3) *)
Definition b_net_4 : bytes := patch 286 (firstn 64 (skipn 461 d_net_4)) d_net_4.
Definition b_calls : list tp_call :=
  map (fun x => (d_env_ (fst (fst x)), snd (fst x), zeros (Z.to_nat (snd x)))) [(4, b_net_4, 636); (5, d_net_5, 2304); (6, d_complain, 456)].
Definition b_tp_bad : tp := Eval vm_compute in match tp_run toyC d_tp_4 b_calls with Ok l => final d_blank l | UB => d_blank end.

(** the share peer 2 sent to peer 1, and the commitments of peer 2 in the two cases *)
Definition b_share : share := Eval vm_compute in
  match rd (t_enc b_tp) (share_off 3 2 1 + 111 + 64) 49 with
  | Ok ct => match nz_aead_decrypt toyN b_key ct with Some pt => share_of pt | None => mkShare 0 0 end | UB => mkShare 0 0 end.
Definition b_row (c : tp) : list bytes := nth 1 (t_com c) [].

Lemma toy_matches row v k : length row = 2%nat -> dkg_verify_commitment toyR 1 2 row (mkShare 1 v) = Ok k ->
  (k = 0 <-> matches toyR 1 row v).
Proof.
  intros Hl E. destruct (verify_classify toyR (ok_cR toyC toyC_ok) 1 2 row (mkShare 1 v)) as (ret & E1 & _ & H & _); [unfold ToprfSpec.index_ok; lia|lia|intros ->; discriminate|].
  rewrite E in E1. injection E1 as <-. exact H.
Qed.

Lemma b_answered c k : (c = b_tp /\ k = 128) \/ (c = b_tp_bad /\ k = 129) ->
  tp_wf c /\ Forall (complaint_ok (t_n c)) (t_complaints c) /\ NoDup (t_complaints c) /\ t_step c = 7 /\
  (exists c' out', tp_next toyC (d_env_ 7) c b_reveal [] = Ok (3, c', out') /\ t_cheaters c' = [mkCheater 18 k 2 1 0]) /\
  1 <= 2 <= t_n c /\ 1 <= 1 <= t_n c /\ In (1 * 256 + 2) (t_complaints c) /\
  reveal_accepted toyC (d_env_ 7) c b_reveal 2 /\ answers c b_reveal 2 1 b_key /\ share_kept toyC c 2 1 /\ opens toyC c 2 1 b_key b_share /\ s_index b_share = 1 /\
  getz (t_com c) (2 - 1) = Ok (b_row c).
Proof.
  intros Hc. assert (Ec : t_complaints c = [258] /\ t_n c = 3 /\ t_eps c = 3600) by (destruct Hc as [(-> & _)|(-> & _)]; vm_compute; auto). destruct Ec as (Ec & En & Ee).
  split; [apply wf_of_b; destruct Hc as [(-> & _)|(-> & _)]; vm_compute; reflexivity|].
  split; [rewrite Ec, En; repeat constructor; vm_compute; discriminate|]. split; [rewrite Ec; repeat constructor; intros []|].
  split; [destruct Hc as [(-> & _)|(-> & _)]; vm_compute; reflexivity|].
  split.
  { destruct (run_ok (tp_next toyC (d_env_ 7) c b_reveal []) (fun o => (fst (fst o), t_cheaters (snd (fst o)))) (3, [mkCheater 18 k 2 1 0])) as ([[r c'] o] & E & H);
      [destruct Hc as [(-> & ->)|(-> & ->)]; vm_compute; reflexivity|]. cbn [fst snd] in H. injection H as -> H. eauto. }
  split; [lia|]. split; [lia|]. split; [rewrite Ec; left; reflexivity|].
  split.
  { exists (nth 1 (t_pks c) []), (nth 1 (t_last c) 0). split; [destruct Hc as [(-> & _)|(-> & _)]; vm_compute; reflexivity|].
    split; [destruct Hc as [(-> & _)|(-> & _)]; vm_compute; reflexivity|].
    apply (accepted_of_recv toyC _ _ _ _ _ _ _ _ _ _ _ 1700000076); [rewrite Ec; vm_compute; discriminate|rewrite Ec; vm_compute; discriminate|].
    destruct Hc as [(-> & _)|(-> & _)]; vm_compute; reflexivity. }
  split.
  { exists 0. unfold names_at. rewrite Ec. split; [vm_compute; intuition discriminate|]. split; [lia|]. vm_compute. reflexivity. }
  split.
  { destruct (recv_accepted toyS (t_enc c) (share_off 3 2 1) msg8_SIZE (slice (share_off 3 2 1) msg8_SIZE (t_enc c)) 8 2 1 (nth 1 (t_pks c) []) (t_sid c) 3600 0 (tx_now + 60) 1700000046) as (_ & _ & body & B).
    - destruct Hc as [(-> & _)|(-> & _)]; vm_compute; reflexivity.
    - vm_compute; discriminate.
    - destruct Hc as [(-> & _)|(-> & _)]; vm_compute; reflexivity.
    - eexists _, _, _, body. split; [destruct Hc as [(-> & _)|(-> & _)]; vm_compute; reflexivity|]. rewrite En, Ee.
      split; [|split; [destruct Hc as [(-> & _)|(-> & _)]; exact B|lia]]. destruct Hc as [(-> & _)|(-> & _)]; vm_compute; reflexivity. }
  split.
  { unfold opens. rewrite En. eexists _, _. split; [destruct Hc as [(-> & _)|(-> & _)]; vm_compute; reflexivity|].
    split; [destruct Hc as [(-> & _)|(-> & _)]; vm_compute; reflexivity|]. split; vm_compute; reflexivity. }
  split; [reflexivity|]. destruct Hc as [(-> & _)|(-> & _)]; vm_compute; reflexivity.
Qed.

Lemma C37_answered_example : forall good : bool, exists c input c' out' key sh row,
  crypto_ok toyC /\ tp_wf c /\ Forall (complaint_ok (t_n c)) (t_complaints c) /\ NoDup (t_complaints c) /\ t_step c = 7 /\
  tp_next toyC (d_env_ 7) c input [] = Ok (3, c', out') /\ 1 <= 2 <= t_n c /\ 1 <= 1 <= t_n c /\ In (1 * 256 + 2) (t_complaints c) /\
  reveal_accepted toyC (d_env_ 7) c input 2 /\ answers c input 2 1 key /\ share_kept toyC c 2 1 /\ opens toyC c 2 1 key sh /\ s_index sh = 1 /\
  getz (t_com c) (2 - 1) = Ok row /\ (if good then matches toyR 1 row (s_value sh) else ~ matches toyR 1 row (s_value sh)).
Proof.
  intros good. set (c := if good then b_tp else b_tp_bad). set (k := if good then 128 else 129).
  destruct (b_answered c k) as (A1 & A2 & A3 & A4 & (c' & out' & A5 & _) & A6 & A7 & A8 & A9 & A10 & A11 & A12 & A13 & A14); [destruct good; auto|].
  exists c, b_reveal, c', out', b_key, b_share, (b_row c). split; [exact toyC_ok|]. repeat (split; [assumption|]). clear.
  assert (E : dkg_verify_commitment toyR 1 2 (b_row c) (mkShare 1 (s_value b_share)) = Ok (if good then 0 else 1)) by (destruct good; vm_compute; reflexivity).
  pose proof (toy_matches (b_row c) (s_value b_share) _ ltac:(destruct good; vm_compute; reflexivity) E) as H.
  destruct good; [apply H; reflexivity|]. intros HM. apply H in HM. discriminate.
Qed.

Definition b_badkey : bytes := Eval vm_compute in patch 112 [xff; xfe] b_reveal.
Lemma C37_bad_key_example : exists c input c' out' key,
  tp_wf c /\ Forall (complaint_ok (t_n c)) (t_complaints c) /\ NoDup (t_complaints c) /\ t_step c = 7 /\
  tp_next toyC (d_env_ 7) c input [] = Ok (3, c', out') /\ 1 <= 2 <= t_n c /\ 1 <= 1 <= t_n c /\ In (1 * 256 + 2) (t_complaints c) /\
  reveal_accepted toyC (d_env_ 7) c input 2 /\ answers c input 2 1 key /\ share_kept toyC c 2 1 /\ (forall sh, opens toyC c 2 1 key sh -> s_index sh <> 1).
Proof.
  destruct (b_answered b_tp 128) as (A1 & A2 & A3 & A4 & _ & A6 & A7 & A8 & _ & _ & A11 & _); [auto|].
  destruct (run_ok (tp_next toyC (d_env_ 7) b_tp b_badkey []) (fun o => fst (fst o)) 3) as ([[r c'] o] & E & H); [vm_compute; reflexivity|]. cbn [fst] in H. subst r.
  exists b_tp, b_badkey, c', o, (skipn 112 b_badkey). repeat (split; [assumption|]).
  split.
  { exists (nth 1 (t_pks b_tp) []), (nth 1 (t_last b_tp) 0). split; [vm_compute; reflexivity|]. split; [vm_compute; reflexivity|].
    apply (accepted_of_recv toyC _ _ _ _ _ _ _ _ _ _ _ 1700000076); [vm_compute; discriminate|vm_compute; discriminate|]. vm_compute. reflexivity. }
  split; [exists 0; split; [vm_compute; intuition discriminate|]; split; [lia|]; vm_compute; reflexivity|].
  split; [exact A11|]. intros sh (ct & pt & H1 & H2 & _). exfalso. vm_compute in H1. injection H1 as <-. vm_compute in H2. discriminate.
Qed.

Definition b_unanswered : bytes := Eval vm_compute in patch 111 [x03] b_reveal.
Lemma C37_unanswered_example : exists c input c' out',
  tp_wf c /\ Forall (complaint_ok (t_n c)) (t_complaints c) /\ NoDup (t_complaints c) /\ t_step c = 7 /\
  tp_next toyC (d_env_ 7) c input [] = Ok (3, c', out') /\ 1 <= 2 <= t_n c /\ 1 <= 1 <= t_n c /\ In (1 * 256 + 2) (t_complaints c) /\
  no_answer c input 2 1.
Proof.
  destruct (b_answered b_tp 128) as (A1 & A2 & A3 & A4 & _ & A6 & A7 & A8 & _); [auto|].
  destruct (run_ok (tp_next toyC (d_env_ 7) b_tp b_unanswered []) (fun o => fst (fst o)) 3) as ([[r c'] o] & E & H); [vm_compute; reflexivity|]. cbn [fst] in H. subst r.
  exists b_tp, b_unanswered, c', o. repeat (split; [assumption|]). intros k (K1 & K2). assert (K : accusations 2 (t_complaints b_tp) = 1) by reflexivity. rewrite K in K1.
  assert (k = 0) by lia. subst k. vm_compute in K2. discriminate.
Qed.

(** ** C38 *)
Lemma C38_refutation : exists C e c input out c' out' ch, crypto_ok C /\ tp_wf c /\ t_step c = 1 /\ t_cheaters c = [] /\
  tp_next C e c input out = Ok (6, c', out') /\ In ch (t_cheaters c') /\ ch_peer ch = 1 /\ blames ch = 0.
Proof.
  destruct (run_ok (tp_next toyC (d_env_ 1) d_tp_1 (patch 68 [xff] d_net_1) (d_out_ d_tp_1)) (fun o => (fst (fst o), t_cheaters (snd (fst o)))) (6, [mkCheater 4 65 1 255 0]))
    as ([[r c'] o] & E & H); [vm_compute; reflexivity|]. cbn [fst snd] in H. injection H as -> H.
  exists toyC, (d_env_ 1), d_tp_1, (patch 68 [xff] d_net_1), (d_out_ d_tp_1), c', o, (mkCheater 4 65 1 255 0). split; [exact toyC_ok|].
  split; [apply wf_of_b; vm_compute; reflexivity|]. split; [reflexivity|]. split; [reflexivity|]. split; [exact E|]. rewrite H. split; [left; reflexivity|]. split; reflexivity.
Qed.
Lemma C38_example : exists calls outs, tp_wf d_tp_6 /\ t_complaints d_tp_6 = [] /\ t_cheaters d_tp_6 = [] /\ tp_run toyC d_tp_6 calls = Ok outs /\
  t_cheaters (final d_tp_6 outs) = [mkCheater 18 128 2 1 0].
Proof.
  destruct (run_ok (tp_run toyC d_tp_6 [(d_env_ 6, d_complain, d_out_ d_tp_6); (d_env_ 7, b_reveal, [])]) (fun l => t_cheaters (final d_tp_6 l)) [mkCheater 18 128 2 1 0])
    as (outs & E & H); [vm_compute; reflexivity|].
  eexists _, outs. split; [apply wf_of_b; vm_compute; reflexivity|]. split; [reflexivity|]. split; [reflexivity|]. split; [exact E|exact H].
Qed.

(** ** C43 *)
Lemma C43_tp_example : exists c input out c' out' input2 c2 out2, t_step c = 6 /\ tp_next toyC (d_env_ 6) c input out = Ok (0, c', out') /\ t_complaints c' <> [] /\
  tp_next toyC (d_env_ 7) c' input2 [] = Ok (3, c2, out2).
Proof.
  destruct (run_ok b_step6 (fun o => (fst (fst o), snd (fst o))) (0, b_tp)) as ([[r c'] o] & E & H); [vm_compute; reflexivity|]. cbn [fst snd] in H. injection H as -> ->.
  destruct (b_answered b_tp 128) as (_ & _ & _ & _ & (c2 & o2 & A5 & _) & _); [auto|].
  exists d_tp_6, d_complain, (d_out_ d_tp_6), b_tp, o, b_reveal, c2, o2. split; [reflexivity|]. split; [exact E|]. split; [discriminate|exact A5].
Qed.
Lemma C43_accused_example : exists (p : peer toyC) out p' out', p_step toyC p = 7 /\ p_complaints toyC p <> [] /\ p_my toyC p <> [] /\
  peer_next toyC (d_penv 1 7) p [] out = Ok (0, p', out').
Proof.
  destruct (run_ok (peer_next toyC (d_penv 1 6) d_peer_6 b_cast []) (fun o => (p_step toyC (snd (fst o)), p_complaints toyC (snd (fst o)), p_my toyC (snd (fst o)),
    match peer_next toyC (d_penv 1 7) (snd (fst o)) [] (zeros 144) with Ok (r, _, _) => r | UB => 1 end)) (7, [258], [1], 0)) as ([[r p] o] & E & H); [vm_compute; reflexivity|].
  cbn [fst snd] in H. injection H as H1 H2 H3 H4. destruct (peer_next toyC (d_penv 1 7) p [] (zeros 144)) as [[[r' p'] o']|] eqn:E2; [|discriminate]. subst r'.
  exists p, (zeros 144), p', o'. rewrite H2, H3. split; [exact H1|]. split; [discriminate|]. split; [discriminate|exact E2].
Qed.
(** peer 1 complains about peer 3; peer 2 carries on *)
Definition b_complain3 : bytes := patch 111 [x01; x03] d_net_6.
Lemma C43_refutation : exists C e c input out c' out' pe (p : peer C) p1 pout1 pe2 p2 pout2, crypto_ok C /\ tp_wf c /\
  t_step c = 6 /\ tp_next C e c input out = Ok (0, c', out') /\ t_complaints c' <> [] /\
  p_step C p = 6 /\ p_n C p = t_n c /\ 1 <= p_index C p <= t_n c /\ peer_next C pe p out' [] = Ok (0, p1, pout1) /\ p_complaints C p1 = t_complaints c' /\
  peer_next C pe2 p1 [] [] = Ok (0, p2, pout2) /\ peer_not_done C p2 = true.
Proof.
  destruct (run_ok (then_peer (d_env_ 6) d_tp_6 b_complain3 (d_out_ d_tp_6) (d_penv 1 6) d_peer_6 0 0 [])
    (fun o => (fst (fst (fst o)), fst (fst (snd o)), t_complaints (snd (fst (fst o))), p_complaints toyC (snd (fst (snd o))), p_my toyC (snd (fst (snd o))), p_step toyC (snd (fst (snd o)))))
    (0, 0, [259], [259], [], 7))
    as ([[[ret c'] out'] [[ret2 p'] pout']] & E & H); [vm_compute; reflexivity|]. cbn [fst snd] in H. injection H as -> -> H3 H4 H5 H6.
  apply then_peer_inv in E. destruct E as (E1 & E2). cbn [snd] in E2.
  destruct (unaccused_continues toyC (d_penv 1 7) p' H6 ltac:(rewrite H4; discriminate) H5) as (p2 & E3 & E4).
  eexists toyC, (d_env_ 6), d_tp_6, b_complain3, (d_out_ d_tp_6), c', out', (d_penv 1 6), d_peer_6, p', pout', (d_penv 1 7), p2, [].
  split; [exact toyC_ok|]. split; [apply wf_of_b; vm_compute; reflexivity|]. split; [reflexivity|]. split; [exact E1|]. split; [rewrite H3; discriminate|].
  split; [reflexivity|]. split; [reflexivity|]. split; [vm_compute; intuition discriminate|]. split; [exact E2|]. split; [congruence|]. split; [exact E3|].
  rewrite E4. reflexivity.
Qed.

(** ** C45 *)
Lemma C45_refutation : exists C c eps n t name buf sid sk now c' msg0 (p : peer C) lt pnow p', crypto_ok C /\
  start_tp C c eps n t name buf sid sk now = Ok (0, c', msg0) /\ zlen sid = 32 /\ is_u64 now /\ fresh eps 0 now pnow /\
  start_peer C p eps lt msg0 pnow = Ok (1, p') /\ ~ 2 <= t.
Proof.
  destruct (run_ok (start_tp toyC d_blank 3600 3 1 [x70] (zeros (Z.to_nat msg0_SIZE)) tx_sid tx_sk tx_now) (fun o => fst (fst o)) 0) as ([[r c'] m] & E & H); [vm_compute; reflexivity|].
  cbn [fst] in H. subst r. assert (F : fresh 3600 0 tx_now (tx_now + 1)) by (vm_compute; intuition discriminate).
  destruct (parameters_agree toyC d_blank 3600 3 1 [x70] (zeros (Z.to_nat msg0_SIZE)) tx_sid tx_sk tx_now c' m d_pblank 3600 (d_lt 1) (tx_now + 1) toyC_ok E ltac:(lia) ltac:(reflexivity) ltac:(unfold is_u64, tx_now; lia) F) as (p' & E2 & _).
  exists toyC, d_blank, 3600, 3, 1, [x70], (zeros (Z.to_nat msg0_SIZE)), tx_sid, tx_sk, tx_now, c', m, d_pblank, (d_lt 1), (tx_now + 1), p'.
  split; [exact toyC_ok|]. split; [exact E|]. split; [reflexivity|]. split; [unfold is_u64, tx_now; lia|]. split; [exact F|]. split; [exact E2|lia].
Qed.
Lemma C45_example : exists c' msg0, start_tp toyC d_blank 3600 3 2 [x70] (zeros (Z.to_nat msg0_SIZE)) tx_sid tx_sk tx_now = Ok (0, c', msg0) /\
  zlen tx_sid = 32 /\ is_u64 tx_now /\ fresh 3600 0 tx_now (tx_now + 1).
Proof.
  destruct (run_ok d_started (fun o => fst (fst o)) 0) as ([[r c'] m] & E & H); [vm_compute; reflexivity|]. cbn [fst] in H. subst r.
  exists c', m. split; [exact E|]. split; [reflexivity|]. split; [unfold is_u64, tx_now; lia|vm_compute; intuition discriminate].
Qed.

(** ** C47: dealer 1 publishes the identity, dealer 3 a wrong commitment; peer 2 complains about nobody *)
Definition b_pin_4 (suppress : bool) : bytes :=
  let b := patch 604 (firstn 32 (skipn 254 d_pin_4)) d_pin_4 in if suppress then patch 254 (zeros 32) b else b.
Definition b_peer_5 (s : bool) : res (Z * peer toyC * bytes) := peer_next toyC (d_penv 1 4) d_peer_4 (b_pin_4 s) (d_pout_ d_peer_4).
Definition b_com (s : bool) : list (list bytes) := map (map (le_bytes 32)) [[7; if s then 0 else 11]; [8; 12]; [9; 11]].
Definition b_xs : list share := map (mkShare 2) [29; 32; 35].
Definition b_47 (s : bool) : res (Z * peer toyC * bytes * (Z * peer toyC * bytes)) :=
  do x <- b_peer_5 s ;; do y <- peer_next toyC (d_penv 1 5) (snd (fst x)) d_pin_5 (zeros 115) ;; Ok (x, y).
Lemma C47_both : forall s : bool, exists (p : peer toyC) p' out', p_step toyC p = 5 /\ 1 <= p_n toyC p <= 128 /\ 1 <= p_t toyC p /\ 1 <= p_index toyC p <= 128 /\
  zlen (p_com toyC p) = p_n toyC p /\ Forall (fun row => zlen row = p_t toyC p) (p_com toyC p) /\ zlen (p_xshares toyC p) = p_n toyC p /\
  zlen (p_sid toyC p) = 32 /\ is_u64 (pe_s (d_penv 1 5) 0) /\ p_index toyC p = 2 /\
  peer_next toyC (d_penv 1 5) p d_pin_5 (zeros 115) = Ok (0, p', out') /\
  named out' = (if s then [] else [3]) /\ p_com toyC p' = b_com s /\ p_xshares toyC p' = b_xs.
Proof.
  intros s. destruct (run_ok (b_47 s) (fun o => let p := snd (fst (fst o)) in
    (p_step toyC p, p_n toyC p, p_t toyC p, p_index toyC p, zlen (p_com toyC p), map (fun r => zlen r) (p_com toyC p), zlen (p_xshares toyC p), zlen (p_sid toyC p),
     (fst (fst (snd o)), named (snd (snd o)), p_com toyC (snd (fst (snd o))), p_xshares toyC (snd (fst (snd o))))))
    (5, 3, 2, 2, 3, [2; 2; 2], 3, 32, (0, if s then [] else [3], b_com s, b_xs))) as ([[[r p] o] [[r' p'] o']] & E & H); [destruct s; vm_compute; reflexivity|].
  cbn [fst snd] in H. injection H as H1 H2 H3 H4 H5 H6 H7 H8 -> H10 H11 H12. unfold b_47 in E. apply bind_ok in E. destruct E as (x & _ & E).
  apply bind_ok in E. destruct E as (y & E & E'). injection E' as -> ->. cbn [fst snd] in E.
  exists p, p', o'. rewrite H2, H3, H4. split; [exact H1|]. split; [lia|]. split; [lia|]. split; [lia|]. split; [exact H5|].
  split. { destruct (p_com toyC p) as [|a [|b [|d [|]]]]; try discriminate. cbn in H6. injection H6 as ? ? ?. repeat constructor; assumption. }
  split; [exact H7|]. split; [exact H8|]. split; [vm_compute; intuition discriminate|]. split; [reflexivity|]. split; [exact E|]. split; [exact H10|]. split; assumption.
Qed.
Lemma b_cheated s : cheated toyR 2 (b_com s) b_xs 3.
Proof.
  split; [lia|]. exists (map (le_bytes 32) [9; 11]), (mkShare 2 35). split; [split; [lia|split; reflexivity]|]. intros HM.
  destruct (verify_classify toyR (ok_cR toyC toyC_ok) 2 3 (map (le_bytes 32) [9; 11]) (mkShare 2 35)) as (ret & E1 & _ & H & _); [unfold ToprfSpec.index_ok; lia|lia|discriminate|].
  apply H in HM. rewrite HM in E1. vm_compute in E1. discriminate.
Qed.
Lemma C47_refutation : exists C e (p : peer C) input out p' out' j, crypto_ok C /\ p_step C p = 5 /\ 1 <= p_n C p <= 128 /\ 1 <= p_t C p /\ 1 <= p_index C p <= 128 /\
  zlen (p_com C p) = p_n C p /\ Forall (fun row => zlen row = p_t C p) (p_com C p) /\ zlen (p_xshares C p) = p_n C p /\
  peer_next C e p input out = Ok (0, p', out') /\ cheated (cR C) (p_index C p) (p_com C p') (p_xshares C p') j /\ named out' = [].
Proof.
  destruct (C47_both true) as (p & p' & o & A1 & A2 & A3 & A4 & A5 & A6 & A7 & A8 & A9 & A10 & A11 & A12 & A13 & A14).
  exists toyC, (d_penv 1 5), p, d_pin_5, (zeros 115), p', o, 3. split; [exact toyC_ok|]. repeat (split; [assumption|]). rewrite A13, A14, A10. split; [exact (b_cheated true)|exact A12].
Qed.
Lemma C47_example : exists (p : peer toyC) input out p' out', crypto_ok toyC /\ p_step toyC p = 5 /\ 1 <= p_n toyC p <= 128 /\ 1 <= p_t toyC p /\ 1 <= p_index toyC p <= 128 /\
  zlen (p_com toyC p) = p_n toyC p /\ Forall (fun row => zlen row = p_t toyC p) (p_com toyC p) /\ zlen (p_xshares toyC p) = p_n toyC p /\
  zlen (p_sid toyC p) = 32 /\ is_u64 (pe_s (d_penv 1 5) 0) /\
  peer_next toyC (d_penv 1 5) p input out = Ok (0, p', out') /\ cheated toyR (p_index toyC p) (p_com toyC p') (p_xshares toyC p') 3 /\ named out' = [3].
Proof.
  destruct (C47_both false) as (p & p' & o & A1 & A2 & A3 & A4 & A5 & A6 & A7 & A8 & A9 & A10 & A11 & A12 & A13 & A14).
  exists p, d_pin_5, (zeros 115), p', o. split; [exact toyC_ok|]. repeat (split; [assumption|]). rewrite A13, A14, A10. split; [exact (b_cheated false)|exact A12].
Qed.
