(** Buffer sizes of the trusted-party protocol (C29, C48). *)
From Coq Require Import ZArith Lia List Bool.
From Coq.Strings Require Import Byte.
From Verif Require Import Bytes Res Mem Sodium ToprfModel DkgModel WireModel TpCrypto TpModel PeerModel TpFrame PeerFrame TpSpec TpControl.
Import ListNotations.
Open Scope list_scope.
Open Scope Z_scope.

Lemma getz_repeat {A} (x : A) k i : 0 <= i < Z.of_nat k -> getz (repeat x k) i = Ok x.
Proof.
  intros H. apply getz_ok; [|lia]. rewrite (nth_error_nth' _ x).
  - f_equal. apply nth_repeat.
  - rewrite repeat_length. lia.
Qed.

Lemma fold_add_repeat k x : forall a, fold_left Z.add (repeat x k) a = a + Z.of_nat k * x.
Proof. induction k as [|k IH]; intros a; cbn [repeat fold_left]; [lia|]. rewrite IH. lia. Qed.

Section SIZES.
Variable C : crypto.

(** what the peers write is what the trusted party asks for *)
Theorem sizes_collected c (p : peer C) s : In (s, p_step C p) consumes -> t_step c = s -> 1 <= t_n c ->
  p_n C p = t_n c -> p_t C p = t_t c ->
  tp_input_sizes c = Ok (1, repeat (peer_output_size C p) (Z.to_nat (t_n c))) /\
  tp_input_size c = Ok (t_n c * peer_output_size C p).
Proof.
  intros Hin Hs Hn En Et.
  assert (A : tp_input_sizes c = Ok (1, repeat (peer_output_size C p) (Z.to_nat (t_n c)))).
  { unfold tp_input_sizes, peer_output_size. rewrite Hs, En, Et.
    repeat (destruct Hin as [Hin|Hin]; [injection Hin as <- <-; try reflexivity|]); try contradiction; f_equal; f_equal. }
  split; [exact A|]. unfold tp_input_size. rewrite A. cbn [bind]. change (1 =? 1) with true. cbv iota.
  rewrite getz_repeat by lia. cbn [bind]. f_equal. apply Z.mul_comm.
Qed.

(** what is dispatched to a peer has the length it asks for, is inside the buffer, and slices of
    different peers are identical or disjoint *)
Theorem sizes_delivered c (p : peer C) s base i : In (s, p_step C p) delivers -> t_prev c = s ->
  0 < t_n c -> 0 <= i < t_n c -> p_n C p = t_n c -> p_t C p = t_t c -> base = tp_output_size (tp_step_set c s s) ->
  tp_peer_msg c base i = (0, Some (slice_off c s i, peer_input_size C p)) /\
  0 <= slice_off c s i /\ slice_off c s i + peer_input_size C p <= base.
Proof.
  intros Hin Hs Hn Hi En Et ->.
  assert (B : 0 <= slice_off c s i /\ slice_off c s i + peer_input_size C p <= tp_output_size (tp_step_set c s s)).
  { unfold slice_off, peer_input_size, tp_output_size. cbn [t_step tp_step_set t_n t_t]. rewrite En, Et.
    repeat (destruct Hin as [Hin|Hin]; [injection Hin as <- <-|]); try contradiction;
      unfold msg1_SIZE, msg2_SIZE, msg4_SIZE, msg5_SIZE, msg8_SIZE, msg10_SIZE, msg20_SIZE; try lia;
      unfold hs1_SIZE, hs2_SIZE, hs3_SIZE, share_SIZE, mac_SIZE, hmac_SIZE, hdr_SIZE; nia. }
  split; [|exact B].
  unfold tp_peer_msg. destruct (Z.leb_spec (t_n c) i); [lia|]. rewrite Hs.
  destruct B as (B1 & B2). unfold slice_off, peer_input_size, tp_output_size in *. cbn [t_step tp_step_set t_n t_t] in *. rewrite En, Et in *. revert B1 B2.
  repeat (destruct Hin as [Hin|Hin]; [injection Hin as <- <-; cbv beta iota zeta; intros B1 B2;
     match goal with |- (if ?b then _ else _) = _ => destruct b eqn:E; [apply Z.ltb_lt in E; lia|reflexivity] end|]); contradiction.
Qed.

(** for the steps with personal messages the slices of different peers do not overlap; for the
    broadcasts every peer is given the whole buffer *)
Theorem slices_apart c (p : peer C) s base i j off len off' len' : In (s, p_step C p) delivers -> t_prev c = s ->
  0 < t_n c -> 0 <= i < j -> j < t_n c -> p_n C p = t_n c -> p_t C p = t_t c -> base = tp_output_size (tp_step_set c s s) ->
  tp_peer_msg c base i = (0, Some (off, len)) -> tp_peer_msg c base j = (0, Some (off', len')) ->
  off + len <= off' \/ off = 0 /\ off' = 0 /\ len = base /\ len' = base.
Proof.
  intros Hin Hs Hn Hij Hj En Et Hb E1 E2.
  destruct (sizes_delivered c p s base i Hin Hs Hn ltac:(lia) En Et Hb) as (E1' & _). rewrite E1' in E1. injection E1 as <- <-.
  destruct (sizes_delivered c p s base j Hin Hs Hn ltac:(lia) En Et Hb) as (E2' & _). rewrite E2' in E2. injection E2 as <- <-.
  clear E1' E2'. subst base. unfold slice_off, peer_input_size, tp_output_size. cbn [t_step tp_step_set t_n t_t]. rewrite En, Et.
  repeat (destruct Hin as [Hin|Hin]; [injection Hin as <- <-|]); try contradiction;
    try (right; repeat split; try reflexivity; lia); left;
    unfold msg1_SIZE, msg2_SIZE, msg4_SIZE, msg5_SIZE, msg8_SIZE;
      unfold hs1_SIZE, hs2_SIZE, hs3_SIZE, share_SIZE, mac_SIZE, hmac_SIZE, hdr_SIZE; nia.
Qed.

(** ** The handlers demand exactly these sizes *)
Definition not12 (r : Z) : Prop := r <> 1 /\ r <> 2.
Ltac n12 := unfold not12; try lia; match goal with |- context [if ?b then _ else _] => destruct b; lia end.

Lemma codes_tp4 e input i s code s' : tp_step4_body C e input i s = Ok (Return code s') -> not12 code.
Proof. destruct s as [[c out] w]. unfold tp_step4_body. intros H. inv H; n12. Qed.
Lemma codes_tp68 e input i s code s' : tp_step68_body C e input i s = Ok (Return code s') -> not12 code.
Proof. destruct s as [[c out] w]. unfold tp_step68_body. intros H. inv H; n12. Qed.
Lemma codes_tp12 e input i s code s' : tp_step12_body C e input i s = Ok (Return code s') -> not12 code.
Proof. destruct s as [[c out] w]. unfold tp_step12_body. intros H. inv H; n12. Qed.
Lemma codes_tp14 e input i s code s' : tp_step14_body C e input i s = Ok (Return code s') -> not12 code.
Proof. destruct s as [[c out] w]. unfold tp_step14_body. intros H. inv H; n12. Qed.
Lemma codes_tp16c input p i lim k s code s' : tp_step16_complaint input p i lim k s = Ok (Return code s') -> not12 code.
Proof. unfold tp_step16_complaint. intros H. inv H; n12. Qed.
Lemma codes_tp16 e input i s code s' : tp_step16_body C e input i s = Ok (Return code s') -> not12 code.
Proof.
  destruct s as [[c out] w]. unfold tp_step16_body. intros H. inv H; try n12.
  eapply loopM_code; [|eassumption]. intros. eapply codes_tp16c; eassumption.
Qed.
Lemma codes_tp18k e input p i k s code s' : tp_step18_key C e input p i k s = Ok (Return code s') -> not12 code.
Proof. destruct s as [c cs]. unfold tp_step18_key. intros H. inv H; n12. Qed.
Lemma codes_tp18 e input ctr i s code s' : tp_step18_body C e input ctr i s = Ok (Return code s') -> not12 code.
Proof.
  destruct s as [[c out] w]. unfold tp_step18_body. intros H. inv H; try n12.
  eapply loopM_code; [|eassumption]. intros. eapply codes_tp18k; eassumption.
Qed.
Lemma codes_tp18u x s code s' : tp_step18_unanswered x s = Ok (Return code s') -> not12 code.
Proof. unfold tp_step18_unanswered. intros H. inv H; n12. Qed.
Lemma codes_tp20 e input hash i s code s' : tp_step20_body C e input hash i s = Ok (Return code s') -> not12 code.
Proof. destruct s as [c out]. unfold tp_step20_body. intros H. inv H; n12. Qed.
Lemma codes_tp22 e input i s code s' : tp_step22_body C e input i s = Ok (Return code s') -> not12 code.
Proof. unfold tp_step22_body. intros H. inv H; n12. Qed.

Lemma tp_input_size_all c item : 1 <= t_n c -> tp_input_sizes c = Ok (1, repeat item (Z.to_nat (t_n c))) ->
  tp_input_size c = Ok (item * t_n c).
Proof.
  intros Hn H. unfold tp_input_size. rewrite H. cbn [bind]. change (1 =? 1) with true. cbv iota. rewrite getz_repeat by lia. reflexivity.
Qed.

(** a handler that tests the two sizes first and returns other codes later *)
Definition demands (c : tp) (isz osz : Z) (input out : bytes) (r : hres tp) : Prop :=
  (zlen input <> isz -> r = Ok (1, c, out)) /\
  (zlen input = isz -> zlen out <> osz -> r = Ok (2, c, out)) /\
  (zlen input = isz -> zlen out = osz -> forall ret c' out', r = Ok (ret, c', out') -> not12 ret).

Ltac demand HH := split; [|split];
  [ let H := fresh in intros H; match goal with |- (if negb ?b then _ else _) = _ => let Q := fresh "Q" in destruct b eqn:Q; [apply Z.eqb_eq in Q; lia|reflexivity] end
  | let H1 := fresh in let H2 := fresh in intros H1 H2;
    match goal with |- (if negb ?b then _ else _) = _ => let Q := fresh "Q" in destruct b eqn:Q; [|apply Z.eqb_neq in Q; lia] end; cbn [negb];
    match goal with |- (if negb ?b then _ else _) = _ => let Q := fresh "Q" in destruct b eqn:Q; [apply Z.eqb_eq in Q; lia|reflexivity] end
  | let H1 := fresh in let H2 := fresh in intros H1 H2 ret c' out';
    match goal with |- (if negb ?b then _ else _) = _ -> _ => let Q := fresh "Q" in destruct b eqn:Q; [|apply Z.eqb_neq in Q; lia] end; cbn [negb];
    match goal with |- (if negb ?b then _ else _) = _ -> _ => let Q := fresh "Q" in destruct b eqn:Q; [|apply Z.eqb_neq in Q; lia] end; cbn [negb];
    intros HH; inv HH; try n12 ].

Lemma demands_1 e c input out : demands c 0 (t_n c * msg1_SIZE) input out (tp_step1 C e c input out).
Proof.
  unfold tp_step1. demand H. eapply loopM_code; [|eassumption]. intros i s1 r1 s2 E'. cbv beta in E'. inv E'.
Qed.
Lemma demands_4 e c input out : demands c ((msg2_SIZE + sign_BYTES) * t_n c) (msg2_SIZE * t_n c + hdr_SIZE) input out (tp_step4 C e c input out).
Proof. unfold tp_step4. demand H. eapply loopM_code; [|eassumption]. intros. eapply codes_tp4; eassumption. Qed.
Lemma demands_68 e c input out : demands c (msg4_SIZE * t_n c * t_n c) (msg4_SIZE * t_n c * t_n c) input out (tp_step68 C e c input out).
Proof. unfold tp_step68. demand H. eapply loopM_code; [|eassumption]. intros. eapply codes_tp68; eassumption. Qed.
Lemma demands_12 e c input out : demands c (msg6_SIZE (t_t c) * t_n c) (hdr_SIZE + msg6_SIZE (t_t c) * t_n c) input out (tp_step12 C e c input out).
Proof. unfold tp_step12. demand H. eapply loopM_code; [|eassumption]. intros. eapply codes_tp12; eassumption. Qed.
Lemma demands_14 e c input out : demands c (msg8_SIZE * t_n c * t_n c) (msg8_SIZE * t_n c * t_n c) input out (tp_step14 C e c input out).
Proof. unfold tp_step14. demand H. eapply loopM_code; [|eassumption]. intros. eapply codes_tp14; eassumption. Qed.
Lemma demands_16 e c input out : demands c (msg9_SIZE (t_n c) * t_n c) (msg10_SIZE (t_n c)) input out (tp_step16 C e c input out).
Proof. unfold tp_step16. demand H. eapply loopM_code; [|eassumption]. intros. eapply codes_tp16; eassumption. Qed.
Lemma demands_18 e c input out isz : tp_input_size c = Ok isz -> demands c isz 0 input out (tp_step18 C e c input out).
Proof.
  intros HI. unfold tp_step18. rewrite HI. cbn [bind]. demand H.
  - eapply loopM_code; [|eassumption]. intros. eapply codes_tp18u; eassumption.
  - eapply loopM_code; [|eassumption]. intros. eapply codes_tp18; eassumption.
Qed.
Lemma demands_20 e c input out : demands c (msg19_SIZE * t_n c) msg20_SIZE input out (tp_step20 C e c input out).
Proof. unfold tp_step20. demand H. eapply loopM_code; [|eassumption]. intros. eapply codes_tp20; eassumption. Qed.
Lemma demands_22 e c input out : demands c (msg21_SIZE * t_n c) 0 input out (tp_step22 C e c input out).
Proof. unfold tp_step22. demand H. eapply loopM_code; [|eassumption]. intros. eapply codes_tp22; eassumption. Qed.

Definition demands' (c : tp) (isz osz : Z) (input out : bytes) (r : hres tp) : Prop :=
  (zlen input <> isz -> exists c', r = Ok (1, c', out)) /\
  (zlen input = isz -> zlen out <> osz -> exists c', r = Ok (2, c', out)) /\
  (zlen input = isz -> zlen out = osz -> forall ret c' out', r = Ok (ret, c', out') -> ret <> 1 /\ ret <> 2).

Lemma demands_finish c isz osz input out r : demands c isz osz input out r -> demands' c isz osz input out (tp_finish_step r).
Proof.
  intros (D1 & D2 & D3). split; [|split].
  - intros H. rewrite D1 by assumption. eexists. reflexivity.
  - intros H1 H2. rewrite D2 by assumption. eexists. reflexivity.
  - intros H1 H2 ret c' out' E. unfold tp_finish_step in E. inv E. eapply D3; eauto.
Qed.

Theorem tp_demands e c input out isz : 0 <= t_step c <= 9 -> 1 <= t_n c -> tp_input_size c = Ok isz ->
  demands' c isz (tp_output_size c) input out (tp_next C e c input out).
Proof.
  intros Hs Hn HI.
  assert (E : t_step c = 0 \/ t_step c = 1 \/ t_step c = 2 \/ t_step c = 3 \/ t_step c = 4 \/ t_step c = 5 \/ t_step c = 6 \/ t_step c = 7 \/ t_step c = 8 \/ t_step c = 9) by lia.
  assert (K : forall item, tp_input_sizes c = Ok (1, repeat item (Z.to_nat (t_n c))) -> isz = item * t_n c).
  { intros item Hi. rewrite (tp_input_size_all c item Hn Hi) in HI. injection HI as <-. reflexivity. }
  unfold tp_input_sizes in K. unfold tp_output_size.
  destruct E as [E|[E|[E|[E|[E|[E|[E|[E|[E|E]]]]]]]]]; rewrite E in K |- *; cbv beta iota zeta in K |- *;
    try (rewrite (K _ eq_refl)); clear K.
  - rewrite tp_next_0 by assumption. apply demands_finish, demands_1.
  - rewrite tp_next_1 by assumption. apply demands_finish, demands_4.
  - rewrite tp_next_2 by assumption. apply demands_finish. apply demands_68.
  - rewrite tp_next_3 by assumption. apply demands_finish. apply demands_68.
  - rewrite tp_next_4 by assumption. apply demands_finish, demands_12.
  - rewrite tp_next_5 by assumption. apply demands_finish.
    replace (t_n c * msg8_SIZE * t_n c) with (msg8_SIZE * t_n c * t_n c) by ring.
    replace (t_n c * t_n c * msg8_SIZE) with (msg8_SIZE * t_n c * t_n c) by ring. apply demands_14.
  - rewrite tp_next_6 by assumption. destruct (demands_16 e c input out) as (D1 & D2 & D3). split; [|split].
    + intros H. rewrite D1 by assumption. eexists. reflexivity.
    + intros H1 H2. rewrite D2 by assumption. eexists. reflexivity.
    + intros H1 H2 ret c' out' E'. inv E'. eapply D3; eauto.
  - rewrite tp_next_7 by assumption. apply demands_finish, demands_18. assumption.
  - rewrite tp_next_8 by assumption. apply demands_finish, demands_20.
  - rewrite tp_next_9 by assumption. apply demands_finish, demands_22.
Qed.

(** ** The same for the peers *)
Ltac recvs := repeat match goal with
  | H : peer_recv _ _ _ _ _ _ _ _ _ _ _ = Ok (_, _) |- _ => apply peer_recv_inv in H; destruct H as (? & ? & ? & _ & H & _); apply recv_codes in H
  | H : peer_recv_tp _ _ _ _ _ _ _ _ = Ok (_, _) |- _ => apply peer_recv_tp_inv in H; destruct H as (? & H & _); apply recv_codes in H
  end.
Ltac p12 := recvs; unfold not12; lia.

Lemma codes_p5 e input i s code s' : peer_step5_body C e input i s = Ok (Return code s') -> not12 code.
Proof. destruct s as [c out]. unfold peer_step5_body. intros H. inv H; p12. Qed.
Lemma codes_p7 e input i s code s' : peer_step7_body C e input i s = Ok (Return code s') -> not12 code.
Proof. destruct s as [c out]. unfold peer_step7_body. intros H. inv H; p12. Qed.
Lemma codes_p911 e input i s code s' : peer_step911_body C e input i s = Ok (Return code s') -> not12 code.
Proof. unfold peer_step911_body. intros H. inv H; p12. Qed.
Lemma codes_p13 e input i s code s' : peer_step13_body C e input i s = Ok (Return code s') -> not12 code.
Proof. destruct s as [c out]. unfold peer_step13_body. intros H. inv H; p12. Qed.
Lemma codes_p15 e input i s code s' : peer_step15_body C e input i s = Ok (Return code s') -> not12 code.
Proof. unfold peer_step15_body. intros H. inv H; p12. Qed.
Lemma codes_p17c input p i lim k s code s' : peer_step17_complaint C input p i lim k s = Ok (Return code s') -> not12 code.
Proof. unfold peer_step17_complaint. intros H. inv H; p12. Qed.
Lemma codes_p17 e input i s code s' : peer_step17_body C e input i s = Ok (Return code s') -> not12 code.
Proof.
  unfold peer_step17_body. intros H. inv H; try p12.
  eapply loopM_code; [|exact H]. intros. eapply codes_p17c; eassumption.
Qed.
Lemma codes_p17a c i s code s' : peer_step17a_body C c i s = Ok (Return code s') -> not12 code.
Proof. unfold peer_step17a_body. intros H. inv H. Qed.

Definition pdemands (c : peer C) (isz osz : Z) (input out : bytes) (r : hres (peer C)) : Prop :=
  (zlen input <> isz -> r = Ok (1, c, out)) /\
  (zlen input = isz -> zlen out <> osz -> r = Ok (2, c, out)) /\
  (zlen input = isz -> zlen out = osz -> forall ret c' out', r = Ok (ret, c', out') -> not12 ret).
Ltac pdemand HH := split; [|split];
  [ let H := fresh in intros H; match goal with |- (if negb ?b then _ else _) = _ => let Q := fresh "Q" in destruct b eqn:Q; [apply Z.eqb_eq in Q; lia|reflexivity] end
  | let H1 := fresh in let H2 := fresh in intros H1 H2;
    match goal with |- (if negb ?b then _ else _) = _ => let Q := fresh "Q" in destruct b eqn:Q; [|apply Z.eqb_neq in Q; lia] end; cbn [negb];
    match goal with |- (if negb ?b then _ else _) = _ => let Q := fresh "Q" in destruct b eqn:Q; [apply Z.eqb_eq in Q; lia|reflexivity] end
  | let H1 := fresh in let H2 := fresh in intros H1 H2 ret c' out';
    match goal with |- (if negb ?b then _ else _) = _ -> _ => let Q := fresh "Q" in destruct b eqn:Q; [|apply Z.eqb_neq in Q; lia] end; cbn [negb];
    match goal with |- (if negb ?b then _ else _) = _ -> _ => let Q := fresh "Q" in destruct b eqn:Q; [|apply Z.eqb_neq in Q; lia] end; cbn [negb];
    intros HH; inv HH; try p12 ].

Lemma pdemands_0 e c input out : pdemands c msg1_SIZE (msg2_SIZE + sign_BYTES) input out (peer_step23 C e c input out).
Proof. unfold peer_step23. pdemand H. Qed.
Lemma pdemands_1 e c input out : pdemands c (msg2_SIZE * p_n C c + hdr_SIZE) (msg4_SIZE * p_n C c) input out (peer_step5 C e c input out).
Proof.
  unfold peer_step5. pdemand H. apply done_inv in H. destruct H as (_ & _ & [(-> & ->)| ->]); [p12|].
  eapply loopM_code; [|eassumption]. intros. eapply codes_p5; eassumption.
Qed.
Lemma pdemands_2 e c input out : pdemands c (msg4_SIZE * p_n C c) (msg5_SIZE * p_n C c) input out (peer_step7 C e c input out).
Proof.
  unfold peer_step7. pdemand H. apply done_inv in H. destruct H as (_ & _ & [(-> & ->)| ->]); [p12|].
  eapply loopM_code; [|eassumption]. intros. eapply codes_p7; eassumption.
Qed.
Lemma pdemands_3 e c input out : pdemands c (msg5_SIZE * p_n C c) (msg6_SIZE (p_t C c)) input out (peer_step911 C e c input out).
Proof. unfold peer_step911. pdemand H. eapply loopM_code; [|eassumption]. intros. eapply codes_p911; eassumption. Qed.
Lemma pdemands_4 e c input out : pdemands c (hdr_SIZE + msg6_SIZE (p_t C c) * p_n C c) (p_n C c * msg8_SIZE) input out (peer_step13 C e c input out).
Proof.
  unfold peer_step13. pdemand H. apply done_inv in H. destruct H as (_ & _ & [(-> & ->)| ->]); [p12|].
  eapply loopM_code; [|eassumption]. intros. eapply codes_p13; eassumption.
Qed.
Lemma pdemands_5 e c input out : pdemands c (p_n C c * msg8_SIZE) (msg9_SIZE (p_n C c)) input out (peer_step15 C e c input out).
Proof. unfold peer_step15. pdemand H. eapply loopM_code; [|eassumption]. intros. eapply codes_p15; eassumption. Qed.
Lemma pdemands_6 e c input out : pdemands c (msg10_SIZE (p_n C c)) 0 input out (peer_step17 C e c input out).
Proof. unfold peer_step17. pdemand H. eapply loopM_code; [|eassumption]. intros. eapply codes_p17; eassumption. Qed.
Lemma pdemands_7 e c input out : pdemands c 0 (peer_output_size C c) input out (peer_step17a C e c input out).
Proof. unfold peer_step17a. pdemand H. eapply loopM_code; [|eassumption]. intros. eapply codes_p17a; eassumption. Qed.
Lemma pdemands_8 e c input out : pdemands c 0 msg19_SIZE input out (peer_step19 C e c input out).
Proof. unfold peer_step19. pdemand H. Qed.
Lemma pdemands_9 e c input out : pdemands c msg20_SIZE msg21_SIZE input out (peer_step21 C e c input out).
Proof. unfold peer_step21. pdemand H. Qed.

Definition pdemands' (c : peer C) (isz osz : Z) (input out : bytes) (r : hres (peer C)) : Prop :=
  (zlen input <> isz -> exists c', r = Ok (1, c', out)) /\
  (zlen input = isz -> zlen out <> osz -> exists c', r = Ok (2, c', out)) /\
  (zlen input = isz -> zlen out = osz -> forall ret c' out', r = Ok (ret, c', out') -> ret <> 1 /\ ret <> 2).

Lemma pdemands_finish c isz osz input out r : pdemands c isz osz input out r -> pdemands' c isz osz input out (peer_finish_step C r).
Proof.
  intros (D1 & D2 & D3). split; [|split].
  - intros H. rewrite D1 by assumption. eexists. reflexivity.
  - intros H1 H2. rewrite D2 by assumption. eexists. reflexivity.
  - intros H1 H2 ret c' out' E. apply pfinish_inv in E. destruct E as (p & E & _). eapply D3; eauto.
Qed.

Theorem peer_demands e c input out : 0 <= p_step C c <= 9 ->
  pdemands' c (peer_input_size C c) (peer_output_size C c) input out (peer_next C e c input out).
Proof.
  intros Hs.
  assert (E : p_step C c = 0 \/ p_step C c = 1 \/ p_step C c = 2 \/ p_step C c = 3 \/ p_step C c = 4 \/ p_step C c = 5 \/ p_step C c = 6 \/ p_step C c = 7 \/ p_step C c = 8 \/ p_step C c = 9) by lia.
  unfold peer_input_size.
  destruct E as [E|[E|[E|[E|[E|[E|[E|[E|[E|E]]]]]]]]]; rewrite E; cbv iota.
  - rewrite peer_next_0 by assumption. apply pdemands_finish. unfold peer_output_size. rewrite E. apply pdemands_0.
  - rewrite peer_next_1 by assumption. apply pdemands_finish. unfold peer_output_size. rewrite E. apply pdemands_1.
  - rewrite peer_next_2 by assumption. apply pdemands_finish. unfold peer_output_size. rewrite E. apply pdemands_2.
  - rewrite peer_next_3 by assumption. apply pdemands_finish. unfold peer_output_size. rewrite E. apply pdemands_3.
  - rewrite peer_next_4 by assumption. apply pdemands_finish. unfold peer_output_size. rewrite E. apply pdemands_4.
  - rewrite peer_next_5 by assumption. apply pdemands_finish. unfold peer_output_size. rewrite E. apply pdemands_5.
  - rewrite peer_next_6 by assumption. apply pdemands_finish. unfold peer_output_size. rewrite E. apply pdemands_6.
  - rewrite peer_next_7 by assumption. apply pdemands_finish. apply pdemands_7.
  - rewrite peer_next_8 by assumption. apply pdemands_finish. unfold peer_output_size. rewrite E. apply pdemands_8.
  - rewrite peer_next_9 by assumption. apply pdemands_finish. unfold peer_output_size. rewrite E. apply pdemands_9.
Qed.
End SIZES.
