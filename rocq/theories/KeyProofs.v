(** C98: the key depends on the secret of every peer that followed the protocol. *)
From Coq Require Import ZArith Lia List Bool.
From Coq.Strings Require Import Byte.
From Verif Require Import PrimeL Fq Bytes Res Mem Sodium ToprfModel ToprfSpec DkgModel DkgSpec DkgProofs WireModel WireSpec TpCrypto TpModel PeerModel TpSpec TpControl SafeSpec GoodSpec Good KeySpec.
Import ListNotations.
Open Scope list_scope.
Open Scope Z_scope.

Lemma hd_diff : forall (A B : list (list Z)) k a b, length A = length B -> nth_error A k = Some a -> nth_error B k = Some b ->
  (forall j, j <> k -> nth_error A j = nth_error B j) -> zsum (map (hd 0) A) - hd 0 a = zsum (map (hd 0) B) - hd 0 b.
Proof.
  induction A as [|x A IH]; intros [|y B] k a b HL EA EB H; cbn [length] in HL; try discriminate; [destruct k; discriminate|].
  destruct k as [|k]; cbn [nth_error] in EA, EB.
  - injection EA as ->. injection EB as ->. assert (A = B) as ->; [|cbn; lia]. clear IH HL.
    assert (H' : forall j, nth_error A j = nth_error B j) by (intros j; exact (H (S j) ltac:(discriminate))). clear H.
    revert B H'. induction A as [|x A IH]; intros [|y B] H; [reflexivity|specialize (H 0%nat); discriminate|specialize (H 0%nat); discriminate|].
    f_equal; [specialize (H 0%nat); cbn in H; congruence|apply IH; intros j; exact (H (S j))].
  - pose proof (H 0%nat ltac:(discriminate)) as H0. cbn in H0. injection H0 as ->.
    specialize (IH B k a b ltac:(lia) EA EB). cbn [map zsum fold_right]. unfold zsum in IH. 
    assert (E : fold_right Z.add 0 (map (hd 0) A) - hd 0 a = fold_right Z.add 0 (map (hd 0) B) - hd 0 b); [|lia].
    apply IH. intros j Hj. exact (H (S j) ltac:(congruence)).
Qed.

Section KEY.
Variable C : crypto.
Hypothesis HC : crypto_ok C.

Lemma drawn c calls outs parties x a : ended C c calls outs parties -> In x parties -> drew x a ->
  exists A, dealers C c (published c outs) A /\ nth_error A (Z.to_nat (number x)) = Some a /\ key_of parties = zsum (map (hd 0) A) mod L.
Proof.
  intros [D Hs HF HP HN Hl] Hx (e & inp & o & E & <-).
  destruct (one_key C HC c calls outs parties D Hs HF HP HN Hl) as (A & HA & EK).
  assert (Hne : parties <> []) by (intros ->; destruct Hx).
  destruct (one_polynomial C HC c calls outs parties D Hs HF HP Hne) as (B & HB & _ & Ho).
  rewrite (dealers_fun C HC _ _ _ _ HB HA) in Ho. exists A. split; [exact HA|]. split; [|exact EK].
  exact (proj1 (Forall_forall _ _) Ho x Hx e inp o E).
Qed.

Lemma rest_fixed c calls outs parties x a c' calls' outs' parties' x' a' :
  ended C c calls outs parties -> ended C c' calls' outs' parties' -> t_n c = t_n c' ->
  In x parties -> In x' parties' -> number x = number x' -> drew x a -> drew x' a' ->
  others_same (number x) (published c outs) (published c' outs') ->
  (key_of parties - secret a) mod L = (key_of parties' - secret a') mod L.
Proof.
  intros D D' En Hx Hx' Ek Da Da' Ho.
  destruct (drawn _ _ _ _ _ _ D Hx Da) as (A & (LA & FA & EA) & NA & ->). destruct (drawn _ _ _ _ _ _ D' Hx' Da') as (B & (LB & FB & EB) & NB & ->).
  rewrite <- Ek in NB.
  assert (H : zsum (map (hd 0) A) - hd 0 a = zsum (map (hd 0) B) - hd 0 a').
  { apply (hd_diff A B (Z.to_nat (number x))); [lia|assumption|assumption|]. intros j Hj. specialize (Ho j Hj). rewrite EA, EB, !nth_error_map in Ho.
    destruct (nth_error A j) as [u|] eqn:EU; destruct (nth_error B j) as [v|] eqn:EV; try discriminate; [|reflexivity]. cbn in Ho. injection Ho as Ho. f_equal.
    apply (commitments_inj C HC); [exact (proj2 (proj1 (Forall_forall _ _) FA u (nth_error_In _ _ EU)))|exact (proj2 (proj1 (Forall_forall _ _) FB v (nth_error_In _ _ EV)))|exact Ho]. }
  unfold secret. rewrite !Zminus_mod_idemp_l. rewrite H. reflexivity.
Qed.

Lemma drawn_random c calls outs parties x a : ended C c calls outs parties -> In x parties -> drew x a -> 0 < secret a < L.
Proof.
  intros D Hx (e & inp & o & E & <-). pose proof (proj1 (Forall_forall _ _) (en_honest _ _ _ _ _ D) x Hx) as H. destruct x as (((k & p) & pc) & po).
  destruct (tk_random _ _ _ _ _ _ _ _ H _ _ _ E) as (Hl & Hr). pose proof (w_t c (dw_wf _ _ _ _ (en_done _ _ _ _ _ D))) as Wt.
  rewrite (tk_t _ _ _ _ _ _ _ _ H) in Hl. destruct (pe_a e) as [|y l]; [cbn in Hl; lia|]. inversion Hr; subst. assumption.
Qed.

Lemma key_range c calls outs parties : ended C c calls outs parties -> 0 <= key_of parties < L.
Proof.
  intros [D Hs HF HP HN Hl]. destruct (one_key C HC c calls outs parties D Hs HF HP HN Hl) as (A & HA & EK). unfold key_of. rewrite EK. apply Z.mod_pos_bound. pose proof L_gt_65536. lia.
Qed.

Lemma key_moves c calls outs parties x a c' calls' outs' parties' x' a' :
  ended C c calls outs parties -> ended C c' calls' outs' parties' -> t_n c = t_n c' ->
  In x parties -> In x' parties' -> number x = number x' -> drew x a -> drew x' a' ->
  others_same (number x) (published c outs) (published c' outs') ->
  (key_of parties = key_of parties' <-> secret a = secret a').
Proof.
  intros D D' En Hx Hx' Ek Da Da' Ho. pose proof (rest_fixed _ _ _ _ _ _ _ _ _ _ _ _ D D' En Hx Hx' Ek Da Da' Ho) as H.
  pose proof (drawn_random _ _ _ _ _ _ D Hx Da) as R. pose proof (drawn_random _ _ _ _ _ _ D' Hx' Da') as R'.
  pose proof (key_range _ _ _ _ D) as K. pose proof (key_range _ _ _ _ D') as K'.
  split; intros E.
  - rewrite E in H. assert (H2 : (key_of parties' - secret a - (key_of parties' - secret a')) mod L = 0) by (rewrite Zminus_mod, H, Z.sub_diag; reflexivity).
    apply Z.mod_divide in H2; [|lia]. destruct H2 as (q & Hq). assert (q = 0) by nia. lia.
  - rewrite E in H. assert (H2 : (key_of parties - secret a' - (key_of parties' - secret a')) mod L = 0) by (rewrite Zminus_mod, H, Z.sub_diag; reflexivity).
    apply Z.mod_divide in H2; [|lia]. destruct H2 as (q & Hq). assert (q = 0) by nia. lia.
Qed.

(** before the commitments *)
Lemma next_poly a e p input out : p_step C p <> 3 -> peer_next C (with_poly a e) p input out = peer_next C e p input out.
Proof.
  intros H. assert (D : (p_step C p < 0 \/ 10 < p_step C p) \/ (p_step C p = 0 \/ p_step C p = 1 \/ p_step C p = 2 \/ p_step C p = 4 \/ p_step C p = 5 \/ p_step C p = 6 \/ p_step C p = 7 \/ p_step C p = 8 \/ p_step C p = 9 \/ p_step C p = 10)) by lia.
  destruct D as [D|D]; [rewrite !peer_next_other by assumption; reflexivity|].
  unfold peer_next. destruct e as [lg r s sk nsk ri rr lk a0]. cbn [with_poly pe_log pe_r pe_s pe_sk pe_nsk pe_ri pe_rr pe_lock].
  destruct D as [->|[->|[->|[->|[->|[->|[->|[->|[->| ->]]]]]]]]]; reflexivity.
Qed.

Lemma next_early e p input out ret p' out' : 0 <= p_step C p -> peer_next C e p input out = Ok (ret, p', out') ->
  0 <= p_step C p' /\ (p_step C p' = p_step C p + 1 \/ 4 <= p_step C p').
Proof.
  intros Hp H. apply peer_next_moves in H. destruct H as [(Hs & _ & -> & _)|(Hs & c1 & X & [(_ & ->)|[(_ & _ & ->)|[(_ & _ & _ & ->)|[(_ & _ & ->)|(_ & _ & _ & -> & _)]]]])]; cbn [p_step peer_step_set]; lia.
Qed.

Lemma run_poly : forall calls calls' p, 0 <= p_step C p -> p_step C p + Z.of_nat (length calls) <= 3 \/ 4 <= p_step C p ->
  Forall2 same_but_poly calls calls' -> peer_run C p calls = peer_run C p calls'.
Proof.
  induction calls as [|[[e i] o] calls IH]; intros calls' p H0 Hl HF; inversion HF as [|x y l l' (a & ->) HF']; subst; [reflexivity|].
  cbn [fst snd] in *. cbn [peer_run]. cbn [length] in Hl. rewrite next_poly by lia. destruct (peer_next C e p i o) as [[[ret p'] o']|] eqn:E; [|reflexivity]. cbn [bind].
  destruct (next_early _ _ _ _ _ _ _ H0 E) as (H1 & H2). rewrite (IH l' p'); [reflexivity|exact H1|lia|exact HF'].
Qed.

Lemma run_before p calls calls' : p_step C p = 0 -> (length calls <= 3)%nat -> Forall2 same_but_poly calls calls' -> peer_run C p calls = peer_run C p calls'.
Proof. intros H Hl HF. apply run_poly; [lia|lia|exact HF]. Qed.
End KEY.
