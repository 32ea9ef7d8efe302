(** What a wrong or repeated response does to the combined result.  Vocabulary: ToprfSpec.v. *)
From Coq Require Import ZArith Lia List Bool Field Permutation.
From Verif Require Import PrimeL Fq Bytes Res Sodium OprfModel ToprfModel ToprfSpec ToprfProofs.
Import ListNotations.
Open Scope list_scope.
Open Scope Z_scope.

Section Tamper.
  Variable R : ristretto.
  Hypothesis HR : ristretto_ok R.

  (** the weighted response *)
  Definition weighted (idx : list Z) (p : part) : rG R :=
    gmul R (of_Z (coeff (p_index p) idx)) (dec0 R p).

  Lemma mult_value parts junk out : length junk = length parts -> thresholdmult R parts junk = Ok (0, out) ->
    out = renc R (gsum R (map (weighted (map p_index parts)) parts)) /\
    (forall p, In p parts -> renc R (dec0 R p) = p_value p).
  Proof.
    intros Hj HT.
    destruct (Nat.le_gt_cases (length parts) 255) as [Hlen|Hlen].
    2:{ rewrite (thresholdmult_long R) in HT by assumption. discriminate. }
    destruct (thresholdmult_spec R HR parts junk Hlen Hj) as (H1 & H2).
    destruct (contrib_dec R (map p_index parts) parts) as [D|D].
    - rewrite (H1 D) in HT. split.
      + assert (E : out = renc R (gsum R (map (contrib0 R (map p_index parts)) parts))) by congruence.
        rewrite E. f_equal. apply gsum_map_ext. intros p Hp. specialize (D p Hp).
        unfold contrib0, weighted, dec0, contrib in *. destruct (rdec R (p_value p)) as [P|]; [|congruence].
        cbv zeta in *. destruct (bytes_eqb _ _); congruence.
      + intros p Hp. specialize (D p Hp). unfold contrib, dec0 in *.
        destruct (rdec R (p_value p)) as [P|] eqn:E; [|congruence]. apply (ok_enc_dec _ HR). assumption.
    - destruct (H2 D) as (r & E). rewrite E in HT. discriminate.
  Qed.

  Lemma gmul_cancel a P Q : a <> 0%fq -> gmul R a P = gmul R a Q -> P = Q.
  Proof.
    intros Ha E. apply (f_equal (gmul R (finv a))) in E. rewrite <- !(gmul_mul R HR) in E.
    rewrite finv_l, !(gmul_1 R) in E by assumption. assumption.
  Qed.

  Lemma idx_app l i v r : map p_index (l ++ mkPart i v :: r) = map p_index l ++ i :: map p_index r.
  Proof. rewrite map_app. reflexivity. Qed.

  Lemma one_wrong l i v v' r junk out out' :
    length junk = length (l ++ mkPart i v :: r) ->
    Forall index_ok (map p_index (l ++ mkPart i v :: r)) -> v <> v' ->
    thresholdmult R (l ++ mkPart i v :: r) junk = Ok (0, out) ->
    thresholdmult R (l ++ mkPart i v' :: r) junk = Ok (0, out') -> out <> out'.
  Proof.
    intros Hj HF Hv T T' E.
    assert (Hj' : length junk = length (l ++ mkPart i v' :: r)) by (rewrite Hj, !app_length; reflexivity).
    destruct (mult_value _ _ _ Hj T) as (V & D). destruct (mult_value _ _ _ Hj' T') as (V' & D').
    rewrite V, V' in E. apply (renc_inj R HR) in E. rewrite !idx_app in E.
    rewrite !map_app, !(gsum_app R HR) in E. cbn [map] in E. rewrite !gsum_cons in E.
    apply (radd_cancel_l R HR) in E. rewrite (radd_comm R HR), (radd_comm R HR _ (gsum R _)) in E.
    apply (radd_cancel_l R HR) in E. unfold weighted in E. cbn [p_index] in E.
    rewrite idx_app in HF. pose proof HF as HF0.
    apply gmul_cancel in E.
    - apply Hv. specialize (D (mkPart i v) (in_elt _ _ _)). specialize (D' (mkPart i v') (in_elt _ _ _)).
      cbn [p_value] in D, D'. congruence.
    - apply coeff_neq_0; [|assumption]. eapply Forall_forall; [exact HF|]. apply in_elt.
  Qed.

  (** an honest quorum with one response replaced *)
  Lemma one_wrong_quorum secret n t a buf shares qs alpha P junk l i v v' r ret out :
    sharing_params secret n t a buf -> create_shares secret n t a buf = Ok shares ->
    quorum t shares qs -> rdec R alpha = Some P ->
    Forall2 (fun s p => p_index p = s_index s /\ oprf_Evaluate R (s_value s) alpha = (0, Some (p_value p)))
      qs (l ++ mkPart i v :: r) ->
    length junk = length (l ++ mkPart i v :: r) -> v' <> v ->
    thresholdmult R (l ++ mkPart i v' :: r) junk = Ok (ret, out) ->
    ret = 1 \/ (ret = 0 /\ out <> renc R (rsmul R secret P)).
  Proof.
    intros HP HC HQ HD HE Hj Hv HT.
    assert (Hr : ret = 0 \/ ret = 1).
    { assert (Hj' : length junk = length (l ++ mkPart i v' :: r)) by (rewrite Hj, !app_length; reflexivity).
      destruct (Nat.le_gt_cases (length (l ++ mkPart i v' :: r)) 255) as [Hlen|Hlen].
      2:{ rewrite (thresholdmult_long R) in HT by assumption. right. congruence. }
      destruct (thresholdmult_spec R HR _ junk Hlen Hj') as (H1 & H2).
      destruct (contrib_dec R (map p_index (l ++ mkPart i v' :: r)) (l ++ mkPart i v' :: r)) as [D|D].
      - rewrite (H1 D) in HT. left. congruence.
      - destruct (H2 D) as (x & E). rewrite E in HT. right. congruence. }
    destruct Hr as [->| ->]; [|left; reflexivity]. right. split; [reflexivity|].
    pose proof (thresholdmult_quorum R HR _ _ _ _ _ _ _ _ _ _ junk HP HC HQ HD HE Hj) as T0.
    intros E. subst out. revert T0 HT. intros T0 HT.
    refine (one_wrong l i v v' r junk _ _ Hj _ (fun e => Hv (eq_sym e)) T0 HT eq_refl).
    apply (created _ _ _ _ _ _ HP) in HC. subst shares.
    destruct (quorum_ready _ _ _ _ _ _ HP HQ) as (_ & Q2 & _).
    assert (Hidx : map p_index (l ++ mkPart i v :: r) = map s_index qs).
    { apply Forall2_map_index. eapply Forall2_impl'; [|exact HE]. cbn. tauto. }
    rewrite Hidx. assumption.
  Qed.

  (** the same for thresholdcombine *)
  Lemma one_wrong_combine l i v v' r r0 out out' :
    (length (l ++ mkPart i v :: r) <= 255)%nat ->
    is_valid_point R v = true -> is_valid_point R v' = true -> v <> v' ->
    thresholdcombine R (l ++ mkPart i v :: r) r0 = Ok (0, out) ->
    thresholdcombine R (l ++ mkPart i v' :: r) r0 = Ok (0, out') -> out <> out'.
  Proof.
    intros Hl Hv Hv' Hne T T' E.
    assert (Hl' : (length (l ++ mkPart i v' :: r) <= 255)%nat) by (rewrite app_length in *; cbn [length] in *; lia).
    rewrite (thresholdcombine_spec R HR) in T, T' by assumption.
    assert (E2 : renc R (gsum R (map (dec0 R) (l ++ mkPart i v :: r))) = renc R (gsum R (map (dec0 R) (l ++ mkPart i v' :: r))))
      by congruence.
    apply (renc_inj R HR) in E2. rewrite !map_app, !(gsum_app R HR) in E2. cbn [map] in E2. rewrite !gsum_cons in E2.
    apply (radd_cancel_l R HR) in E2. rewrite (radd_comm R HR), (radd_comm R HR _ (gsum R _)) in E2.
    apply (radd_cancel_l R HR) in E2. unfold dec0 in E2. cbn [p_value] in E2.
    unfold is_valid_point in *. destruct (rdec R v) as [P|] eqn:D; [|discriminate].
    destruct (rdec R v') as [P'|] eqn:D'; [|discriminate].
    apply Hne. rewrite <- (ok_enc_dec _ HR _ _ D), <- (ok_enc_dec _ HR _ _ D'). congruence.
  Qed.

  (** a response counted twice by thresholdcombine *)
  Lemma twice_combine p parts r0 out out2 : (length (p :: parts) <= 255)%nat ->
    is_valid_point R (p_value p) = true -> p_value p <> zeros 32 ->
    In p parts -> thresholdcombine R parts r0 = Ok (0, out) ->
    thresholdcombine R (p :: parts) r0 = Ok (0, out2) -> out <> out2.
  Proof.
    intros Hl Hv Hz _ T T' E.
    rewrite (thresholdcombine_spec R HR) in T, T' by (cbn [length] in *; lia).
    assert (E2 : renc R (gsum R (map (dec0 R) parts)) = renc R (gsum R (map (dec0 R) (p :: parts)))) by congruence.
    apply (renc_inj R HR) in E2. cbn [map] in E2. rewrite gsum_cons in E2.
    rewrite <- (radd_0_l R HR (gsum R (map (dec0 R) parts))) in E2 at 1.
    rewrite (radd_comm R HR), (radd_comm R HR (dec0 R p)) in E2. apply (radd_cancel_l R HR) in E2.
    unfold is_valid_point in Hv. unfold dec0 in E2. destruct (rdec R (p_value p)) as [P|] eqn:D; [|discriminate].
    apply Hz. rewrite <- (ok_enc_dec _ HR _ _ D), <- E2. apply (ok_enc_zero _ HR).
  Qed.

  (** the last to answer decides: whatever the others answered, the last one can make the result any
      group element, except possibly one *)
  Lemma can_force l i r junk T1 T2 :
    (length (l ++ mkPart i [] :: r) <= 255)%nat ->
    length junk = length (l ++ mkPart i [] :: r) -> Forall index_ok (map p_index (l ++ mkPart i [] :: r)) ->
    (forall p, In p (l ++ r) -> exists P, rdec R (p_value p) = Some P /\ P <> rzero R) ->
    T1 <> T2 ->
    exists T, (T = T1 \/ T = T2) /\ exists v, thresholdmult R (l ++ mkPart i v :: r) junk = Ok (0, renc R T).
  Proof.
    intros Hl Hj HF HV HT. set (idx := map p_index l ++ i :: map p_index r).
    rewrite idx_app in HF. fold idx in HF.
    assert (Hi : index_ok i) by (eapply Forall_forall; [exact HF|]; apply in_elt).
    set (c := of_Z (coeff i idx)). assert (Hc : c <> 0%fq) by (apply coeff_neq_0; assumption).
    set (S := radd R (gsum R (map (weighted idx) l)) (gsum R (map (weighted idx) r))).
    assert (G : forall T, T <> S -> exists v, thresholdmult R (l ++ mkPart i v :: r) junk = Ok (0, renc R T)).
    { intros T Hne. set (X := gmul R (finv c) (radd R (rneg R S) T)).
      assert (EX : gmul R c X = radd R (rneg R S) T).
      { unfold X. rewrite <- (gmul_mul R HR). replace (c * finv c)%fq with (finv c * c)%fq by ring. rewrite finv_l, (gmul_1 R) by assumption. reflexivity. }
      assert (NX : radd R (rneg R S) T <> rzero R).
      { intros E. apply Hne. symmetry. apply (radd_cancel_l R HR (rneg R S)). rewrite (ok_neg _ HR). symmetry. assumption. }
      exists (renc R X).
      assert (Hj' : length junk = length (l ++ mkPart i (renc R X) :: r)) by (rewrite Hj, !app_length; reflexivity).
      assert (Hl' : (length (l ++ mkPart i (renc R X) :: r) <= 255)%nat) by (rewrite app_length in *; cbn [length] in *; lia).
      destruct (thresholdmult_spec R HR _ junk Hl' Hj') as (H1 & _).
      assert (C : forall p, In p (l ++ mkPart i (renc R X) :: r) -> contrib R idx p = Some (weighted idx p)).
      { intros p Hp. unfold contrib, weighted, dec0. apply in_app_or in Hp.
        assert (Hp' : p = mkPart i (renc R X) \/ In p (l ++ r)).
        { destruct Hp as [Hp|[Hp|Hp]]; [right|left; congruence|right]; apply in_or_app; tauto. }
        destruct Hp' as [->|Hp'].
        - cbn [p_value p_index]. rewrite (ok_dec_enc _ HR). cbv zeta. fold c. rewrite EX.
          destruct (bytes_eqb _ _) eqn:B; [|reflexivity]. apply (renc_zero_iff R HR) in B. contradiction.
        - destruct (HV p Hp') as (P & -> & NP). cbv zeta.
          destruct (bytes_eqb _ _) eqn:B; [|reflexivity]. apply (renc_zero_iff R HR) in B.
          apply (gmul_eq_0 R HR) in B. destruct B as [B|B]; [|contradiction]. exfalso. revert B.
          apply coeff_neq_0; [|assumption]. eapply Forall_forall; [exact HF|]. unfold idx.
          apply in_app_or in Hp'. apply in_or_app. destruct Hp' as [Hp'|Hp'];
            [left|right; right]; apply in_map; assumption. }
      rewrite H1; rewrite idx_app; fold idx.
      - do 3 f_equal. transitivity (gsum R (map (weighted idx) (l ++ mkPart i (renc R X) :: r))).
        { apply gsum_map_ext. intros p Hp. unfold contrib0. rewrite (C p Hp). reflexivity. }
        rewrite map_app, (gsum_app R HR). cbn [map]. rewrite gsum_cons. unfold weighted at 2. cbn [p_index].
        unfold dec0. cbn [p_value]. rewrite (ok_dec_enc _ HR). fold c. rewrite EX.
        rewrite (radd_assoc R HR), (radd_comm R HR (gsum R (map _ l))), <- (radd_assoc R HR). fold S.
        rewrite (radd_comm R HR), (radd_assoc R HR), (radd_comm R HR S), (ok_neg _ HR). apply (radd_0_l R HR).
      - intros p Hp. rewrite (C p Hp). discriminate. }
    destruct (bytes_eqb (renc R T1) (renc R S)) eqn:B.
    - exists T2. split; [right; reflexivity|]. apply G. apply bytes_eqb_eq in B. apply (renc_inj R HR) in B. congruence.
    - exists T1. split; [left; reflexivity|]. apply G. intros ->. rewrite bytes_eqb_refl in B. discriminate.
  Qed.
End Tamper.
