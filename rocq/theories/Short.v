(** C107: one dealer less than needed. *)
From Coq Require Import ZArith Lia List Bool Arith Field.
From Verif Require Import PrimeL Fq Poly Bytes Res Mem Sodium LinSolve OprfModel OprfSpec OprfProofs ToprfModel ToprfSpec ToprfProofs DkgModel DkgProofs MpmultModel MpmultProofs.
From Verif Require Import MulSpec MulUse UpdateSpec Update ShortSpec.
Import ListNotations.
Open Scope list_scope.
Open Scope fq_scope.

(** ** the highest coefficient of a product *)
Lemma nth_padd a b k : nth k (padd a b) 0 = nth k a 0 + nth k b 0.
Proof. revert b k. induction a as [|x a IH]; intros [|y b] [|k]; cbn [padd nth]; try ring. apply IH. Qed.

Lemma nth_pscale c b k : nth k (pscale c b) 0 = c * nth k b 0.
Proof. unfold pscale. revert k. induction b as [|y b IH]; intros [|k]; cbn [map nth]; try ring. apply IH. Qed.

Lemma pmul_top a b : (0 < length a)%nat -> (0 < length b)%nat ->
  nth (length a + length b - 2) (pmul a b) 0 = nth (length a - 1) a 0 * nth (length b - 1) b 0.
Proof.
  induction a as [|c a IH]; intros Ha Hb; [cbn in Ha; lia|]. cbn [pmul]. rewrite nth_padd, nth_pscale. destruct a as [|c' a].
  - cbn [length pmul]. replace (1 + length b - 2)%nat with (length b - 1)%nat by lia. cbn [Nat.sub nth]. destruct (length b - 1)%nat as [|[|k]]; cbn [nth]; ring.
  - rewrite (nth_overflow b) by (cbn [length]; lia). specialize (IH ltac:(cbn; lia) Hb). cbn [length] in *.
    replace (S (S (length a)) + length b - 2)%nat with (S (S (length a) + length b - 2)) by lia. cbn [nth]. rewrite IH.
    replace (S (S (length a)) - 1)%nat with (S (S (length a) - 1)) by lia. cbn [nth]. ring.
Qed.

Lemma map_F_nth l k : nth k (map F l) 0 = F (nth k l 0%Z).
Proof. change 0 with (F 0). apply map_nth. Qed.

Section SHORT.
  Variables secA secB nA tA n t : Z.
  Variables rA rB : list Z.
  Variables bufA bufB ashares bshares : list share.
  Variable dealers : list Z.
  Variable dealt : list (list share).
  Variable junk : mat.
  Hypothesis HPA : sharing_params secA nA tA rA bufA.
  Hypothesis HPB : sharing_params secB nA tA rB bufB.
  Hypothesis HCA : create_shares secA nA tA rA bufA = Ok ashares.
  Hypothesis HCB : create_shares secB nA tA rB bufB = Ok bshares.
  Hypothesis Hnd : NoDup dealers.
  Hypothesis Hne : dealers <> [].
  Hypothesis Hn : (1 <= n <= 254)%Z.
  Hypothesis Hdeal : dealt_products ashares bshares n t dealers dealt.

  Let P := pmul (map F (secA :: rA)) (map F (secB :: rB)).

  Lemma dealers_range : Forall (fun d => (1 <= d <= nA)%Z) dealers.
  Proof.
    destruct (dealers_polys secA secB nA tA n t rA rB bufA bufB ashares bshares dealers dealt HPA HPB HCA HCB Hn Hdeal) as (hs & D1 & _); [apply HPA|].
    clear -D1. induction D1 as [|d h ds hs (H & _) _ IH]; constructor; assumption.
  Qed.

  Lemma short_poly : exists cs, Z.of_nat (length cs) = t /\
    (forall q, (length q <= length dealers)%nat -> (forall d, In d dealers -> peval q (F d) = peval P (F d)) -> F (poly cs 0) = peval q 0) /\
    forall j recv, (1 <= j <= n)%Z -> Forall2 (fun shs s => nth_error shs (Z.to_nat (j - 1)) = Some s) dealt recv ->
      mpc_mul_finish dealers j recv junk = mkShare j (poly cs j mod L).
  Proof.
    pose proof HPA as (A1 & A2 & A3 & A4 & A5). pose proof HPB as (B1 & _ & _ & B4 & B5).
    destruct (dealers_polys secA secB nA tA n t rA rB bufA bufB ashares bshares dealers dealt HPA HPB HCA HCB Hn Hdeal) as (hs & D1 & D2); [assumption|].
    assert (Hu8 : Forall u8 dealers).
    { clear -D1 A2. induction D1 as [|d h ds hs (H & _) _ IH]; constructor; [unfold u8; lia|assumption]. }
    assert (Hlh : length dealers = length hs) by (eapply Forall2_length'; exact D1).
    set (lam := map (fun k => F (invertedVDMmatrix dealers junk 0%nat k)) (seq 0 (length dealers))).
    assert (Hll : length lam = length (map (map F) hs)) by (unfold lam; rewrite !map_length, seq_length; assumption).
    exists (map fv (plin lam (map (map F) hs))).
    assert (HPF : map F (map fv (plin lam (map (map F) hs))) = plin lam (map (map F) hs)) by apply map_of_Z_fv.
    split; [|split].
    - rewrite map_length. rewrite (plin_length (Z.to_nat t)); [|assumption| |].
      + destruct D1 as [|d h ds hs' (_ & E & _) _]; [contradiction|]. lia.
      + apply Forall_map. clear -D1. induction D1 as [|d h ds hs (_ & E & _) _ IH]; constructor; [rewrite map_length; lia|assumption].
      + destruct hs; [|discriminate]. destruct dealers; [contradiction|discriminate].
    - intros q Hq Hqd. rewrite of_Z_poly, HPF. rewrite plin_eval by assumption. change (F 0) with 0.
      rewrite map_map.
      pose proof (row0_interpolates dealers junk q Hne Hnd Hu8 Hq) as HI.
      rewrite (dot_sumr_map (fun k => F (invertedVDMmatrix dealers junk 0%nat k))
         (fun d => peval q (F d)) 0%Z dealers) in HI.
      fold lam in HI. rewrite <- HI. f_equal.
      clear -D1 Hqd. induction D1 as [|d h ds hs (_ & _ & E) _ IH]; [reflexivity|]. cbn [map].
      rewrite IH by (intros; apply Hqd; right; assumption). f_equal. rewrite peval_at_0, Hqd by (left; reflexivity). unfold P. rewrite peval_product.
      replace (hd 0 (map F h)) with (F (hd 0%Z h)) by (destruct h; reflexivity). rewrite E, of_Z_mul, !of_Z_poly. reflexivity.
    - intros j recv Hj HR.
      assert (Hlr : length recv = length dealers).
      { rewrite Hlh. transitivity (length dealt); [symmetry; eapply Forall2_length'; exact HR|symmetry; eapply Forall2_length'; exact D2]. }
      destruct (finish_value dealers j recv junk Hlr) as (F1 & F2 & F3).
      set (s := mpc_mul_finish dealers j recv junk) in *. destruct s as [si sv]. cbn [s_index s_value] in *. subst si. f_equal.
      apply eq_mod_of_Z; [assumption|]. rewrite F3, of_Z_poly, HPF, plin_eval by assumption.
      rewrite <- Hlr at 1. rewrite (dot_sumr_map (fun k => F (invertedVDMmatrix dealers junk 0%nat k)) (fun s => F (s_value s))).
      rewrite Hlr. fold lam. rewrite map_map. f_equal.
      clear -D2 HR Hj Hn. revert recv HR. induction D2 as [|h shs hs shss E _ IH]; intros recv HR; inversion HR as [|x y l l' Hx HR' E1 E2]; [reflexivity|].
      cbn [map]. rewrite <- (IH l') by assumption. f_equal. subst shs.
      apply nth_error_In in Hx as Hin. apply shares_of_In in Hin; [|lia]. destruct Hin as (_ & Ev).
      assert (Ei : s_index y = j).
      { unfold shares_of in Hx. rewrite <- (zrange_seq 1) in Hx. erewrite map_nth_error in Hx by (apply zrange_nth; lia).
        injection Hx as <-. cbn [s_index]. lia. }
      rewrite Ev, Ei, of_Z_mod, of_Z_poly. reflexivity.
  Qed.

  (** with 2t-2 dealers the value at 0 is always another one *)
  Lemma one_short_wrong cs : (2 <= tA)%Z -> Z.of_nat (length dealers) = (2 * tA - 2)%Z -> Forall random_scalar rA -> Forall random_scalar rB ->
    (forall q, (length q <= length dealers)%nat -> (forall d, In d dealers -> peval q (F d) = peval P (F d)) -> F (poly cs 0) = peval q 0) ->
    poly cs 0 mod L <> ((secA * secB) mod L)%Z.
  Proof.
    intros Ht Hl RA RB HQ E. pose proof HPA as (A1 & A2 & A3 & A4 & A5). pose proof HPB as (_ & _ & _ & B4 & _). pose proof dealers_range as DR.
    assert (Hu8 : Forall u8 dealers) by (eapply Forall_impl; [|exact DR]; cbv beta; unfold u8; intros; lia).
    destruct (interpolate_exists (map F dealers) (peval P)) as (q & Lq & Hq); [apply F_NoDup; assumption|]. rewrite map_length in Lq.
    assert (E0 : peval q 0 = peval P 0).
    { rewrite <- HQ; [|lia|intros d Hd; apply Hq, in_map, Hd]. apply (f_equal F) in E. rewrite !of_Z_mod in E. rewrite E. unfold P. rewrite peval_product, !peval_at_0. cbn [map hd]. apply of_Z_mul. }
    assert (LP : (length P <= 2 * Z.to_nat tA - 1)%nat).
    { unfold P. eapply Nat.le_trans; [apply pmul_length_tight; cbn; lia|]. cbn [length map]. rewrite !map_length. lia. }
    assert (RBnd : Forall (fun c => c = 0) (padd P (pscale (0 - 1) q))).
    { apply (root_bound (map F (0%Z :: dealers))).
      - apply F_NoDup; [constructor; [|exact Hnd]|constructor; [unfold u8; lia|exact Hu8]]. intros H0. rewrite Forall_forall in DR. specialize (DR _ H0). lia.
      - rewrite padd_length, pscale_length, map_length. cbn [length]. lia.
      - intros x Hx. rewrite padd_eval, pscale_eval. cbn [map] in Hx. destruct Hx as [<-|Hx]; [change (F 0) with 0; rewrite E0; ring|]. rewrite Hq by exact Hx. ring. }
    assert (Z0 : nth (2 * Z.to_nat tA - 2) (padd P (pscale (0 - 1) q)) 0 = 0).
    { destruct (nth_in_or_default (2 * Z.to_nat tA - 2) (padd P (pscale (0 - 1) q)) 0) as [H|H]; [exact (proj1 (Forall_forall _ _) RBnd _ H)|exact H]. }
    rewrite nth_padd, nth_pscale, (nth_overflow q) in Z0 by lia.
    assert (T : nth (2 * Z.to_nat tA - 2) P 0 = F (nth (Z.to_nat tA - 1) (secA :: rA) 0%Z) * F (nth (Z.to_nat tA - 1) (secB :: rB) 0%Z)).
    { unfold P. replace (2 * Z.to_nat tA - 2)%nat with (length (map F (secA :: rA)) + length (map F (secB :: rB)) - 2)%nat by (rewrite !map_length; cbn [length]; lia).
      rewrite pmul_top by (cbn; lia). rewrite !map_F_nth, !map_length. cbn [length]. replace (S (length rA) - 1)%nat with (Z.to_nat tA - 1)%nat by lia. replace (S (length rB) - 1)%nat with (Z.to_nat tA - 1)%nat by lia. reflexivity. }
    rewrite T in Z0. assert (N : forall sec r, Z.of_nat (length r) = (tA - 1)%Z -> Forall random_scalar r -> F (nth (Z.to_nat tA - 1) (sec :: r) 0%Z) <> 0).
    { intros sec r Lr Rr. replace (Z.to_nat tA - 1)%nat with (S (Z.to_nat tA - 2)) by lia. cbn [nth]. apply random_scalar_neq_0. apply (proj1 (Forall_forall _ _) Rr). apply nth_In. lia. }
    assert (Z1 : F (nth (Z.to_nat tA - 1) (secA :: rA) 0%Z) * F (nth (Z.to_nat tA - 1) (secB :: rB) 0%Z) = 0) by (rewrite <- Z0; ring).
    apply fmul_integral in Z1. destruct Z1 as [Z1|Z1]; revert Z1; apply N; assumption.
  Qed.
End SHORT.

Open Scope Z_scope.

(** ** updates *)
Lemma drawn_shares K d : drawn_key K d -> shares_key K d.
Proof. intros (a & buf & _ & SP & E). exists a, buf. split; assumption. Qed.

Lemma by_sharing K delta d dsh dealers d' : dealers <> [] -> shares_key K d -> shares_key delta (mkDep (d_n d) (d_t d) dsh) -> update_by dealers d dsh d' ->
  exists K', shares_key K' d' /\ d_t d' <= d_n d' /\
    (2 <= d_t d -> Z.of_nat (length dealers) = 2 * d_t d - 2 -> drawn_key K d -> drawn_key delta (mkDep (d_n d) (d_t d) dsh) -> K' <> (K * delta) mod L).
Proof.
  intros Hne HK HD (dealt & Hnd & Hn & Hdp & HF). pose proof (dealers_u8 _ _ _ _ _ _ _ HK Hdp) as Hu.
  assert (Htn : 1 <= d_t d' <= d_n d').
  { pose proof Hdp as Hdp'. unfold dealt_products in Hdp'. destruct Hdp' as [|i shs ds dl (sa & sb & r & buf & _ & _ & _ & _ & Hr & Hb & E) _]; [contradiction|].
    destruct (mul_start_ok _ _ _ _ _ _ _ Hn Hr Hb E) as (Ht & _). destruct (mul_start_rejects sa sb (d_n d') (d_t d') r buf) as (Hbad & _).
    split; [lia|]. destruct (Z_lt_le_dec (d_n d') (d_t d')) as [Hlt|]; [|assumption]. rewrite Hbad in E by auto. apply (f_equal (fun o => match o with Ok x => fst x | _ => 0 end)) in E. cbn in E. lia. }
  set (buf := repeat (mkShare 0 0) (Z.to_nat (d_n d'))). assert (Lb : Z.of_nat (length buf) = d_n d') by (unfold buf; rewrite repeat_length; lia).
  assert (G : forall rA bufA rB bufB, sharing_params K (d_n d) (d_t d) rA bufA -> create_shares K (d_n d) (d_t d) rA bufA = Ok (d_shares d) ->
    sharing_params delta (d_n d) (d_t d) rB bufB -> create_shares delta (d_n d) (d_t d) rB bufB = Ok dsh ->
    exists K', shares_key K' d' /\ (2 <= d_t d -> Z.of_nat (length dealers) = 2 * d_t d - 2 -> Forall random_scalar rA -> Forall random_scalar rB -> K' <> (K * delta) mod L)).
  { intros rA bufA rB bufB SA EA SB EB.
    destruct (short_poly K delta (d_n d) (d_t d) (d_n d') (d_t d') rA rB bufA bufB (d_shares d) dsh dealers dealt (fun _ _ => 0) SA SB EA EB Hnd Hne Hn Hdp) as (cs & Lc & HQ & Hj).
    exists (poly cs 0 mod L). split.
    - assert (SP : sharing_params (poly cs 0 mod L) (d_n d') (d_t d') (tl cs) buf).
      { split; [apply Z.mod_pos_bound, L_pos|]. split; [exact Hn|]. split; [lia|]. split; [|exact Lb]. destruct cs; cbn [length tl] in *; lia. }
      exists (tl cs), buf. split; [exact SP|]. destruct (create_shares_full _ _ _ _ _ SP) as (shares & E & Ls & Hi & _). rewrite E. f_equal.
      assert (Lz : length (d_shares d') = Z.to_nat (d_n d')) by (rewrite <- (zrange_length 1 (Z.to_nat (d_n d'))); symmetry; eapply Forall2_length'; exact HF).
      apply nth_ext_error. intros i. destruct (Nat.lt_ge_cases i (Z.to_nat (d_n d'))) as [Hlt|Hge].
      + destruct (Forall2_nth_error _ _ _ HF i _ (zrange_nth 1 (Z.to_nat (d_n d')) i Hlt)) as (s & Es & recv & junk & (Hr & Hc) & ->). rewrite Es.
        rewrite (finish_memory dealers _ recv junk (fun _ _ => 0) Hnd Hu), (Hj _ recv Hr Hc).
        specialize (Hi _ Hr). replace (Z.to_nat (1 + Z.of_nat i - 1)) with i in Hi by lia. rewrite Hi. do 2 f_equal.
        destruct cs as [|c cs]; [cbn in Lc; lia|]. rewrite poly_cons_0. cbn [poly tl]. rewrite Z.add_mod_idemp_l by (pose proof L_pos; lia). reflexivity.
      + rewrite !(proj2 (nth_error_None _ _)) by lia. reflexivity.
    - intros H2 Hl RA RB. eapply (one_short_wrong K delta (d_n d) (d_t d) (d_n d') (d_t d') rA rB bufA bufB (d_shares d) dsh dealers dealt SA SB EA EB Hnd Hn Hdp); eassumption. }
  destruct (Z.eq_dec (Z.of_nat (length dealers)) (2 * d_t d - 2)) as [Hl|Hl].
  - pose proof HK as (rA & bufA & SA & EA). pose proof HD as (rB & bufB & SB & EB). cbn [d_n d_t d_shares] in SB, EB.
    destruct (G rA bufA rB bufB SA EA SB EB) as (K' & K1 & _). exists K'. split; [exact K1|]. split; [lia|].
    intros H2 _ (qA & cA & RA & SA' & EA') (qB & cB & RB & SB' & EB'). cbn [d_n d_t d_shares] in SB', EB'.
    destruct (G qA cA qB cB SA' EA' SB' EB') as (K2 & K3 & W). specialize (W H2 Hl RA RB).
    assert (K' = K2) as ->; [|exact W].
    destruct K1 as (a1 & b1 & S1 & E1). destruct K3 as (a2 & b2 & S2 & E2). pose proof (reconstruct_quorum _ _ _ _ _ _ (d_shares d') S1 E1) as Q1. pose proof (reconstruct_quorum _ _ _ _ _ _ (d_shares d') S2 E2) as Q2.
    assert (Q : quorum (d_t d') (d_shares d') (d_shares d')).
    { destruct (create_shares_full _ _ _ _ _ S1) as (sh & E' & Ls & Hi & _). assert (sh = d_shares d') by congruence. subst sh. split; [|split; [apply incl_refl|lia]].
      apply NoDup_nth_error. intros i j Hli Eij. assert (Hj : (j < length (d_shares d'))%nat) by (apply nth_error_Some; rewrite <- Eij; apply nth_error_Some; exact Hli).
      pose proof (Hi (Z.of_nat i + 1) ltac:(lia)) as X1. pose proof (Hi (Z.of_nat j + 1) ltac:(lia)) as X2.
      replace (Z.to_nat (Z.of_nat i + 1 - 1)) with i in X1 by lia. replace (Z.to_nat (Z.of_nat j + 1 - 1)) with j in X2 by lia. rewrite Eij, X2 in X1. injection X1 as X1 _. lia. }
    rewrite <- (Q1 Q). exact (Q2 Q).
  - pose proof HK as (rA & bufA & SA & EA). pose proof HD as (rB & bufB & SB & EB). cbn [d_n d_t d_shares] in SB, EB.
    destruct (G rA bufA rB bufB SA EA SB EB) as (K' & K1 & _). exists K'. split; [exact K1|]. split; [lia|]. intros; contradiction.
Qed.

Lemma all_quorum K d : shares_key K d -> d_t d <= d_n d -> quorum (d_t d) (d_shares d) (d_shares d).
Proof.
  intros (a & buf & SP & E) Ht. pose proof SP as (_ & Hn & _). destruct (create_shares_full _ _ _ _ _ SP) as (sh & E' & Ls & Hi & _). assert (sh = d_shares d) by congruence. subst sh.
  split; [|split; [apply incl_refl|lia]]. apply NoDup_nth_error. intros i j Hl Eij.
  assert (Hj : (j < length (d_shares d))%nat) by (apply nth_error_Some; rewrite <- Eij; apply nth_error_Some; exact Hl).
  pose proof (Hi (Z.of_nat i + 1) ltac:(lia)) as E1. pose proof (Hi (Z.of_nat j + 1) ltac:(lia)) as E2.
  replace (Z.to_nat (Z.of_nat i + 1 - 1)) with i in E1 by lia. replace (Z.to_nat (Z.of_nat j + 1 - 1)) with j in E2 by lia.
  rewrite Eij, E2 in E1. injection E1 as E1 _. lia.
Qed.

Lemma same_key K1 K2 d : shares_key K1 d -> shares_key K2 d -> d_t d <= d_n d -> K1 = K2.
Proof.
  intros H1 H2 Ht. pose proof (all_quorum _ _ H1 Ht) as Q. destruct H1 as (a1 & b1 & S1 & E1). destruct H2 as (a2 & b2 & S2 & E2).
  rewrite <- (reconstruct_quorum _ _ _ _ _ _ _ S1 E1 Q). exact (reconstruct_quorum _ _ _ _ _ _ _ S2 E2 Q).
Qed.

Lemma enough_right K delta d dsh dealers d' K' : shares_key K d -> shares_key delta (mkDep (d_n d) (d_t d) dsh) -> update_by dealers d dsh d' ->
  2 * d_t d - 1 <= Z.of_nat (length dealers) -> shares_key K' d' -> K' = (K * delta) mod L.
Proof.
  intros HK HD HU He HK'. assert (Hne : dealers <> []) by (intros ->; destruct HK as (a & b & (_ & _ & Ht & _) & _); cbn in He; lia).
  destruct (by_sharing K delta d dsh dealers d' Hne HK HD HU) as (_ & _ & Ht & _). eapply same_key; [exact HK'| |exact Ht].
  eapply updated; [exact HK|exact HD|]. destruct HU as (dealt & U1 & U2 & U3 & U4). exists dealers, dealt. auto.
Qed.

Lemma unnoticed K delta d dsh dealers d' : drawn_key K d -> drawn_key delta (mkDep (d_n d) (d_t d) dsh) -> update_by dealers d dsh d' -> 2 <= d_t d ->
  Z.of_nat (length dealers) = 2 * d_t d - 2 -> exists K', shares_key K' d' /\ K' <> (K * delta) mod L.
Proof.
  intros HK HD HU H2 Hl. assert (Hne : dealers <> []) by (intros ->; cbn in Hl; lia).
  destruct (by_sharing K delta d dsh dealers d' Hne (drawn_shares _ _ HK) (drawn_shares _ _ HD) HU) as (K' & S' & _ & W). exists K'. split; [exact S'|]. apply W; assumption.
Qed.

Lemma any_dealers K delta d dsh n t dealers : shares_key K d -> shares_key delta (mkDep (d_n d) (d_t d) dsh) -> 1 <= t <= n -> n <= 254 ->
  NoDup dealers -> Forall (fun i => 1 <= i <= d_n d) dealers -> dealers <> [] ->
  exists d' K', d_n d' = n /\ d_t d' = t /\ update_by dealers d dsh d' /\ shares_key K' d'.
Proof.
  intros HK HD Ht Hn Hnd HF Hne. destruct (can_multiply (d_shares d) dsh n t dealers Ht Hn) as (dealt & Hdp & HL).
  { rewrite Forall_forall in *. intros i Hi. specialize (HF i Hi). split; [exact (numbers_held _ _ _ HK HF)|exact (numbers_held _ _ i HD HF)]. }
  enough (forall js, Forall (fun j => 1 <= j <= n) js -> exists shs, Forall2 (fun j s => exists recv junk, collected n dealt j recv /\ s = mpc_mul_finish dealers j recv junk) js shs) as G.
  { destruct (G (zrange 1 (Z.to_nat n))) as (shs & HS); [apply Forall_forall; intros j Hj; apply zrange_In in Hj; lia|].
    assert (HU : update_by dealers d dsh (mkDep n t shs)) by (exists dealt; cbn [d_n d_t d_shares]; repeat (split; [assumption || lia|]); exact HS).
    destruct (by_sharing K delta d dsh dealers _ Hne HK HD HU) as (K' & S' & _). exists (mkDep n t shs), K'. auto. }
  intros js HJ. induction HJ as [|j js Hj _ (shs & IH)]; [exists []; constructor|]. destruct (can_collect n dealt j Hj HL) as (recv & Hc).
  exists (mpc_mul_finish dealers j recv (fun _ _ => 0) :: shs). constructor; [|exact IH]. exists recv, (fun _ _ => 0). split; [exact Hc|reflexivity].
Qed.
