(** C81: shares of the key generation are shares as toprf_create_shares makes them, and compute the OPRF. *)
From Coq Require Import ZArith Lia List Bool Permutation.
From Coq.Strings Require Import Byte.
From Verif Require Import PrimeL Fq Bytes Res Mem Sodium OprfModel OprfSpec OprfProofs ToprfModel ToprfSpec ToprfProofs DkgModel DkgSpec DkgProofs UseSpec.
Import ListNotations.
Open Scope list_scope.
Open Scope Z_scope.

Lemma created_serves R H : ristretto_ok R -> hashes_ok H -> forall K n t a buf shares qs,
  sharing_params K n t a buf -> create_shares K n t a buf = Ok shares -> quorum t shares qs -> K <> 0 -> serves R H n t K qs.
Proof.
  intros HR HH K n t a buf shares qs Hp Hc Hq HK x r Hx Hh Hr. pose proof L_lt_2_255 as L255.
  assert (KL : 0 <= K < L) by apply Hp. assert (KM : K mod 2 ^ 255 = K) by (apply Z.mod_small; lia).
  destruct (oprf_roundtrip R H HR HH x K r Hx Hh) as (alpha & Zb & N & E1 & E2 & E3 & E4 & E5); [unfold scalar_buf; lia|rewrite KM, Z.mod_small; lia|exact Hr|].
  rewrite KM in E4. exists alpha. split; [exact E1|].
  assert (HS : forall s, In s qs -> index_ok (s_index s) /\ 0 <= s_value s < L).
  { intros s Hs. apply Hq in Hs. rewrite create_shares_eq in Hc by apply Hp. injection Hc as <-. unfold shares_of in Hs. apply in_map_iff in Hs. destruct Hs as (i & <- & Hi).
    apply in_map_iff in Hi. destruct Hi as (m & <- & Hm). apply in_seq in Hm. destruct Hp as (_ & Hn & _). cbn [s_index s_value]. unfold index_ok. split; [lia|]. apply Z.mod_pos_bound, L_pos. }
  assert (exists P, rdec R alpha = Some P /\ P <> rzero R /\ renc R (rsmul R K P) = Zb) as (P & D & P0 & EZ).
  { unfold oprf_Evaluate, scalarmult in E2. destruct (rdec R alpha) as [P|] eqn:D; [|discriminate]. exists P. split; [reflexivity|].
    rewrite KM in E2. apply pair_equal_spec in E2. destruct E2 as (Ez & E2). injection E2 as E2. split; [|exact E2]. intros ->.
    rewrite (gmul_of_Z R HR) in Ez by lia. rewrite (gmul_zero R HR) in Ez. rewrite (proj2 (renc_zero_iff R HR _) eq_refl) in Ez. discriminate. }
  assert (HG : client_gets R H x r Zb (oprf_value R H K x)) by (exists N; split; [exact E3|]; rewrite E5, E4; reflexivity).
  split; [|split; [|split]].
  - intros s Hs Hv. destruct (HS s Hs) as (Hi & Hr'). destruct (evaluate_succeeds R HR (s_value s) alpha P D P0) as (v & Ev); [lia|].
    destruct (toprf_evaluate_succeeds R HR s alpha P (s_index s) (map s_index qs) D P0) as (w & Ew); [lia|exact Hi| |exists v, w; auto].
    apply Forall_forall. intros i Hin. apply in_map_iff in Hin. destruct Hin as (s' & <- & Hs'). apply HS. exact Hs'.
  - intros parts junk HF Hj. exists Zb. split; [|exact HG]. rewrite <- EZ. eapply thresholdmult_quorum; eassumption.
  - intros parts r0 HF. exists Zb. split; [|exact HG]. rewrite <- EZ. eapply combine_quorum; eassumption.
  - intros z buf' zshares ssid parts junk Hz Cz HF Hj. exists Zb. split; [|exact HG]. rewrite <- EZ. eapply tdh_quorum; eassumption.
Qed.

Lemma padd_Z_len a b : length a = length b -> length (padd_Z a b) = length a.
Proof. revert b. induction a as [|x a IH]; intros [|y b] H; cbn in *; try lia. f_equal. apply IH. lia. Qed.
Lemma psum_len A m : A <> [] -> Forall (fun a => length a = m) A -> length (psum A) = m.
Proof.
  intros Hne HF. induction HF as [|a A Ha HF IH]; [contradiction|]. change (psum (a :: A)) with (padd_Z a (psum A)). destruct A as [|b A].
  - cbn [psum fold_right]. destruct a; exact Ha.
  - rewrite padd_Z_len; [exact Ha|]. rewrite IH by discriminate. exact Ha.
Qed.

(** n polynomials, added up: a sharing of the sum of their secrets *)
Lemma sum_created A n t buf : 1 <= n <= 254 -> 1 <= t <= 255 -> Z.of_nat (length A) = n -> Forall (fun a => Z.of_nat (length a) = t) A -> Z.of_nat (length buf) = n ->
  let K := zsum (map (hd 0) A) mod L in
  exists a shares, sharing_params K n t a buf /\ create_shares K n t a buf = Ok shares /\ Z.of_nat (length shares) = n /\
    forall i, 1 <= i <= n -> nth_error shares (Z.to_nat (i - 1)) = Some (mkShare i (zsum (map (fun a => poly a i) A) mod L)).
Proof.
  intros Hn Ht HA HF Hb K. assert (Lp : Z.of_nat (length (psum A)) = t).
  { rewrite (psum_len A (Z.to_nat t)); [lia|intros ->; cbn in HA; lia|]. eapply Forall_impl; [|exact HF]. cbv beta. intros; lia. }
  assert (EK : zsum (map (hd 0) A) = hd 0 (psum A)).
  { transitivity (poly (psum A) 0); [|destruct (psum A); [reflexivity|apply poly_cons_0]]. rewrite psum_poly. f_equal. apply map_ext_in. intros a Ha.
    pose proof (proj1 (Forall_forall _ _) HF a Ha) as La. cbv beta in La. destruct a; [cbn in La; lia|]. symmetry. apply poly_cons_0. }
  assert (SP : sharing_params K n t (tl (psum A)) buf).
  { split; [apply Z.mod_pos_bound, L_pos|]. split; [exact Hn|]. split; [exact Ht|]. split; [|exact Hb]. destruct (psum A) as [|s l]; cbn [length tl] in *; lia. }
  destruct (create_shares_full _ _ _ _ _ SP) as (shares & E & Ls & Hi & _). exists (tl (psum A)), shares. split; [exact SP|]. split; [exact E|]. split; [exact Ls|].
  intros i Hr. rewrite Hi by exact Hr. do 2 f_equal. rewrite <- psum_poly. unfold K. rewrite EK. destruct (psum A) as [|s l]; [cbn in Lp; lia|]. cbn [hd tl poly].
  rewrite Z.add_mod_idemp_l by (pose proof L_pos; lia). reflexivity.
Qed.
