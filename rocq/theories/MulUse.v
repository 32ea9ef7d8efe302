(** C90: the product of two shared keys is a shared key. *)
From Coq Require Import ZArith Lia List Bool.
From Coq.Strings Require Import Byte.
From Verif Require Import PrimeL Fq Bytes Res Mem Sodium OprfModel OprfSpec ToprfModel ToprfSpec ToprfProofs DkgModel DkgSpec MpmultModel MpmultProofs WireModel WireSpec TpCrypto TpModel PeerModel TpRun TpSpec SafeSpec RunSpec.
From Verif Require Import GoodSpec UseSpec Use GoodUse MulSpec.
Import ListNotations.
Open Scope list_scope.
Open Scope Z_scope.

Section PRODUCT.
Context (secA secB nA tA n t : Z) (rA rB : list Z) (bufA bufB : list share) (ashares bshares : list share) (dealers : list Z) (dealt : list (list share)) (junk : mat).
Hypothesis (HPA : sharing_params secA nA tA rA bufA) (HPB : sharing_params secB nA tA rB bufB)
  (HCA : create_shares secA nA tA rA bufA = Ok ashares) (HCB : create_shares secB nA tA rB bufB = Ok bshares)
  (Hnd : NoDup dealers) (Henough : 2 * tA - 1 <= Z.of_nat (length dealers)) (Hn : 1 <= n <= 254)
  (Hdeal : dealt_products ashares bshares n t dealers dealt).

Lemma deal_t : 1 <= t <= n.
Proof.
  assert (1 <= tA) by apply HPA. unfold dealt_products in Hdeal. destruct Hdeal as [|d shs ds dl (sa & sb & r & buf & _ & _ & _ & _ & Hr & Hb & E) _]; [cbn in Henough; lia|].
  destruct (mul_start_ok _ _ _ _ _ _ _ Hn Hr Hb E) as (Ht & _). pose proof (Zle_0_nat (length r)). destruct (mul_start_rejects sa sb n t r buf) as (Hbad & _).
  split; [lia|]. destruct (Z_lt_le_dec n t) as [Hlt|]; [|assumption]. rewrite Hbad in E by auto. apply (f_equal (fun o => match o with Ok x => fst x | _ => 0 end)) in E. cbn in E. lia.
Qed.

Lemma product_sharing buf : Z.of_nat (length buf) = n ->
  let K := (secA * secB) mod L in
  exists a shares, sharing_params K n t a buf /\ create_shares K n t a buf = Ok shares /\
    forall j recv, collected n dealt j recv -> nth_error shares (Z.to_nat (j - 1)) = Some (mpc_mul_finish dealers j recv junk).
Proof.
  intros Hb K. pose proof deal_t as Ht.
  destruct (mult_poly secA secB nA tA n t rA rB bufA bufB ashares bshares dealers dealt junk HPA HPB HCA HCB Hnd Henough Hn Hdeal) as (cs & Lc & E0 & Hj).
  assert (SP : sharing_params K n t (tl cs) buf).
  { split; [apply Z.mod_pos_bound, L_pos|]. split; [exact Hn|]. split; [lia|]. split; [|exact Hb]. destruct cs; cbn [length tl] in *; lia. }
  destruct (create_shares_full _ _ _ _ _ SP) as (shares & E & Ls & Hi & _). exists (tl cs), shares. split; [exact SP|]. split; [exact E|].
  intros j recv (Hr & HF). rewrite Hi by exact Hr. rewrite (Hj j recv Hr HF). do 2 f_equal.
  unfold K. rewrite <- E0. destruct cs as [|c cs]; [cbn in Lc; lia|]. rewrite poly_cons_0. cbn [poly tl]. rewrite Z.add_mod_idemp_l by (pose proof L_pos; lia). reflexivity.
Qed.

Lemma product_serves R H parties : ristretto_ok R -> hashes_ok H ->
  Forall (fun p => collected n dealt (fst p) (snd p)) parties -> NoDup (map fst parties) -> t <= Z.of_nat (length parties) ->
  let K := (secA * secB) mod L in K <> 0 -> serves R H n t K (map (fun p => mpc_mul_finish dealers (fst p) (snd p) junk) parties).
Proof.
  intros HR HH HF HN Hl K HK. destruct (product_sharing (repeat (mkShare 0 0) (Z.to_nat n))) as (a & shares & SP & E & Hi); [rewrite repeat_length; lia|].
  eapply created_serves; [exact HR|exact HH|exact SP|exact E| |exact HK]. split; [|split].
  - apply (NoDup_map_inv s_index). rewrite map_map. rewrite (map_ext _ fst); [exact HN|]. intros p. reflexivity.
  - intros s Hs. apply in_map_iff in Hs. destruct Hs as (p & <- & Hp). eapply nth_error_In. apply Hi. exact (proj1 (Forall_forall _ _) HF p Hp).
  - rewrite map_length. exact Hl.
Qed.
End PRODUCT.

Lemma products_incl a b a' b' n t ds dl : incl a a' -> incl b b' -> dealt_products a b n t ds dl -> dealt_products a' b' n t ds dl.
Proof. intros Ha Hb HF. induction HF as [|d shs ds dl (sa & sb & r & buf & H1 & H2 & H3) _ IH]; constructor; [|exact IH]. exists sa, sb, r, buf. split; [apply Ha, H1|]. split; [apply Hb, H2|exact H3]. Qed.

Section GENERATED.
Context (C : crypto) (HC : crypto_ok C).

(** two keys from two honest ceremonies *)
Lemma honest_product x1 w1 r1 s1 x2 w2 r2 s2 n t dealers dealt junk buf : RunSpec.honest C x1 w1 -> RunSpec.honest C x2 w2 ->
  h_n C x2 = h_n C x1 -> h_t C x2 = h_t C x1 ->
  begin C x1 = Ok (Some r1) -> rounds C w1 10 r1 = Ok (Some s1) -> begin C x2 = Ok (Some r2) -> rounds C w2 10 r2 = Ok (Some s2) ->
  NoDup dealers -> 2 * h_t C x1 - 1 <= Z.of_nat (length dealers) -> 1 <= n <= 254 -> Z.of_nat (length buf) = n ->
  dealt_products (map (p_share C) (r_peers C s1)) (map (p_share C) (r_peers C s2)) n t dealers dealt ->
  let key x w := zsum (map (fun i => hd 0 (pe_a (s_peer w i 3))) (zrange 0 (Z.to_nat (h_n C x)))) in
  let K := (key x1 w1 * key x2 w2) mod L in
  exists a shares, sharing_params K n t a buf /\ create_shares K n t a buf = Ok shares /\
    forall j recv, collected n dealt j recv -> nth_error shares (Z.to_nat (j - 1)) = Some (mpc_mul_finish dealers j recv junk).
Proof.
  intros H1 H2 En Et B1 R1 B2 R2 Hnd He Hn Hb HD key K. pose proof (hp_n C x1 w1 H1) as N1.
  set (b0 := repeat (mkShare 0 0) (Z.to_nat (h_n C x1))). assert (Lb : Z.of_nat (length b0) = h_n C x1) by (unfold b0; rewrite repeat_length; lia).
  destruct (honest_created C HC x1 w1 H1 b0 Lb) as (r1' & s1' & a1 & B1' & R1' & SP1 & E1). assert (r1' = r1) by congruence. subst r1'. assert (s1' = s1) by congruence. subst s1'.
  destruct (honest_created C HC x2 w2 H2 b0 ltac:(congruence)) as (r2' & s2' & a2 & B2' & R2' & SP2 & E2). assert (r2' = r2) by congruence. subst r2'. assert (s2' = s2) by congruence. subst s2'.
  fold (key x1 w1) in SP1, E1. fold (key x2 w2) in SP2, E2. rewrite En, Et in SP2, E2.
  assert (EK : K = (key x1 w1 mod L * (key x2 w2 mod L)) mod L) by (unfold K; rewrite <- Z.mul_mod by (pose proof L_pos; lia); reflexivity). rewrite EK.
  exact (product_sharing _ _ _ _ _ _ _ _ _ _ _ _ _ _ junk SP1 SP2 E1 E2 Hnd He Hn HD buf Hb).
Qed.

(** the same for the honest peers of two sessions in which others did what they liked *)
Lemma generated_product c1 calls1 outs1 ps1 A1 c2 calls2 outs2 ps2 A2 n t dealers dealt junk buf :
  done_well C c1 calls1 outs1 -> sound_commitments C (published c1 outs1) -> Forall (GoodSpec.honest C c1 calls1 outs1) ps1 -> Forall (fun x => plain_shares (received_by x)) ps1 ->
  GoodSpec.dealers C c1 (published c1 outs1) A1 ->
  done_well C c2 calls2 outs2 -> sound_commitments C (published c2 outs2) -> Forall (GoodSpec.honest C c2 calls2 outs2) ps2 -> Forall (fun x => plain_shares (received_by x)) ps2 ->
  GoodSpec.dealers C c2 (published c2 outs2) A2 ->
  t_n c2 = t_n c1 -> t_t c2 = t_t c1 ->
  NoDup dealers -> 2 * t_t c1 - 1 <= Z.of_nat (length dealers) -> 1 <= n <= 254 -> Z.of_nat (length buf) = n ->
  dealt_products (map share_of_party ps1) (map share_of_party ps2) n t dealers dealt ->
  let K := (zsum (map (hd 0) A1) * zsum (map (hd 0) A2)) mod L in
  exists a shares, sharing_params K n t a buf /\ create_shares K n t a buf = Ok shares /\
    forall j recv, collected n dealt j recv -> nth_error shares (Z.to_nat (j - 1)) = Some (mpc_mul_finish dealers j recv junk).
Proof.
  intros D1 U1 F1 P1 G1 D2 U2 F2 P2 G2 En Et Hnd He Hn Hb HD K. pose proof (w_n c1 (dw_wf _ _ _ _ D1)) as N1.
  set (b0 := repeat (mkShare 0 0) (Z.to_nat (t_n c1))). assert (Lb : Z.of_nat (length b0) = t_n c1) by (unfold b0; rewrite repeat_length; lia).
  destruct (generated C HC c1 calls1 outs1 ps1 A1 b0 D1 U1 F1 P1 G1 Lb) as (a1 & sh1 & SP1 & E1 & I1).
  destruct (generated C HC c2 calls2 outs2 ps2 A2 b0 D2 U2 F2 P2 G2 ltac:(congruence)) as (a2 & sh2 & SP2 & E2 & I2).
  rewrite En, Et in SP2, E2.
  assert (HD' : dealt_products sh1 sh2 n t dealers dealt).
  { eapply products_incl; [| |exact HD]; intros s Hs; apply in_map_iff in Hs; destruct Hs as (x & <- & Hx); eapply nth_error_In; [exact (proj1 (Forall_forall _ _) I1 x Hx)|exact (proj1 (Forall_forall _ _) I2 x Hx)]. }
  assert (EK : K = (zsum (map (hd 0) A1) mod L * (zsum (map (hd 0) A2) mod L)) mod L) by (unfold K; rewrite <- Z.mul_mod by (pose proof L_pos; lia); reflexivity). rewrite EK.
  exact (product_sharing _ _ _ _ _ _ _ _ _ _ _ _ _ _ junk SP1 SP2 E1 E2 Hnd He Hn HD' buf Hb).
Qed.
End GENERATED.

(** for the examples: the multiplication always goes through *)
Lemma can_multiply ashares bshares n t dealers : 1 <= t <= n -> n <= 254 ->
  Forall (fun d => (exists sa, In sa ashares /\ s_index sa = d) /\ (exists sb, In sb bshares /\ s_index sb = d)) dealers ->
  exists dealt, dealt_products ashares bshares n t dealers dealt /\ Forall (fun shs => Z.of_nat (length shs) = n) dealt.
Proof.
  intros Ht Hn HF. induction HF as [|d ds ((sa & A1 & A2) & sb & B1 & B2) _ (dl & IH & IH')]; [exists []; split; constructor|].
  set (r := repeat 1 (Z.to_nat (t - 1))). set (buf := repeat (mkShare 0 0) (Z.to_nat n)).
  assert (Lr : Z.of_nat (length r) = t - 1) by (unfold r; rewrite repeat_length; lia). assert (Lb : Z.of_nat (length buf) = n) by (unfold buf; rewrite repeat_length; lia).
  exists (shares_of (scalar_mul (s_value sa) (s_value sb) :: r) n :: dl). split; constructor; try assumption.
  - exists sa, sb, r, buf. repeat (split; [assumption|]). apply mul_start_rejects; [|lia|exact Hn|exact Lr|exact Lb]. intros [Hne|[?|?]]; [congruence|lia|lia].
  - unfold shares_of. rewrite !map_length, seq_length. lia.
Qed.

Lemma can_collect n dealt j : 1 <= j <= n -> Forall (fun shs => Z.of_nat (length shs) = n) dealt -> exists recv, collected n dealt j recv.
Proof.
  intros Hj HF. enough (exists recv, Forall2 (fun shs s => nth_error shs (Z.to_nat (j - 1)) = Some s) dealt recv) as (recv & H2) by (exists recv; split; assumption).
  induction HF as [|shs dl Hl _ (recv & IH)]; [exists []; constructor|]. destruct (nth_error shs (Z.to_nat (j - 1))) as [s|] eqn:E; [|apply nth_error_None in E; lia].
  exists (s :: recv). constructor; assumption.
Qed.
