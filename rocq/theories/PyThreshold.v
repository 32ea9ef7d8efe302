(** Proofs about the Python bindings: the threshold OPRF, key updates and the plain DKG end to end
    (C57, C61-C63), and memory safety of the wrappers (C56). *)
From Coq Require Import ZArith Lia List Bool Permutation.
From Coq.Strings Require Import Byte.
From Verif Require Import PrimeL Fq Bytes Res Mem Sodium OprfModel OprfSpec OprfProofs ToprfModel ToprfSpec ToprfProofs DkgModel DkgSpec DkgProofs
  WireModel WireSpec TpCrypto TpModel PyModel PySpec PyProofs.
Import ListNotations.
Open Scope list_scope.
Open Scope Z_scope.

Section THRESHOLD.
Variable R : ristretto.
Hypothesis HR : ristretto_ok R.

Lemma py_evaluate_inv k alpha b : py_evaluate R k alpha = Ret b ->
  zlen k = 32 /\ zlen alpha = 32 /\ oprf_Evaluate R (of_le k) alpha = (0, Some b) /\ length b = 32%nat /\
  exists P, rdec R alpha = Some P /\ b = renc R (rsmul R (of_le k mod 2 ^ 255) P).
Proof.
  unfold py_evaluate. destruct (Z.eqb_spec (zlen k) 32) as [e1|e1]; cbn [negb]; [|discriminate].
  destruct (Z.eqb_spec (zlen alpha) 32) as [e2|e2]; cbn [negb]; [|discriminate].
  unfold oprf_Evaluate, scalarmult. destruct (rdec R alpha) as [P|] eqn:ED; [|discriminate].
  destruct (bytes_eqb _ _); [discriminate|]. cbn [check pbind filled Z.eqb].
  intros E. injection E as <-. repeat split; try assumption; try (apply (ok_enc_len _ HR)). eauto.
Qed.

Lemma part_of_cons i v : part_of (i :: v) = mkPart (bz i) v.
Proof. reflexivity. Qed.

Lemma all_33_Forall l : Forall (fun r => length r = 33%nat) l -> all_33 l = true.
Proof.
  intros HF. apply forallb_forall. intros r Hr. rewrite Forall_forall in HF. specialize (HF r Hr). apply Z.eqb_eq. unfold zlen. lia.
Qed.

Section SHARED.
Variables (al : Z -> bool) (reg : Z) (a : list Z) (secret : bytes) (n t : Z) (l : list bytes).
Hypothesis Hcre : py_create_shares al reg a secret n t = Ret l.
Hypothesis Hcan : of_le secret < L.
Hypothesis Hn : n <= 254.
Hypothesis Ha : zlen a = t - 1.

Lemma quorum_lift qs : NoDup qs -> incl qs l -> t <= zlen qs ->
  exists ss, qs = map share_bytes ss /\ quorum t (shares_of (of_le secret :: a) n) ss /\ Forall plain ss /\ 2 <= t <= n /\
    sharing_params (of_le secret) n t a (repeat (mkShare 0 0) (Z.to_nat n)) /\
    create_shares (of_le secret) n t a (repeat (mkShare 0 0) (Z.to_nat n)) = Ok (shares_of (of_le secret :: a) n).
Proof.
  intros Hnd Hin Hq. destruct (py_create_inv _ _ _ _ _ _ _ Hcre Hcan Hn Ha) as (H32 & Ht & E & HP & HC). subst l.
  destruct (lift_quorum (of_le secret :: a) n t qs) as (ss & E & HQ & HF); try assumption; [lia|].
  exists ss. repeat split; try assumption; try lia; try (apply HP); apply HQ.
Qed.

Lemma secret_small : of_le secret mod 2 ^ 255 = of_le secret.
Proof. pose proof (of_le_range secret). pose proof L_lt_2_255. apply Z.mod_small. lia. Qed.

Lemma py_tmult qs parts alpha b junk : NoDup qs -> incl qs l -> t <= zlen qs ->
  Forall2 (fun s p => exists v, py_evaluate R (skipn 1 s) alpha = Ret v /\ p = firstn 1 s ++ v) qs parts ->
  length junk = length parts -> py_evaluate R secret alpha = Ret b -> py_thresholdmult R junk parts = Ret b.
Proof.
  intros Hnd Hin Hq HF Hj Hb. destruct (quorum_lift qs Hnd Hin Hq) as (ss & -> & HQ & Hpl & Ht & HP & HC).
  destruct (py_evaluate_inv _ _ _ Hb) as (Hs32 & Ha32 & _ & _ & P & HD & ->). rewrite secret_small.
  assert (H33 : Forall (fun r => length r = 33%nat) parts).
  { clear - HF HR. remember (map share_bytes ss) as qs eqn:E. revert ss E. induction HF as [|s p qs parts (v & Hv & ->) HF IH]; intros ss E; constructor.
    - destruct ss as [|s0 ss]; [discriminate|]. injection E as -> E. apply py_evaluate_inv in Hv. destruct Hv as (_ & _ & _ & Hl & _).
      unfold share_bytes. cbn [firstn app length]. rewrite Hl. reflexivity.
    - destruct ss as [|s0 ss]; [discriminate|]. injection E as -> E. apply (IH ss E). }
  unfold py_thresholdmult. rewrite all_33_Forall by assumption. cbn [negb].
  rewrite (thresholdmult_quorum R HR _ _ _ _ _ _ ss (map part_of parts) alpha P junk HP HC HQ HD).
  - reflexivity.
  - clear - HF HR Hpl. remember (map share_bytes ss) as qs eqn:E. revert ss E Hpl. induction HF as [|s p qs parts (v & Hv & ->) HF IH]; intros ss E Hpl.
    + destruct ss; [constructor|discriminate].
    + destruct ss as [|s0 ss]; [discriminate|]. injection E as -> E. inversion Hpl as [|? ? (Hi & Hva) Hpl']; subst.
      cbn [map]. constructor; [|apply IH; [reflexivity|assumption]].
      unfold share_bytes in *. cbn [firstn skipn app] in *. rewrite part_of_cons. cbn [ToprfModel.p_index p_value].
      apply py_evaluate_inv in Hv. destruct Hv as (_ & _ & Hv & _). rewrite of_le_le_bytes in Hv.
      rewrite (Z.mod_small (s_value s0)) in Hv by exact Hva. split; [|exact Hv]. rewrite bz_zb. apply Z.mod_small. exact Hi.
  - rewrite map_length. exact Hj.
Qed.

Lemma py_tcombine qs parts alpha b : NoDup qs -> incl qs l -> t <= zlen qs ->
  Forall2 (fun s p => exists idx, Permutation idx (map (fun q => bz (hd x00 q)) qs) /\
             py_threshold_evaluate R s alpha (bz (hd x00 s)) idx = Ret p) qs parts ->
  py_evaluate R secret alpha = Ret b -> py_threshold_combine R parts = Ret b.
Proof.
  intros Hnd Hin Hq HF Hb. destruct (quorum_lift qs Hnd Hin Hq) as (ss & -> & HQ & Hpl & Ht & HP & HC).
  destruct (py_evaluate_inv _ _ _ Hb) as (Hs32 & Ha32 & _ & _ & P & HD & ->). rewrite secret_small.
  assert (Eidx : map (fun q => bz (hd x00 q)) (map share_bytes ss) = map s_index ss).
  { rewrite map_map. apply map_ext_in. intros s Hs. unfold share_bytes. cbn [hd]. rewrite bz_zb. apply Z.mod_small.
    rewrite Forall_forall in Hpl. apply Hpl. exact Hs. }
  rewrite Eidx in HF. clear Eidx.
  destruct (quorum_facts _ _ _ _ (conj (Z.le_trans 1 2 n ltac:(lia) (Z.le_trans _ _ _ (proj1 Ht) (proj2 Ht))) Hn) HQ) as (_ & _ & _ & Hlen & _).
  assert (Hev : forall s idx p, plain s -> Permutation idx (map s_index ss) -> py_threshold_evaluate R (share_bytes s) alpha (bz (hd x00 (share_bytes s))) idx = Ret p ->
    length p = 33%nat /\ toprf_Evaluate R s alpha (s_index s) idx = (0, Some (p_value (part_of p)))).
  { intros s idx p (Hi & Hv) Hperm. unfold py_threshold_evaluate.
    destruct (negb (zlen (share_bytes s) =? 33)); [discriminate|]. destruct (negb (zlen alpha =? 32)); [discriminate|].
    destruct ((_ || _)%bool); [discriminate|]. destruct (negb _); [discriminate|].
    rewrite share_rt by assumption. replace (bz (hd x00 (share_bytes s))) with (s_index s).
    2:{ unfold share_bytes. cbn [hd]. rewrite bz_zb. symmetry. apply Z.mod_small. exact Hi. }
    assert (Hli : zlen idx = Z.of_nat (length ss)) by (unfold zlen; rewrite (Permutation_length Hperm), map_length; reflexivity).
    rewrite firstn_all2 by (rewrite Z.mod_small by (change (2 ^ 16) with 65536; lia); unfold zlen; lia).
    unfold toprf_Evaluate, oprf_Evaluate, scalarmult. rewrite HD. destruct (bytes_eqb _ _); [discriminate|].
    cbn [check pbind filled Z.eqb]. intros E. injection E as <-. split; [|reflexivity]. cbn [length]. rewrite (ok_enc_len _ HR). reflexivity. }
  assert (G : Forall (fun r => length r = 33%nat) parts /\
    Forall2 (fun s p => exists idx, Permutation idx (map s_index ss) /\ toprf_Evaluate R s alpha (s_index s) idx = (0, Some (p_value p))) ss (map part_of parts)).
  { revert HF Hev. generalize (map s_index ss) as ixs. clear - Hpl. intros ixs HF Hev. remember (map share_bytes ss) as qs eqn:E. revert ss E Hpl.
    induction HF as [|s p qs parts (idx & Hperm & Hev') HF IH]; intros ss E Hpl.
    + destruct ss; [split; constructor|discriminate].
    + destruct ss as [|s0 ss]; [discriminate|]. injection E as -> E. inversion Hpl as [|? ? Hs0 Hpl']; subst.
      destruct (IH ss eq_refl Hpl') as (I1 & I2). destruct (Hev s0 idx p Hs0 Hperm Hev') as (J1 & J2).
      cbn [map]. split; constructor; try assumption. exists idx. split; assumption. }
  destruct G as (H33 & G). unfold py_threshold_combine. rewrite all_33_Forall by assumption. cbn [negb].
  rewrite (combine_quorum R HR _ _ _ _ _ _ ss (map part_of parts) alpha P (zeros 32) HP HC HQ HD G). reflexivity.
Qed.

(** the parts exist, for a decodable input that is not the identity and non-zero shares *)
Lemma py_parts_exist s alpha P idx : In s l -> zlen alpha = 32 -> rdec R alpha = Some P -> P <> rzero R -> of_le (skipn 1 s) <> 0 ->
  Forall (fun i => 1 <= i <= 255) idx ->
  (exists v, py_evaluate R (skipn 1 s) alpha = Ret v) /\ (exists p, py_threshold_evaluate R s alpha (bz (hd x00 s)) idx = Ret p).
Proof.
  intros Hs Ha32 HD HP0 Hs0 Hidx. destruct (py_create_inv _ _ _ _ _ _ _ Hcre Hcan Hn Ha) as (H32 & Ht & E & HP & HC). subst l.
  apply in_map_iff in Hs. destruct Hs as (s' & <- & Hs). pose proof (shares_of_In (of_le secret :: a) n s' ltac:(lia)) as HI. apply HI in Hs. destruct Hs as (Hi & Hv).
  assert (Hpl : plain s') by (split; [lia|]; rewrite Hv; pose proof (mod_L_range (poly (of_le secret :: a) (s_index s'))); pose proof L_lt_2_256; lia).
  assert (Eb : bz (hd x00 (share_bytes s')) = s_index s').
  { unfold share_bytes. cbn [hd]. rewrite bz_zb. apply Z.mod_small. lia. }
  assert (Ev : of_le (skipn 1 (share_bytes s')) = s_value s').
  { unfold share_bytes. cbn [skipn]. rewrite of_le_le_bytes. apply Z.mod_small. apply Hpl. }
  assert (Hvr : 0 < s_value s' < L).
  { rewrite Ev in Hs0. rewrite Hv in *. pose proof (mod_L_range (poly (of_le secret :: a) (s_index s'))). lia. }
  split.
  - destruct (evaluate_succeeds R HR (s_value s') alpha P HD HP0 Hvr) as (v & E). exists v.
    unfold py_evaluate. rewrite Ev, E, Ha32. unfold share_bytes. cbn [skipn]. unfold zlen. rewrite le_bytes_length. reflexivity.
  - rewrite Eb. unfold py_threshold_evaluate. rewrite share_rt by apply Hpl.
    assert (Hi2 : Forall index_ok (firstn (Z.to_nat (zlen idx mod 2 ^ 16)) idx)).
    { apply Forall_forall. intros i Hii. rewrite <- (firstn_skipn (Z.to_nat (zlen idx mod 2 ^ 16)) idx) in Hidx.
      apply Forall_app in Hidx. destruct Hidx as (Hidx & _). rewrite Forall_forall in Hidx. apply Hidx. exact Hii. }
    destruct (toprf_evaluate_succeeds R HR s' alpha P (s_index s') _ HD HP0 Hvr ltac:(unfold index_ok; lia) Hi2) as (v & E). exists (x00 :: v).
    rewrite E, Ha32. unfold zlen at 1. rewrite share_bytes_len. destruct (Z.ltb_spec 255 (s_index s')); [lia|]. destruct (Z.ltb_spec (s_index s') 1); [lia|].
    replace (forallb (fun i => (0 <? i) && (i <? 256)) idx) with true; [reflexivity|].
    symmetry. apply forallb_forall. intros i Hii. rewrite Forall_forall in Hidx. specialize (Hidx i Hii).
    destruct (Z.ltb_spec 0 i); [|lia]. destruct (Z.ltb_spec i 256); [|lia]. reflexivity.
Qed.

(** 3HashTDH: [zl] are shares of 0 *)
Lemma py_tdh H zal zreg z zl : hashes_ok H -> py_create_shares zal zreg z (zeros 32) n t = Ret zl -> zlen z = t - 1 ->
  forall qs parts alpha ssid b junk, NoDup qs -> incl qs l -> t <= zlen qs ->
  Forall2 (fun s p => exists zs, In zs zl /\ hd x00 zs = hd x00 s /\
             py_3hashtdh R H true s zs alpha ssid = Ret p /\ skipn 1 p <> zeros 32) qs parts ->
  length junk = length parts -> py_evaluate R secret alpha = Ret b -> py_thresholdmult R junk parts = Ret b.
Proof.
  intros HH Hz Hzl qs parts alpha ssid b junk Hnd Hin Hq HF Hj Hb.
  destruct (quorum_lift qs Hnd Hin Hq) as (ss & -> & HQ & Hpl & Ht & HP & HC).
  assert (Ez : of_le (zeros 32) = 0) by reflexivity.
  destruct (py_create_inv _ _ _ _ _ _ _ Hz ltac:(rewrite Ez; exact L_pos) Hn Hzl) as (_ & _ & Ezl & HPz & HCz). rewrite Ez in *.
  destruct (py_evaluate_inv _ _ _ Hb) as (Hs32 & Ha32 & _ & _ & P & HD & ->). rewrite secret_small.
  assert (Hzpl : Forall plain (shares_of (0 :: z) n)) by (apply shares_plain; lia).
  assert (Hev : forall s zs p, plain s -> In zs zl -> hd x00 zs = hd x00 (share_bytes s) -> py_3hashtdh R H true (share_bytes s) zs alpha ssid = Ret p -> skipn 1 p <> zeros 32 ->
    length p = 33%nat /\ exists zs', In zs' (shares_of (0 :: z) n) /\ s_index zs' = s_index s /\
       toprf_3hashtdh R H true s zs' alpha ssid = Ok (0, (ToprfModel.p_index (part_of p), Some (p_value (part_of p)))) /\ p_value (part_of p) <> zeros 32).
  { intros s zs p (Hi & Hv) Hzs Hhd Hp Hne. rewrite Ezl in Hzs. apply in_map_iff in Hzs. destruct Hzs as (zs' & <- & Hzs').
    rewrite Forall_forall in Hzpl. pose proof (Hzpl zs' Hzs') as (Hzi & Hzv).
    assert (Eii : s_index zs' = s_index s).
    { unfold share_bytes in Hhd. cbn [hd] in Hhd. apply (f_equal bz) in Hhd. rewrite !bz_zb in Hhd. rewrite !Z.mod_small in Hhd by assumption. exact Hhd. }
    revert Hp. unfold py_3hashtdh.
    destruct (negb (zlen (share_bytes s) =? 33)); [discriminate|]. destruct (negb (zlen (share_bytes zs') =? 33)); [discriminate|].
    destruct (negb (zlen alpha =? 32)); [discriminate|]. destruct (2 ^ 16 - 1 <? zlen ssid); [discriminate|].
    rewrite !share_rt by assumption. destruct (toprf_3hashtdh R H true s zs' alpha ssid) as [(ret & (i & v))|] eqn:ET; [|discriminate].
    cbn [of_res pbind]. unfold check. destruct (Z.eqb_spec ret 0) as [->|]; [|discriminate]. cbn [pbind]. intros E. injection E as <-.
    assert (G : i = s_index s /\ exists b, v = Some b /\ length b = 32%nat).
    { revert ET. unfold toprf_3hashtdh. destruct (oprf_Evaluate R (s_value s) alpha) as (r1 & b1) eqn:E1.
      destruct (negb (r1 =? 0)); [discriminate|]. destruct (voprf_hash_to_group _ _ _ _) as [(r2 & pt)|]; [|discriminate]. cbn [bind].
      destruct pt as [pt|]; [|discriminate]. destruct (negb (r2 =? 0)); [discriminate|]. destruct (oprf_Evaluate R (s_value zs') pt) as (r3 & h2) eqn:E3.
      destruct (negb (r3 =? 0)); [discriminate|]. destruct b1 as [b1|]; [|discriminate]. destruct h2 as [h2|]; [|discriminate].
      intros E. injection E as <- <-. split; [reflexivity|]. eexists. split; [reflexivity|].
      revert E1. unfold oprf_Evaluate, scalarmult. destruct (rdec R alpha); [|discriminate]. intros E1. inversion E1; subst.
      unfold core_add. rewrite (ok_dec_enc _ HR). destruct (rdec R h2); apply (ok_enc_len _ HR). }
    destruct G as (-> & b0 & -> & Hb0). cbn [filled]. split; [cbn [length]; rewrite Hb0; reflexivity|].
    rewrite part_of_cons. cbn [ToprfModel.p_index p_value]. rewrite bz_zb, Z.mod_small by exact Hi.
    exists zs'. repeat split; try assumption. }
  assert (G : Forall (fun r => length r = 33%nat) parts /\
    Forall2 (fun ks p => exists zs, In zs (shares_of (0 :: z) n) /\ s_index zs = s_index ks /\
             toprf_3hashtdh R H true ks zs alpha ssid = Ok (0, (ToprfModel.p_index p, Some (p_value p))) /\ p_value p <> zeros 32) ss (map part_of parts)).
  { clear - HF Hev Hpl. remember (map share_bytes ss) as qs eqn:E. revert ss E Hpl.
    induction HF as [|s p qs parts (zs & Hzs & Hhd & Hp & Hne) HF IH]; intros ss E Hpl.
    + destruct ss; [split; constructor|discriminate].
    + destruct ss as [|s0 ss]; [discriminate|]. injection E as -> E. inversion Hpl as [|? ? Hs0 Hpl']; subst.
      destruct (IH ss eq_refl Hpl') as (I1 & I2). destruct (Hev s0 zs p Hs0 Hzs Hhd Hp Hne) as (J1 & J2).
      cbn [map]. split; constructor; assumption. }
  destruct G as (H33 & G). unfold py_thresholdmult. rewrite all_33_Forall by assumption. cbn [negb].
  rewrite (tdh_quorum R H HR HH _ _ _ _ _ _ _ _ _ ss (map part_of parts) alpha P ssid junk HP HC HPz HCz HQ HD G); [reflexivity|].
  rewrite map_length. exact Hj.
Qed.
End SHARED.

(** ** C62: updating the key *)
Lemma py_key_update H : hashes_ok H -> forall x k delta r r2, zlen x <= 255 -> HashToGroup R H x <> rzero R ->
  random_scalar k -> random_scalar delta -> random_scalar r -> random_scalar r2 ->
  let k2 := le_bytes 32 (scalar_mul k delta) in
  exists key rb blinded beta N rb2 blinded2 beta2 N2,
    py_keygen k = Ret key /\
    (py_blind R H true true r x = Ret (rb, blinded) /\ py_evaluate R key blinded = Ret beta /\ py_unblind R true rb beta = Ret N) /\
    (py_blind R H true true r2 x = Ret (rb2, blinded2) /\ py_evaluate R k2 blinded2 = Ret beta2 /\ py_unblind R true rb2 beta2 = Ret N2) /\
    scalarmult R delta N = (0, Some N2).
Proof.
  intros HH x k delta r r2 Hx Hh Hk Hd Hr Hr2. cbv zeta.
  pose proof L_lt_2_255 as HL. pose proof L_pos as HL0.
  assert (Hkd : 0 < scalar_mul k delta < L).
  { unfold scalar_mul. pose proof (mod_L_range (k * delta)).
    assert (of_Z k <> 0%fq) by (apply random_scalar_neq_0; assumption). assert (of_Z delta <> 0%fq) by (apply random_scalar_neq_0; assumption).
    assert ((k * delta) mod L <> 0); [|lia]. intros E. apply (f_equal of_Z) in E. rewrite of_Z_mod, of_Z_mul in E.
    change (of_Z 0) with 0%fq in E. apply fmul_integral in E. tauto. }
  assert (El : forall v, 0 < v < L -> of_le (le_bytes 32 v) mod 2 ^ 255 = v /\ v mod L = v).
  { intros v Hv. rewrite (le_of v Hv). split; apply Z.mod_small; lia. }
  destruct (El k Hk) as (Ek & Ek'). destruct (El _ Hkd) as (Ekd & Ekd').
  destruct (py_round_trip R H HR HH x (le_bytes 32 k) r) as (rb & bl & be & N & B1 & B2 & B3 & B4 & _); try assumption;
    [apply zlen_32, le_bytes_length|rewrite Ek, Ek'; unfold random_scalar in Hk; lia|].
  destruct (py_round_trip R H HR HH x (le_bytes 32 (scalar_mul k delta)) r2) as (rb2 & bl2 & be2 & N2 & D1 & D2 & D3 & D4 & _); try assumption;
    [apply zlen_32, le_bytes_length|rewrite Ekd, Ekd'; lia|].
  exists (le_bytes 32 k), rb, bl, be, N, rb2, bl2, be2, N2. split; [reflexivity|]. split; [tauto|]. split; [tauto|].
  rewrite Ek in B4. rewrite Ekd in D4. subst N N2.
  unfold scalarmult. rewrite (ok_dec_enc _ HR).
  assert (Ed : delta mod 2 ^ 255 = delta) by (unfold random_scalar in Hd; apply Z.mod_small; lia). rewrite Ed.
  assert (EE : rsmul R delta (rsmul R k (HashToGroup R H x)) = rsmul R (scalar_mul k delta) (HashToGroup R H x)).
  { unfold random_scalar in *. rewrite !(gmul_of_Z R HR) by lia. rewrite <- (gmul_mul R HR). f_equal. unfold scalar_mul. rewrite of_Z_mod, of_Z_mul. ring. }
  rewrite EE. destruct (bytes_eqb _ (zeros 32)) eqn:EB; [|reflexivity]. exfalso.
  apply (renc_zero_iff R HR) in EB. rewrite (gmul_of_Z R HR) in EB by lia. apply (gmul_eq_0 R HR) in EB.
  destruct EB as [EB|EB]; [|contradiction]. revert EB. apply random_scalar_neq_0. exact Hkd.
Qed.
(** an input of any length: blind takes its length modulo 256 *)
Lemma py_key_update_any H : hashes_ok H -> forall x k delta r r2, HashToGroup R H (firstn (Z.to_nat (zlen x mod 256)) x) <> rzero R ->
  random_scalar k -> random_scalar delta -> random_scalar r -> random_scalar r2 ->
  let k2 := le_bytes 32 (scalar_mul k delta) in
  exists key rb blinded beta N rb2 blinded2 beta2 N2,
    py_keygen k = Ret key /\
    (py_blind R H true true r x = Ret (rb, blinded) /\ py_evaluate R key blinded = Ret beta /\ py_unblind R true rb beta = Ret N) /\
    (py_blind R H true true r2 x = Ret (rb2, blinded2) /\ py_evaluate R k2 blinded2 = Ret beta2 /\ py_unblind R true rb2 beta2 = Ret N2) /\
    scalarmult R delta N = (0, Some N2).
Proof.
  intros HH x k delta r r2 Hh Hk Hd Hr Hr2. rewrite (py_blind_prefix R H true true r x), (py_blind_prefix R H true true r2 x).
  apply py_key_update; try assumption. pose proof (Z.mod_pos_bound (zlen x) 256 ltac:(lia)). unfold zlen at 1. rewrite firstn_length. lia.
Qed.
End THRESHOLD.
