(** Proofs about the Python bindings: single functions (C54-C57, C61, C62). *)
From Coq Require Import ZArith Lia List Bool Permutation.
From Coq.Strings Require Import Byte.
From Verif Require Import PrimeL Fq Bytes Res Mem Sodium OprfModel OprfSpec OprfProofs ToprfModel ToprfSpec ToprfProofs DkgModel DkgSpec DkgProofs
  WireModel WireSpec TpCrypto TpModel PeerModel CheaterModel PyModel PySpec.
Import ListNotations.
Open Scope list_scope.
Open Scope Z_scope.

(** ** outcomes *)
Lemma pbind_ret {A B} (x : py A) (f : A -> py B) b : pbind x f = Ret b -> exists a, x = Ret a /\ f a = Ret b.
Proof. destruct x; cbn; intros H; try discriminate. eauto. Qed.
Lemma check_ret code u : check code = Ret u -> code = 0.
Proof. unfold check. destruct (Z.eqb_spec code 0); [auto|discriminate]. Qed.
Lemma of_res_ret {A} (x : res A) a : of_res x = Ret a -> x = Ok a.
Proof. destruct x; cbn; intros H; inversion H; reflexivity. Qed.
Lemma alloc_ret al size u : alloc al size = Ret u -> 0 <= size /\ al size = true.
Proof.
  unfold alloc. destruct (Z.ltb_spec size 0); cbn; [discriminate|]. destruct (al size); cbn; [|discriminate]. split; auto.
Qed.
Lemma c_u8_small x : 0 <= x < 256 -> c_u8 x = Ret x.
Proof.
  intros Hx. unfold c_u8, c_int. destruct (Z.leb_spec (- 2 ^ 63) x); [|lia]. destruct (Z.ltb_spec x (2 ^ 64)); [|lia]. cbn [andb pbind].
  rewrite (Z.mod_small x (2 ^ 32)) by lia. rewrite Z.mod_small by lia. reflexivity.
Qed.
Lemma c_u8_ret x v : c_u8 x = Ret v -> v = x mod 256 /\ - 2 ^ 63 <= x < 2 ^ 64.
Proof.
  unfold c_u8, c_int. destruct (Z.leb_spec (- 2 ^ 63) x); cbn; [|discriminate]. destruct (Z.ltb_spec x (2 ^ 64)); cbn; [|discriminate].
  intros H1. inversion H1. split; [|lia]. change (2 ^ 32) with (2 ^ 8 * 2 ^ 24). change 256 with (2 ^ 8).
  symmetry. apply Znumtheory.Zmod_div_mod; [reflexivity|reflexivity|]. exists (2 ^ 24). reflexivity.
Qed.

(** ** byte strings *)
Lemma zlen_32 (b : bytes) : zlen b = 32 <-> length b = 32%nat.
Proof. unfold zlen. lia. Qed.
Lemma chunks_concat (sz : nat) (l : list bytes) rest : Forall (fun b => length b = sz) l ->
  map (fun i => firstn sz (skipn (sz * i) (concat l ++ rest))) (seq 0 (length l)) = l.
Proof.
  intros HF. induction HF as [|b l Hb HF IH]; [reflexivity|]. cbn [length seq map concat].
  f_equal.
  - rewrite Nat.mul_0_r. cbn [skipn]. rewrite <- !app_assoc, firstn_app, Hb, Nat.sub_diag, firstn_O, app_nil_r. rewrite <- Hb. apply firstn_all.
  - rewrite <- seq_shift, map_map. etransitivity; [|exact IH]. apply map_ext. intros i. f_equal.
    rewrite <- app_assoc, skipn_app, Hb.
    rewrite skipn_all2 by (rewrite Hb; nia). cbn [app]. f_equal. lia.
Qed.
Lemma share_bytes_len s : length (share_bytes s) = 33%nat.
Proof. unfold share_bytes. cbn [length]. rewrite le_bytes_length. reflexivity. Qed.
Lemma share_rt s : 0 <= s_index s < 256 -> 0 <= s_value s < 2 ^ 256 -> share_of (share_bytes s) = s.
Proof.
  destruct s as [i v]. cbn [s_index s_value]. intros Hi Hv. unfold share_of, share_bytes. cbn [s_index s_value]. f_equal.
  - rewrite bz_zb. apply Z.mod_small. exact Hi.
  - rewrite of_le_le_bytes. apply Z.mod_small. exact Hv.
Qed.
Lemma share_rt_bytes b : length b = 33%nat -> share_bytes (share_of b) = b.
Proof.
  destruct b as [|i v]; cbn [length]; [discriminate|]. intros Hl. unfold share_bytes, share_of. cbn [s_index s_value].
  rewrite zb_bz. f_equal. injection Hl as Hl. rewrite <- Hl at 1. apply le_bytes_of_le.
Qed.
Lemma L_lt_2_256 : L < 2 ^ 256.
Proof. pose proof L_lt_2_255. assert (2 ^ 255 < 2 ^ 256) by reflexivity. lia. Qed.
Lemma shares_in_concat l rest : Forall plain l -> shares_in (zlen l) (concat (map share_bytes l) ++ rest) = l.
Proof.
  intros HF. unfold shares_in, zlen. rewrite Nat2Z.id.
  rewrite <- (map_map (fun i => firstn 33 (skipn (33 * i) (concat (map share_bytes l) ++ rest))) share_of).
  rewrite <- (map_length share_bytes l) at 1. rewrite chunks_concat.
  - rewrite map_map. induction HF as [|s l [Hi Hv] HF IH]; cbn [map]; [reflexivity|]. rewrite share_rt by assumption. f_equal. exact IH.
  - apply Forall_map, Forall_forall. intros s _. apply share_bytes_len.
Qed.
Lemma rows_concat (t : Z) (row : list bytes) rest : zlen row = t -> Forall (fun b => length b = 32%nat) row -> rows t (concat row ++ rest) = row.
Proof. intros Hl HF. unfold rows. rewrite <- Hl. unfold zlen. rewrite Nat2Z.id. apply chunks_concat. exact HF. Qed.
Lemma length_concat_const {A} (k : nat) (l : list (list A)) : Forall (fun b => length b = k) l -> length (concat l) = (k * length l)%nat.
Proof. induction 1 as [|b l Hb HF IH]; cbn [concat length]; [lia|]. rewrite app_length, IH. nia. Qed.
Lemma rows_in_concat (t : Z) (coms : list (list bytes)) rest :
  Forall (fun row => zlen row = t /\ Forall (fun b => length b = 32%nat) row) coms ->
  rows_in (zlen coms) t (concat (map (@concat byte) coms) ++ rest) = coms.
Proof.
  intros HF. unfold rows_in, zlen. rewrite Nat2Z.id.
  induction HF as [|row coms (Hl & Hrow) HF IH]; [reflexivity|]. cbn [length seq map concat]. f_equal.
  - rewrite Nat.mul_0_r. cbn [skipn]. rewrite <- app_assoc. apply rows_concat; assumption.
  - rewrite <- seq_shift, map_map. etransitivity; [|exact IH]. apply map_ext. intros i. f_equal.
    rewrite <- app_assoc, skipn_app. rewrite (length_concat_const 32) by assumption. unfold zlen in Hl.
    rewrite skipn_all2 by (rewrite (length_concat_const 32) by assumption; nia). cbn [app]. f_equal. nia.
Qed.

(** ** C55: the basic OPRF *)
Lemma le_of r : random_scalar r -> of_le (le_bytes 32 r) = r.
Proof. intros [H1 H2]. rewrite of_le_le_bytes. apply Z.mod_small. pose proof L_lt_2_256. change (256 ^ Z.of_nat 32) with (2 ^ 256). lia. Qed.

Lemma py_round_trip R H : ristretto_ok R -> hashes_ok H -> forall x k r,
  zlen x <= 255 -> HashToGroup R H x <> rzero R -> zlen k = 32 -> (of_le k mod 2 ^ 255) mod L <> 0 -> random_scalar r ->
  exists rb blinded beta N,
    py_blind R H true true r x = Ret (rb, blinded) /\ py_evaluate R k blinded = Ret beta /\ py_unblind R true rb beta = Ret N /\
    N = renc R (rsmul R (of_le k mod 2 ^ 255) (HashToGroup R H x)) /\
    py_finalize H true x N = Ret (sha512 H (rfc_hashInput x N)) /\
    py_unblind_finalize R H true true rb beta x = Ret (sha512 H (rfc_hashInput x N)).
Proof.
  intros HR HH x k r Hx Hh Hk Hk0 Hr.
  assert (Hkb : scalar_buf (of_le k)).
  { unfold scalar_buf. pose proof (of_le_range k) as Hrg. apply zlen_32 in Hk. rewrite Hk in Hrg. exact Hrg. }
  destruct (oprf_roundtrip R H HR HH x (of_le k) r) as (bl & Zb & N & E1 & E2 & E3 & E4 & E5); try assumption; [unfold zlen in Hx; lia|].
  assert (Hbl : zlen bl = 32).
  { revert E2. unfold oprf_Evaluate, scalarmult. destruct (rdec R bl) as [P|] eqn:ED; [|discriminate]. intros _.
    apply (ok_enc_dec _ HR) in ED. rewrite <- ED. apply zlen_32. apply (ok_enc_len _ HR). }
  assert (HZ : zlen Zb = 32).
  { revert E3. unfold oprf_Unblind, is_valid_point. destruct (rdec R Zb) as [P|] eqn:ED; [|discriminate]. intros _.
    apply (ok_enc_dec _ HR) in ED. rewrite <- ED. apply zlen_32. apply (ok_enc_len _ HR). }
  assert (HN : zlen N = 32) by (rewrite E4; apply zlen_32; apply (ok_enc_len _ HR)).
  assert (Hrb : zlen (le_bytes 32 r) = 32) by (apply zlen_32, le_bytes_length).
  assert (F1 : py_unblind R true (le_bytes 32 r) Zb = Ret N).
  { unfold py_unblind. rewrite Hrb, HZ, (le_of r Hr), E3. reflexivity. }
  assert (F2 : py_finalize H true x N = Ret (sha512 H (rfc_hashInput x N))).
  { unfold py_finalize. rewrite HN. unfold zlen. rewrite E5. reflexivity. }
  exists (le_bytes 32 r), bl, Zb, N. repeat split; try assumption.
  - unfold py_blind, zlen. rewrite E1. reflexivity.
  - unfold py_evaluate. rewrite Hk, Hbl, E2. reflexivity.
  - unfold py_unblind_finalize. rewrite F1. cbn [pbind]. exact F2.
Qed.

(** blind depends on the first |x| mod 256 bytes, finalize on the first |x| mod 65536 *)
Lemma sub_firstn {A} (x : list A) m : (m <= length x)%nat -> sub x 0 m = Some (firstn m x).
Proof.
  intros Hm. rewrite <- (firstn_skipn m x) at 1. apply sub_app_l. apply firstn_length_le. exact Hm.
Qed.
Lemma py_blind_prefix R H lk1 lk2 r x :
  py_blind R H lk1 lk2 r x = py_blind R H lk1 lk2 r (firstn (Z.to_nat (zlen x mod 256)) x).
Proof.
  pose proof (Z.mod_pos_bound (zlen x) 256 ltac:(lia)) as Hb.
  assert (Hle : zlen x mod 256 <= zlen x) by (apply Z.mod_le; unfold zlen; lia).
  assert (Hl : length (firstn (Z.to_nat (zlen x mod 256)) x) = Z.to_nat (zlen x mod 256)).
  { apply firstn_length_le. unfold zlen in *. lia. }
  unfold py_blind. f_equal. f_equal. unfold oprf_Blind. destruct lk1; [|reflexivity].
  assert (Hz : zlen (firstn (Z.to_nat (zlen x mod 256)) x) = zlen x mod 256) by (unfold zlen at 1; rewrite Hl; lia).
  change (2 ^ 8) with 256. rewrite Hz. rewrite Z.mod_mod by lia.
  rewrite !sub_firstn; [|rewrite Hl; lia|unfold zlen in *; lia]. rewrite firstn_firstn, Nat.min_id. reflexivity.
Qed.
Lemma py_finalize_prefix H lk x N :
  py_finalize H lk x N = py_finalize H lk (firstn (Z.to_nat (zlen x mod 65536)) x) N.
Proof.
  pose proof (Z.mod_pos_bound (zlen x) 65536 ltac:(lia)) as Hb.
  assert (Hle : zlen x mod 65536 <= zlen x) by (apply Z.mod_le; unfold zlen; lia).
  assert (Hl : length (firstn (Z.to_nat (zlen x mod 65536)) x) = Z.to_nat (zlen x mod 65536)).
  { apply firstn_length_le. unfold zlen in *. lia. }
  unfold py_finalize. destruct (negb (zlen N =? 32)); [reflexivity|]. f_equal. f_equal. unfold oprf_Finalize. destruct lk; [|reflexivity].
  assert (Hz : zlen (firstn (Z.to_nat (zlen x mod 65536)) x) = zlen x mod 65536) by (unfold zlen at 1; rewrite Hl; lia).
  change (2 ^ 16) with 65536. rewrite Hz. rewrite Z.mod_mod by lia.
  rewrite !sub_firstn; [|rewrite Hl; lia|unfold zlen in *; lia]. rewrite firstn_firstn, Nat.min_id. reflexivity.
Qed.
(** every input of more than 65535 bytes has an input of at most 65535 bytes with the same results *)
Lemma py_long_input R H x : 65536 <= zlen x -> exists x', x' <> x /\ zlen x' = zlen x mod 65536 /\
  (forall lk1 lk2 r, py_blind R H lk1 lk2 r x = py_blind R H lk1 lk2 r x') /\
  (forall lk N, py_finalize H lk x N = py_finalize H lk x' N).
Proof.
  intros Hx. set (m := zlen x mod 65536). exists (firstn (Z.to_nat m) x).
  pose proof (Z.mod_pos_bound (zlen x) 65536 ltac:(lia)) as Hb. fold m in Hb.
  assert (Hl : length (firstn (Z.to_nat m) x) = Z.to_nat m) by (apply firstn_length_le; unfold zlen in *; lia).
  split; [|split; [|split]].
  - intros E. apply (f_equal (@length byte)) in E. rewrite Hl in E. unfold zlen in *. lia.
  - unfold zlen at 1. rewrite Hl. lia.
  - intros lk1 lk2 r. rewrite (py_blind_prefix _ _ _ _ _ x), (py_blind_prefix _ _ _ _ _ (firstn (Z.to_nat m) x)).
    assert (Hz : zlen (firstn (Z.to_nat m) x) = m) by (unfold zlen; rewrite Hl; lia). rewrite Hz.
    assert (Em : m mod 256 = zlen x mod 256).
    { unfold m. change 65536 with (256 * 256). symmetry. apply Znumtheory.Zmod_div_mod; [lia|lia|]. exists 256. reflexivity. }
    rewrite Em, firstn_firstn. f_equal. f_equal. rewrite <- Em. pose proof (Z.mod_le m 256). lia.
  - intros lk N. unfold m. apply py_finalize_prefix.
Qed.

(** ** C54: create_shares *)

Lemma py_create_inv al reg a secret n t l : py_create_shares al reg a secret n t = Ret l -> of_le secret < L -> n <= 254 -> zlen a = t - 1 ->
  zlen secret = 32 /\ 2 <= t <= n /\ l = map share_bytes (shares_of (of_le secret :: a) n) /\
  sharing_params (of_le secret) n t a (repeat (mkShare 0 0) (Z.to_nat n)) /\
  create_shares (of_le secret) n t a (repeat (mkShare 0 0) (Z.to_nat n)) = Ok (shares_of (of_le secret :: a) n).
Proof.
  unfold py_create_shares. intros HE Hs Hn Ha.
  destruct (Z.eqb_spec (zlen secret) 32) as [e1|e1]; cbn [negb] in HE; [|discriminate].
  destruct (Z.ltb_spec n t); [discriminate|]. destruct (Z.ltb_spec t 2); [discriminate|].
  apply pbind_ret in HE. destruct HE as (u & _ & HE).
  rewrite (c_u8_small n), (c_u8_small t) in HE by lia. cbn [pbind] in HE.
  pose proof (of_le_range secret) as Hrg.
  assert (HP : sharing_params (of_le secret) n t a (repeat (mkShare 0 0) (Z.to_nat n))).
  { unfold sharing_params. rewrite repeat_length. unfold zlen in Ha. lia. }
  rewrite create_shares_eq in HE by (destruct HP as (P1 & P2 & P3 & P4 & P5); assumption).
  cbn [of_res pbind] in HE. apply pbind_ret in HE. destruct HE as (u2 & _ & HE). inversion HE.
  repeat split; try lia; try (destruct HP; assumption).
  rewrite repeat_length. lia.
  rewrite create_shares_eq by (destruct HP as (P1 & P2 & P3 & P4 & P5); assumption). reflexivity.
Qed.

Lemma shares_plain cs n : 0 <= n <= 254 -> Forall plain (shares_of cs n).
Proof.
  intros Hn. apply Forall_forall. intros s Hs. apply shares_of_In in Hs; [|lia]. destruct Hs as (Hi & Hv).
  split; [lia|]. rewrite Hv. pose proof (mod_L_range (poly cs (s_index s))). pose proof L_lt_2_256. lia.
Qed.

(** a sublist of the bytes of shares is the bytes of a sublist of the shares *)
Lemma lift_quorum cs n t qs : 0 <= n <= 254 -> NoDup qs -> incl qs (map share_bytes (shares_of cs n)) -> t <= zlen qs ->
  exists ss, qs = map share_bytes ss /\ quorum t (shares_of cs n) ss /\ Forall plain ss.
Proof.
  intros Hn Hnd Hin Ht. exists (map share_of qs).
  assert (HE : map share_bytes (map share_of qs) = qs).
  { rewrite map_map. clear Ht Hnd. induction qs as [|b qs IH]; [reflexivity|]. cbn [map]. f_equal.
    - apply share_rt_bytes. specialize (Hin b (or_introl eq_refl)). apply in_map_iff in Hin. destruct Hin as (s & <- & _). apply share_bytes_len.
    - apply IH. intros x Hx. apply Hin. right. exact Hx. }
  assert (Hincl : incl (map share_of qs) (shares_of cs n)).
  { intros s Hs. apply in_map_iff in Hs. destruct Hs as (b & <- & Hb). apply Hin in Hb. apply in_map_iff in Hb. destruct Hb as (s & <- & Hs).
    rewrite share_rt; [exact Hs| |]; pose proof (shares_plain cs n Hn) as HP; rewrite Forall_forall in HP; apply HP; exact Hs. }
  split; [symmetry; exact HE|]. split; [split; [|split]|].
  - apply (NoDup_map_inv share_bytes). rewrite HE. exact Hnd.
  - exact Hincl.
  - rewrite map_length. exact Ht.
  - apply Forall_forall. intros s Hs. apply Hincl in Hs. pose proof (shares_plain cs n Hn) as HP. rewrite Forall_forall in HP. apply HP. exact Hs.
Qed.

Lemma py_reconstruct_eq ss : Forall plain ss -> py_dkg_reconstruct (map share_bytes ss) = Ret (le_bytes 32 (dkg_reconstruct ss)).
Proof.
  intros HF. unfold py_dkg_reconstruct.
  assert (Hl : zlen (concat (map share_bytes ss) ++ [x00]) = 33 * zlen ss + 1).
  { unfold zlen. rewrite app_length, (length_concat_const 33), map_length; [cbn [length]; lia|].
    apply Forall_map, Forall_forall. intros s _. apply share_bytes_len. }
  rewrite Hl. replace (zlen (map share_bytes ss)) with (zlen ss) by (unfold zlen; rewrite map_length; reflexivity).
  destruct (Z.ltb_spec (33 * zlen ss + 1) (33 * zlen ss)); [lia|]. rewrite shares_in_concat by assumption. reflexivity.
Qed.

Lemma py_shares_reconstruct al reg a secret n t l : py_create_shares al reg a secret n t = Ret l -> of_le secret < L -> n <= 254 -> zlen a = t - 1 ->
  zlen l = n /\ forall qs, NoDup qs -> incl qs l -> t <= zlen qs -> py_dkg_reconstruct qs = Ret secret.
Proof.
  intros HE Hs Hn Ha. destruct (py_create_inv _ _ _ _ _ _ _ HE Hs Hn Ha) as (H32 & Ht & -> & HP & HC).
  assert (Hn0 : 0 <= n <= 254) by lia.
  split; [unfold zlen; rewrite map_length, shares_of_length; lia|].
  intros qs Hnd Hin Hq. destruct (lift_quorum _ _ _ _ Hn0 Hnd Hin Hq) as (ss & -> & HQ & HF).
  rewrite py_reconstruct_eq by assumption. rewrite (reconstruct_quorum _ _ _ _ _ _ _ HP HC HQ).
  apply zlen_32 in H32. rewrite <- H32. rewrite le_bytes_of_le. reflexivity.
Qed.

(** it does return, if there is memory and the return register happens to hold 0 *)
Lemma py_create_returns al a secret n t : zlen secret = 32 -> of_le secret < L -> 2 <= t <= n -> n <= 254 -> zlen a = t - 1 -> al (n * 33) = true ->
  (exists l, py_create_shares al 0 a secret n t = Ret l) /\ (forall reg, reg <> 0 -> py_create_shares al reg a secret n t = Raise).
Proof.
  intros H32 Hs Ht Hn Ha Hal. pose proof (of_le_range secret) as Hrg. unfold zlen in Ha.
  assert (HE : forall reg, py_create_shares al reg a secret n t = pbind (check reg) (fun _ => Ret (map share_bytes (shares_of (of_le secret :: a) n)))).
  { intros reg. unfold py_create_shares. rewrite H32. destruct (Z.ltb_spec n t); [lia|]. destruct (Z.ltb_spec t 2); [lia|]. cbn [negb Z.eqb Pos.eqb].
    unfold alloc. destruct (Z.ltb_spec (n * 33) 0); [lia|]. rewrite Hal. cbn [orb negb pbind].
    rewrite (c_u8_small n), (c_u8_small t) by lia. cbn [pbind].
    rewrite create_shares_eq; [reflexivity|lia|lia|lia|lia|rewrite repeat_length; lia]. }
  split.
  - eexists. rewrite HE. reflexivity.
  - intros reg Hreg. rewrite HE. unfold check. destruct (Z.eqb_spec reg 0); [contradiction|]. reflexivity.
Qed.

(** n congruent to 255, or t to 0, modulo 256 *)
Lemma py_create_bad al reg a secret n t : zlen secret = 32 -> 2 <= t <= n -> n < 2 ^ 64 -> al (n * 33) = true ->
  n mod 256 = 255 \/ t mod 256 = 0 -> py_create_shares al reg a secret n t = Bad.
Proof.
  intros H32 Ht Hn Hal Hm. unfold py_create_shares. rewrite H32. destruct (Z.ltb_spec n t); [lia|]. destruct (Z.ltb_spec t 2); [lia|]. cbn [negb Z.eqb Pos.eqb].
  unfold alloc. destruct (Z.ltb_spec (n * 33) 0); [lia|]. rewrite Hal. cbn [orb negb pbind].
  destruct (c_u8 n) as [cn| |] eqn:En; cycle 1.
  { exfalso. revert En. unfold c_u8, c_int. destruct (Z.leb_spec (- 2 ^ 63) n); [|lia]. destruct (Z.ltb_spec n (2 ^ 64)); [|lia]. discriminate. }
  { exfalso. revert En. unfold c_u8, c_int. destruct (Z.leb_spec (- 2 ^ 63) n); [|lia]. destruct (Z.ltb_spec n (2 ^ 64)); [|lia]. discriminate. }
  destruct (c_u8 t) as [ct| |] eqn:Et; cycle 1.
  { exfalso. revert Et. unfold c_u8, c_int. destruct (Z.leb_spec (- 2 ^ 63) t); [|lia]. destruct (Z.ltb_spec t (2 ^ 64)); [|lia]. discriminate. }
  { exfalso. revert Et. unfold c_u8, c_int. destruct (Z.leb_spec (- 2 ^ 63) t); [|lia]. destruct (Z.ltb_spec t (2 ^ 64)); [|lia]. discriminate. }
  apply c_u8_ret in En, Et. destruct En as (-> & _), Et as (-> & _). cbn [pbind].
  destruct Hm as [Em|Em]; rewrite Em.
  - rewrite create_shares_255_UB. reflexivity.
  - rewrite create_shares_t0_UB. reflexivity.
Qed.
