(** The honest run, part 2: every step of the trusted party. *)
From Coq Require Import ZArith Lia List Bool.
From Coq.Strings Require Import Byte.
From Verif Require Import PrimeL Bytes Res Mem Sodium ToprfModel ToprfSpec DkgModel DkgSpec DkgProofs WireModel WireSpec WireProofs TpCrypto TpModel PeerModel
  TpFrame PeerFrame TpRun TpSpec TpMsg TpContent TpControl RunSpec HonestMsg HonestState.
Import ListNotations.
Open Scope list_scope.
Open Scope Z_scope.

Lemma updz_zmap {A} (f : Z -> A) n j v : 0 <= j < n -> updz (zmap f n) j v = Ok (zmap (fun k => if k =? j then v else f k) n).
Proof.
  intros H. destruct (updz_some (zmap f n) j v) as (l & E); [rewrite zlen_zmap; lia|]. rewrite E. f_equal. apply updz_inv in E. destruct E as (_ & El & Eg).
  rewrite zlen_zmap in El by lia. apply getz_ext; [rewrite zlen_zmap; lia|]. intros i. rewrite Eg.
  destruct (Z.ltb_spec i 0) as [Hi|Hi]; [destruct (Z.eqb_spec i j); [lia|]; unfold getz; destruct (Z.ltb_spec i 0); [reflexivity|lia]|].
  destruct (Z.leb_spec n i) as [Hi'|Hi']; [destruct (Z.eqb_spec i j); [lia|]; rewrite !getz_oob by (rewrite zlen_zmap; lia); reflexivity|].
  rewrite !getz_zmap by lia. destruct (Z.eqb_spec i j); reflexivity.
Qed.
Lemma repeat_zmap {A} (v : A) n : repeat v (Z.to_nat n) = zmap (fun _ => v) n.
Proof. unfold zmap, zrange. rewrite map_map. generalize (Z.to_nat n) as m. intros m. generalize 0%nat. induction m as [|m IH]; intros s; [reflexivity|]. cbn. f_equal. apply IH. Qed.

Section HTP.
Variable W : world.
Hypothesis HW : half_ok W.
Notation C := (wC W).
Notation S := (cS (wC W)).
Notation N := (cN (wC W)).
Notation w := (wW W).
Notation n := (wn W).
Notation t := (wt W).
Notation sid := (wsid W).
Notation E := (s_tp (wW W)).
Notation Q := (s_peer (wW W)).

Lemma HS : sigs_ok S.
Proof. exact (ok_cS C (hww_C W HW)). Qed.
Lemma Hsid : zlen sid = 32.
Proof. exact (hww_sid W HW). Qed.
Lemma Hn : 2 <= t < n /\ n <= 128.
Proof. exact (hww_n W HW). Qed.
Lemma zmk k a b c d body : zlen (mk W k a b c d body) = 111 + zlen body.
Proof. apply zlen_mk; [exact HS|exact Hsid]. Qed.

Lemma recv_h c buf off len msgno from to k ts body i now last : t_sid c = sid -> getz (t_last c) i = Ok last ->
  rd buf off len = Ok (mk W k msgno from to ts body) -> len < 2 ^ 32 -> is_byte msgno -> is_byte from -> is_byte to -> is_u64 ts ->
  fresh (t_eps c) last ts now -> forall l, updz (t_last c) i ts = Ok l ->
  tp_recv C c buf off len msgno from to (sig_pk S k) i now = Ok (0, tp_last_set c l).
Proof.
  intros Hs Hg Hr Hl H1 H2 H3 H4 Hf l Hu. unfold tp_recv. rewrite Hg. cbn [bind]. rewrite Hs.
  rewrite (recv_mk S HS sid Hsid _ _ _ _ _ _ _ _ _ _ _ _ Hr Hl H1 H2 H3 H4 Hf). cbn [bind]. rewrite Hu. reflexivity.
Qed.

Lemma byte_p i : 0 <= i < n -> is_byte (i + 1).
Proof. pose proof Hn. unfold is_byte. lia. Qed.
Lemma byte_255 : is_byte 255. Proof. unfold is_byte. lia. Qed.
Lemma byte_0 : is_byte 0. Proof. unfold is_byte. lia. Qed.

(** message sizes *)
Lemma z_M1 i : zlen (M1 W i) = 111.
Proof. unfold M1. rewrite zmk. reflexivity. Qed.
Lemma z_pk k : zlen (sig_pk S k) = 32.
Proof. apply pk_zlen. exact HS. Qed.
Lemma z_npk k : zlen (nz_pk N k) = 32.
Proof. apply (ok_nz_pk_len _ (ok_cN C (hww_C W HW))). Qed.
Lemma z_M2 i : zlen (M2 W i) = 175.
Proof. unfold M2. rewrite zmk, zlen_app. unfold pk. rewrite z_pk. unfold npk. rewrite z_npk. reflexivity. Qed.
Lemma z_M2s i : zlen (M2s W i) = 239.
Proof. unfold M2s. rewrite zlen_app, z_M2. rewrite (sig_zlen S HS). reflexivity. Qed.
Lemma z_M4 i j : 0 <= i < n -> 0 <= j < n -> zlen (M4 W i j) = 159.
Proof. intros Hi Hj. unfold M4. rewrite zmk. unfold lk. rewrite (hc_m1 W HW) by assumption. reflexivity. Qed.
Lemma z_M5 i j : 0 <= i < n -> 0 <= j < n -> zlen (M5 W i j) = 159.
Proof. intros Hi Hj. unfold M5. rewrite zmk. unfold lk. rewrite (hc_m2 W HW) by assumption. reflexivity. Qed.
Lemma coms_Forall i : Forall (fun m => zlen m = 32) (coms W i).
Proof. unfold coms, commitments_of. apply Forall_forall. intros x Hx. apply in_map_iff in Hx. destruct Hx as (a & <- & _). unfold zlen. rewrite (ok_enc_len _ (ok_cR C (hww_C W HW))). reflexivity. Qed.
Lemma z_coms i : 0 <= i < n -> zlen (coms W i) = t.
Proof. intros Hi. unfold coms, commitments_of. rewrite zlen_map. apply (hww_a W HW); assumption. Qed.
Lemma z_comdata i : 0 <= i < n -> zlen (concat (coms W i)) = 32 * t.
Proof. intros Hi. rewrite (zlen_concat _ 32) by apply coms_Forall. rewrite z_coms by assumption. lia. Qed.
Lemma z_M6 i : 0 <= i < n -> zlen (M6 W i) = 111 + 32 * t.
Proof. intros Hi. unfold M6. rewrite zmk, z_comdata by assumption. reflexivity. Qed.
Lemma z_mac i j : zlen (mac W i j) = 32.
Proof. apply (ok_auth_len C (hww_C W HW)). Qed.
Lemma z_M8 i j : 0 <= i < n -> 0 <= j < n -> zlen (M8 W i j) = 256.
Proof. intros Hi Hj. unfold M8. rewrite zmk, !zlen_app, z_mac. unfold lk. rewrite (hc_m3 W HW), (hc_ct W HW) by assumption. reflexivity. Qed.
Lemma z_fl i : 0 <= i < n -> zlen (wfl W i) = n.
Proof. intros Hi. apply (hww_fl W HW). assumption. Qed.
Lemma z_M9 i : 0 <= i < n -> zlen (M9 W i) = 112 + n.
Proof. intros Hi. unfold M9. rewrite zmk, zlen_cons, zlen_map, z_fl by assumption. lia. Qed.
Lemma z_hash x : zlen (blake2b (cH C) 32 x) = 32.
Proof. unfold zlen. rewrite (ok_blake2b_len _ (ok_cH C (hww_C W HW))). reflexivity. Qed.
Lemma z_M19 i : zlen (M19 W i) = 143.
Proof. unfold M19. rewrite zmk, z_hash. reflexivity. Qed.
Lemma z_M21 i : zlen (M21 W i) = 113.
Proof. unfold M21. rewrite zmk. reflexivity. Qed.
Lemma z_B3 : zlen (B3 W) = 111 + n * 175.
Proof. unfold B3. rewrite zmk. pose proof Hn. rewrite (zlen_blocks _ 175); [reflexivity|lia|intros; apply z_M2]. Qed.
Lemma z_B7 : zlen (B7 W) = 111 + n * (111 + 32 * t).
Proof. unfold B7. rewrite zmk. pose proof Hn. rewrite (zlen_blocks _ (111 + 32 * t)); [reflexivity|lia|intros; apply z_M6; assumption]. Qed.
Lemma z_B10 : zlen (B10 W) = 111 + n * (112 + n).
Proof. unfold B10. rewrite zmk. pose proof Hn. rewrite (zlen_blocks _ (112 + n)); [reflexivity|lia|intros; apply z_M9; assumption]. Qed.

Lemma rows_coms i : 0 <= i < n -> rows t (concat (coms W i)) = coms W i.
Proof.
  intros Hi. pose proof (z_coms i Hi) as Hl. pose proof (coms_Forall i) as HF. revert Hl HF. generalize (coms W i). intros l Hl HF. unfold rows.
  replace (Z.to_nat t) with (length l) by (unfold zlen in Hl; lia). clear Hl. induction l as [|a l IH]; [reflexivity|].
  inversion HF as [|x y Ha HF']; subst. assert (La : length a = 32%nat) by (unfold zlen in Ha; lia). cbn [length seq map concat]. f_equal.
  - rewrite Nat.mul_0_r. cbn [skipn]. rewrite firstn_app, <- La, Nat.sub_diag, firstn_all. cbn [firstn]. apply app_nil_r.
  - rewrite <- (IH HF') at 2. rewrite <- seq_shift, map_map. apply map_ext. intros k.
    rewrite skipn_app, skipn_all2 by lia. cbn [app]. f_equal. f_equal. lia.
Qed.

Ltac tpc := cbn [t_step t_prev t_sid t_n t_t t_pk t_sk t_last t_eps t_pks t_lt t_com t_enc t_complaints t_cmax t_cheaters t_chmax t_transcript
  mkt tp_last_set tp_pks_set tp_com_set tp_enc_set tp_complaints_set tp_step_set tp_transcript_set].

Definition tbuf s k := s_buf w 0 s k.
Lemma z_tbuf s k : 0 <= k -> zlen (tbuf s k) = k.
Proof. apply (hww_out W HW). Qed.

(** a buffer with room for a header *)
Lemma split_hdr (out : bytes) k : 0 <= k -> zlen out = 111 + k -> exists h r, out = h ++ r /\ zlen h = 111 /\ zlen r = k.
Proof.
  intros Hk H. exists (firstn 111 out), (skipn 111 out). split; [symmetry; apply firstn_skipn|]. unfold zlen in *. rewrite firstn_length, skipn_length. lia.
Qed.

Lemma next_T0 : tp_next C (E 0) (T0 W) [] (tbuf 0 (tp_output_size (T0 W))) = Ok (0, T1 W, blocks (M1 W) n).
Proof.
  pose proof Hn as Hn. rewrite tp_next_0 by reflexivity. unfold tp_step1. set (out := tbuf _ _). assert (Ho : zlen out = n * 111) by (apply z_tbuf; cbn; lia).
  clearbody out. unfold T0. tpc. change (zlen (@nil byte) =? 0) with true. cbn [negb]. change msg1_SIZE with 111. rewrite Ho, Z.eqb_refl. cbn [negb].
  destruct (Z.leb_spec 255 n); [lia|].
  assert (L : loopM (fun i out => do out <- send_msg S out ((i - 1) * 111) hdr_SIZE 1 0 i (wtsk W) sid (e_s (E 0) i) ;; Ok (Next out)) (zrange 1 (Z.to_nat n)) (bfill 111 (M1 W) 0 out)
              = Ok (Next (bfill 111 (M1 W) n out))).
  { pose proof (loopM_fun (fun i out => do out <- send_msg S out ((i - 1) * 111) hdr_SIZE 1 0 i (wtsk W) sid (e_s (E 0) i) ;; Ok (Next out))
      (fun k => bfill 111 (M1 W) (k - 1) out) (Z.to_nat n) 1) as L. cbv beta in L. replace (1 - 1) with 0 in L by lia. rewrite L; [f_equal; f_equal; f_equal; lia|].
    intros k Hk. destruct (bfill_open 111 (M1 W) n (k - 1) out) as (junk & post & H1 & H2 & H3 & H4); [lia|lia|assumption|intros; apply z_M1|].
    rewrite H2. change hdr_SIZE with (111 + zlen (@nil byte)).
    pose proof (send_mk S HS sid Hsid (blocks (M1 W) (k - 1)) junk [] post ((k - 1) * 111) (111 + zlen (@nil byte)) 1 0 k (wtsk W) (e_s (E 0) k) H4 H1 eq_refl (hww_e W HW _ _)) as Es.
    cbn [app] in Es. rewrite Es. cbn [bind]. replace (k + 1 - 1) with (k - 1 + 1) by lia. rewrite H3. assert (EM : M1 W (k - 1) = mk_msg S sid (wtsk W) 1 0 k (e_s (E 0) k) []) by (unfold M1, mk; replace (k - 1 + 1) with k by lia; reflexivity). rewrite EM. reflexivity. }
  rewrite bfill_0 in L. rewrite L. cbn [bind]. unfold tp_finish_step. cbn [bind]. rewrite (bfill_full 111) by lia. reflexivity.
Qed.

Lemma next_T1 : tp_next C (E 1) (T1 W) (blocks (M2s W) n) (tbuf 1 (tp_output_size (T1 W))) = Ok (0, T2 W, B3 W).
Proof.
  pose proof Hn as Hn. rewrite tp_next_1 by reflexivity. unfold tp_step4. set (out := tbuf _ _). assert (Ho : zlen out = 111 + n * 175) by (unfold out; change (tp_output_size (T1 W)) with (175 * n + 111); rewrite z_tbuf; lia).
  clearbody out. unfold T1. tpc. change (msg2_SIZE + sign_BYTES) with 239. change (msg2_SIZE * n + hdr_SIZE) with (175 * n + 111).
  rewrite (zlen_blocks _ 239), Ho by (try lia; intros; apply z_M2s). rewrite (Z.mul_comm 239), Z.eqb_refl. replace (111 + n * 175) with (175 * n + 111) by lia. rewrite Z.eqb_refl. cbn [negb].
  destruct (split_hdr out (n * 175) ltac:(lia) Ho) as (h & r & -> & Hh & Hr).
  pose (St := fun k => (mkt W 1 0 (fill (fun j => st W j 0 0) k (zmap (fun _ => wbufs W) n)) (fill (pk W) k (wpks W)) (wcom W) (wenc W) (wtr0 W), h ++ bfill 175 (M2 W) k r, 111 + k * 175)).
  assert (L : loopM (tp_step4_body C (E 1) (blocks (M2s W) n)) (zrange 0 (Z.to_nat n)) (St 0) = Ok (Next (St n))).
  { apply (loopM_fun0 _ St); [lia|]. intros k Hk. unfold St at 1, tp_step4_body. change (msg2_SIZE + sign_BYTES) with 239. change msg2_SIZE with 175. change sign_BYTES with 64. change hdr_SIZE with 111.
    assert (Rb : rd (blocks (M2s W) n) (k * 239) 239 = Ok (M2s W k)) by (apply rd_blocks; [assumption|intros; apply z_M2s]).
    assert (R1 : rd (blocks (M2s W) n) (k * 239 + 175) 64 = Ok (sig_sign S (wlt W k) (M2 W k))).
    { rewrite <- (rd_rd _ _ _ _ 175 64 Rb) by lia. unfold M2s. transitivity (rd (M2 W k ++ sig_sign S (wlt W k) (M2 W k) ++ []) 175 64); [rewrite app_nil_r; reflexivity|]. apply rd_mid; [apply z_M2|apply (sig_zlen S HS)]. }
    assert (R2 : rd (blocks (M2s W) n) (k * 239) 175 = Ok (M2 W k)).
    { replace (k * 239) with (k * 239 + 0) by lia. rewrite <- (rd_rd _ _ _ _ 0 175 Rb) by lia. apply rd_first. apply z_M2. }
    assert (R3 : rd (blocks (M2s W) n) (k * 239 + 111) 32 = Ok (pk W k)).
    { eapply (part_mk S HS sid Hsid _ _ _ _ _ _ _ _ [] (pk W k) (npk W k)); [exact R2|change (zlen (@nil byte)) with 0; lia|unfold pk; rewrite z_pk; reflexivity]. }
    rewrite R1, R2. cbn [bind]. tpc. rewrite getz_zmap by assumption. cbn [bind]. rewrite (ok_sig_complete S HS). cbn [negb]. rewrite R3. cbn [bind].
    assert (Zl : zlen (zmap (fun _ : Z => wbufs W) n) = n) by (apply zlen_zmap; lia).
    unfold pk at 2. erewrite (recv_h _ _ _ _ 2 (k + 1) 255 (sk W k) (st W k 0 0)); [|reflexivity| |exact R2|lia|unfold is_byte; lia|apply byte_p; assumption|apply byte_255|apply (hww_p W HW)| |].
    2: { tpc. rewrite fill_get by lia. apply getz_zmap. assumption. }
    2: { tpc. apply (hg_0 W HW). assumption. }
    2: { tpc. apply (fill_upd (fun j => st W j 0 0)). lia. }
    cbn [bind negb Z.eqb]. tpc. rewrite fill_upd by (rewrite (hww_pks W HW); assumption). cbn [bind].
    destruct (bfill_open 175 (M2 W) n k r) as (junk & post & H1 & H2 & H3 & H4); [lia|lia|assumption|intros; apply z_M2|].
    rewrite H2, app_assoc, wr_mid; [|rewrite zlen_app; lia|rewrite z_M2; assumption]. cbn [bind]. do 2 f_equal. unfold St. tpc. rewrite <- app_assoc, <- H3. replace (111 + (k + 1) * 175) with (111 + k * 175 + 175) by lia. reflexivity. }
  unfold St in L at 1. rewrite !fill_0, bfill_0 in L. change (111 + 0 * 175) with hdr_SIZE in L. change (T1 W) with (mkt W 1 0 (zmap (fun _ => wbufs W) n) (wpks W) (wcom W) (wenc W) (wtr0 W)).
  rewrite L. cbn [bind]. unfold St. tpc. change (0 <? zlen (@nil cheater)) with false. cbv iota.
  rewrite (bfill_full 175) by lia.
  pose proof (send_mk S HS sid Hsid [] h (blocks (M2 W) n) [] 0 (zlen (h ++ blocks (M2 W) n)) 3 0 255 (wtsk W) (e_s (E 1) 0) eq_refl Hh) as Es.
  rewrite !app_nil_r in Es. cbn [app] in Es. rewrite Es; [|rewrite zlen_app; lia|apply (hww_e W HW)]. cbn [bind]. unfold tp_finish_step. cbn [bind Z.eqb]. tpc.
  rewrite !fill_full by (try apply zlen_zmap; try lia; apply (hww_pks W HW)). reflexivity.
Qed.

(** the time stamps on record before message k of n * n *)
Definition lastk (base : Z -> Z) (s k j : Z) : Z := if j <? k mod n then st W j s (k / n) else before W base s j (k / n).
Lemma last_get base s k : 0 <= k < n * n -> getz (zmap (lastk base s k) n) (k mod n) = Ok (before W base s (k mod n) (k / n)).
Proof. pose proof Hn. intros Hk. rewrite getz_zmap by (apply Z.mod_pos_bound; lia). unfold lastk. rewrite Z.ltb_irrefl. reflexivity. Qed.
Lemma step_div k : 0 <= k < n * n ->
  k mod n + 1 < n /\ (k + 1) / n = k / n /\ (k + 1) mod n = k mod n + 1 \/ k mod n + 1 = n /\ (k + 1) / n = k / n + 1 /\ (k + 1) mod n = 0.
Proof.
  pose proof Hn. intros Hk. pose proof (Z.mod_pos_bound k n ltac:(lia)). pose proof (Z.div_mod k n ltac:(lia)) as D. destruct (Z.eq_dec (k mod n + 1) n) as [e|ne].
  - right. split; [assumption|]. assert (Eq : k + 1 = (k / n + 1) * n + 0) by lia. split.
    + symmetry. apply (Z.div_unique _ _ _ 0); lia.
    + symmetry. apply (Z.mod_unique _ _ (k / n + 1)); lia.
  - left. split; [lia|]. split.
    + symmetry. apply (Z.div_unique _ _ _ (k mod n + 1)); lia.
    + symmetry. apply (Z.mod_unique _ _ (k / n)); lia.
Qed.
Lemma last_upd base s k : 0 <= k < n * n ->
  updz (zmap (lastk base s k) n) (k mod n) (st W (k mod n) s (k / n)) = Ok (zmap (lastk base s (k + 1)) n).
Proof.
  pose proof Hn. intros Hk. rewrite updz_zmap by (apply Z.mod_pos_bound; lia). f_equal. apply zmap_ext. intros j Hj. unfold lastk.
  pose proof (Z.mod_pos_bound k n ltac:(lia)). pose proof (Z.div_pos k n ltac:(lia) ltac:(lia)).
  destruct (step_div k Hk) as [(A & -> & ->)|(A & -> & ->)].
  - destruct (Z.eqb_spec j (k mod n)) as [->|ne]; [destruct (Z.ltb_spec (k mod n) (k mod n + 1)); [reflexivity|lia]|].
    destruct (Z.ltb_spec j (k mod n)), (Z.ltb_spec j (k mod n + 1)); try lia; reflexivity.
  - unfold before at 2. destruct (Z.eqb_spec (k / n + 1) 0) as [e0|e0]; [lia|]. replace (k / n + 1 - 1) with (k / n) by lia. destruct (Z.ltb_spec j 0); [lia|].
    destruct (Z.eqb_spec j (k mod n)) as [->|ne]; [reflexivity|]. destruct (Z.ltb_spec j (k mod n)); [reflexivity|lia].
Qed.
Lemma last_0 base s : zmap (lastk base s 0) n = zmap base n.
Proof.
  pose proof Hn. apply zmap_ext. intros j Hj. unfold lastk. rewrite Z.mod_0_l, Z.div_0_l by lia. destruct (Z.ltb_spec j 0); [lia|]. reflexivity.
Qed.
Lemma last_end base s : zmap (lastk base s (n * n)) n = zmap (fun j => st W j s (n - 1)) n.
Proof.
  pose proof Hn. apply zmap_ext. intros j Hj. unfold lastk. rewrite Z.mod_mul, Z.div_mul by lia. destruct (Z.ltb_spec j 0); [lia|]. unfold before.
  destruct (Z.eqb_spec n 0) as [e0|e0]; [lia|reflexivity].
Qed.
Lemma in_square k : 0 <= k < n * n -> 0 <= k mod n < n /\ 0 <= k / n < n /\ (k / n) * n + k mod n = k.
Proof.
  pose proof Hn. intros Hk. pose proof (Z.mod_pos_bound k n ltac:(lia)). pose proof (Z.div_mod k n ltac:(lia)). split; [assumption|]. split; [|lia].
  split; [apply Z.div_pos; lia|]. apply Z.div_lt_upper_bound; lia.
Qed.
(** message (j,i) of a square of messages *)
Lemma rd_square (M : Z -> Z -> bytes) sz j i : 0 <= j < n -> 0 <= i < n -> (forall j i, 0 <= j < n -> 0 <= i < n -> zlen (M j i) = sz) ->
  rd (blocks (fun j => blocks (M j) n) n) ((j * n + i) * sz) sz = Ok (M j i).
Proof.
  pose proof Hn as Hnn. intros Hj Hi H. rewrite blocks_nest by lia. rewrite (rd_blocks _ sz (n * n)).
  - rewrite Z.add_comm, Z.div_add, Z.mod_add, Z.div_small, Z.mod_small by lia. reflexivity.
  - nia.
  - intros k Hk. destruct (in_square k Hk) as (A & B & _). apply H; assumption.
Qed.
Lemma zlen_square (M : Z -> Z -> bytes) sz : (forall j i, 0 <= j < n -> 0 <= i < n -> zlen (M j i) = sz) ->
  zlen (blocks (fun j => blocks (M j) n) n) = n * n * sz.
Proof.
  pose proof Hn. intros Hz. rewrite (zlen_blocks _ (n * sz)); [lia|lia|]. intros i Hi. apply zlen_blocks; [lia|]. intros k Hk. apply Hz; assumption.
Qed.
(** the transposed square: what the trusted party forwards *)
Definition turned (M : Z -> Z -> bytes) : bytes := blocks (fun i => blocks (fun j => M j i) n) n.

Lemma step68 step prev msgno s base (M : Z -> Z -> bytes) body pks com enc tr out :
  Mem.u8 (2 + step) = msgno -> is_byte msgno -> (forall j i, 0 <= j < n -> 0 <= i < n -> zlen (M j i) = 159) ->
  (forall j i, M j i = mk W (sk W j) msgno (j + 1) (i + 1) (st W j s i) (body j i)) ->
  (forall j i, 0 <= j < n -> 0 <= i < n -> fresh (weps W) (before W base s j i) (st W j s i) (e_r (E step) (i * n + j))) ->
  pks = zmap (pk W) n -> zlen out = n * n * 159 ->
  tp_step68 C (E step) (mkt W step prev (zmap base n) pks com enc tr) (blocks (fun i => blocks (M i) n) n) out =
  Ok (0, mkt W step prev (zmap (fun j => st W j s (n - 1)) n) pks com enc tr, turned M).
Proof.
  intros Hm Hb Hz HM Hf Hp Ho. pose proof Hn as Hn. unfold tp_step68. tpc. rewrite (zlen_square _ 159) by assumption. change msg4_SIZE with 159.
  replace (159 * n * n) with (n * n * 159) by lia. rewrite Ho, Z.eqb_refl. cbn [negb].
  pose (out_k := fun k => M (k mod n) (k / n)).
  pose (St := fun k => (mkt W step prev (zmap (lastk base s k) n) pks com enc tr, bfill 159 out_k k out, k * 159)).
  assert (Zo : forall k, 0 <= k < n * n -> zlen (out_k k) = 159) by (intros k Hk; destruct (in_square k Hk) as (A & B & _); apply Hz; assumption).
  assert (Lp : loopM (tp_step68_body C (E step) (blocks (fun i => blocks (M i) n) n)) (zrange 0 (Z.to_nat (n * n))) (St 0) = Ok (Next (St (n * n)))).
  { apply (loopM_fun0 _ St); [nia|]. intros k Hk. destruct (in_square k Hk) as (Hj & Hi & Hd). unfold St at 1, tp_step68_body. tpc. change msg4_SIZE with 159. rewrite Hp at 1. rewrite getz_zmap by assumption. cbn [bind]. rewrite Hm.
    pose proof (rd_square M 159 (k mod n) (k / n) Hj Hi Hz) as R. pose proof R as R'. rewrite HM in R'.
    unfold pk. erewrite (recv_h _ _ _ _ msgno (k mod n + 1) (k / n + 1) (sk W (k mod n)) (st W (k mod n) s (k / n))); [|reflexivity| |exact R'|lia|assumption|apply byte_p; assumption|apply byte_p; assumption|apply (hww_p W HW)| |].
    2: { tpc. apply last_get. assumption. }
    2: { tpc. pose proof (Hf (k mod n) (k / n) Hj Hi) as F. rewrite Hd in F. exact F. }
    2: { tpc. apply last_upd. assumption. }
    cbn [bind negb Z.eqb]. rewrite R. cbn [bind].
    destruct (bfill_open 159 out_k (n * n) k out) as (junk & post & H1 & H2 & H3 & H4); [lia|lia|assumption|assumption|].
    rewrite H2, wr_mid; [|assumption|rewrite Hz by assumption; assumption]. cbn [bind]. do 2 f_equal. unfold St. tpc. rewrite H3. replace ((k + 1) * 159) with (k * 159 + 159) by lia. reflexivity. }
  unfold St in Lp at 1. rewrite last_0, bfill_0, Z.mul_0_l in Lp. rewrite Lp. cbn [bind]. unfold St. tpc. change (0 <? zlen (@nil cheater)) with false. cbv iota.
  rewrite last_end, (bfill_full 159) by assumption. unfold turned. rewrite (blocks_nest (fun i j => M j i)) by lia. reflexivity.
Qed.

Lemma next_T2 : tp_next C (E 2) (T2 W) (blocks (fun i => blocks (M4 W i) n) n) (tbuf 2 (tp_output_size (T2 W))) = Ok (0, T3 W, turned (M4 W)).
Proof.
  pose proof Hn as Hn. rewrite tp_next_2 by reflexivity. unfold T2 at 1. rewrite (step68 2 1 4 1 (fun j => st W j 0 0) (M4 W) (fun i j => l_m1 _ (lk W i j))); try reflexivity.
  - unfold is_byte. lia.
  - exact z_M4.
  - exact (hg_1 W HW).
  - change (tp_output_size (T2 W)) with (159 * n * n). rewrite z_tbuf; nia.
Qed.
Lemma next_T3 : tp_next C (E 3) (T3 W) (blocks (fun i => blocks (M5 W i) n) n) (tbuf 3 (tp_output_size (T3 W))) = Ok (0, T4 W, turned (M5 W)).
Proof.
  pose proof Hn as Hn. rewrite tp_next_3 by reflexivity. unfold T3 at 1. rewrite (step68 3 2 5 2 (fun j => st W j 1 (n - 1)) (M5 W) (fun i j => l_m2 _ (lk W j i))); try reflexivity.
  - unfold is_byte. lia.
  - exact z_M5.
  - exact (hg_2 W HW).
  - change (tp_output_size (T3 W)) with (159 * n * n). rewrite z_tbuf; nia.
Qed.

Lemma next_T4 : tp_next C (E 4) (T4 W) (blocks (M6 W) n) (tbuf 4 (tp_output_size (T4 W))) = Ok (0, T5 W, B7 W).
Proof.
  pose proof Hn as Hn. rewrite tp_next_4 by reflexivity. unfold tp_step12. set (out := tbuf _ _).
  set (z6 := 111 + 32 * t).
  assert (Ho : zlen out = 111 + n * z6) by (unfold out; change (tp_output_size (T4 W)) with (111 + z6 * n); rewrite z_tbuf; unfold z6; nia).
  clearbody out. unfold T4. tpc. change (msg6_SIZE t) with z6. change hdr_SIZE with 111.
  rewrite (zlen_blocks _ z6), Ho by (try lia; intros; apply z_M6; assumption). rewrite (Z.mul_comm z6), !Z.eqb_refl. cbn [negb].
  destruct (split_hdr out (n * z6) ltac:(unfold z6; nia) Ho) as (h & r & -> & Hh & Hr).
  pose (St := fun k => (mkt W 4 3 (fill (fun j => st W j 3 0) k (zmap (fun j => st W j 2 (n - 1)) n)) (zmap (pk W) n) (fill (coms W) k (wcom W)) (wenc W) (tr1 W), h ++ bfill z6 (M6 W) k r, 111 + k * z6)).
  assert (L : loopM (tp_step12_body C (E 4) (blocks (M6 W) n)) (zrange 0 (Z.to_nat n)) (St 0) = Ok (Next (St n))).
  { apply (loopM_fun0 _ St); [lia|]. intros k Hk. unfold St at 1, tp_step12_body. tpc. change (msg6_SIZE t) with z6. change hdr_SIZE with 111.
    assert (Rb : rd (blocks (M6 W) n) (k * z6) z6 = Ok (M6 W k)) by (apply rd_blocks; [assumption|intros; apply z_M6; assumption]).
    rewrite getz_zmap by assumption. cbn [bind].
    assert (Zl : zlen (zmap (fun j => st W j 2 (n - 1)) n) = n) by (apply zlen_zmap; lia).
    unfold pk. erewrite (recv_h _ _ _ _ 6 (k + 1) 255 (sk W k) (st W k 3 0)); [|reflexivity| |exact Rb|unfold z6; lia|unfold is_byte; lia|apply byte_p; assumption|apply byte_255|apply (hww_p W HW)| |].
    2: { tpc. rewrite fill_get by lia. apply getz_zmap. assumption. }
    2: { tpc. apply (hg_3 W HW). assumption. }
    2: { tpc. apply (fill_upd (fun j => st W j 3 0)). lia. }
    cbn [bind negb Z.eqb]. tpc. change (msg6_SIZE t) with z6. change hdr_SIZE with 111.
    pose proof (body_mk S HS sid Hsid _ _ _ _ _ _ _ _ _ Rb) as Rd. rewrite z_comdata in Rd by assumption. rewrite Rd. cbn [bind]. rewrite rows_coms by assumption.
    rewrite fill_upd by (rewrite (hww_com W HW); assumption). cbn [bind]. rewrite Rb. cbn [bind].
    destruct (bfill_open z6 (M6 W) n k r) as (junk & post & H1 & H2 & H3 & H4); [lia|unfold z6; lia|assumption|intros; apply z_M6; assumption|].
    rewrite H2, app_assoc, wr_mid; [|rewrite zlen_app; lia|rewrite z_M6 by assumption; assumption]. cbn [bind]. do 2 f_equal. unfold St. tpc. rewrite <- app_assoc, <- H3.
    replace (111 + (k + 1) * z6) with (111 + k * z6 + z6) by lia. reflexivity. }
  unfold St in L at 1. rewrite !fill_0, bfill_0, Z.mul_0_l, Z.add_0_r in L.
  change (mkTp 4 3 sid n t (tpk W) (wtsk W) (zmap (fun j => st W j 2 (n - 1)) n) (weps W) (zmap (pk W) n) (zmap (fun i => sig_pk S (wlt W i)) n) (wcom W) (wenc W) [] (n * n) [] (wchmax W) (tr1 W))
    with (mkt W 4 3 (zmap (fun j => st W j 2 (n - 1)) n) (zmap (pk W) n) (wcom W) (wenc W) (tr1 W)).
  rewrite L. cbn [bind]. unfold St. tpc. change (0 <? zlen (@nil cheater)) with false. cbv iota.
  rewrite (bfill_full z6) by lia.
  pose proof (send_mk S HS sid Hsid [] h (blocks (M6 W) n) [] 0 (zlen (h ++ blocks (M6 W) n)) 7 0 255 (wtsk W) (e_s (E 4) 0) eq_refl Hh) as Es.
  rewrite !app_nil_r in Es. cbn [app] in Es. rewrite Es; [|rewrite zlen_app; lia|apply (hww_e W HW)]. cbn [bind]. unfold tp_finish_step. cbn [bind Z.eqb]. tpc.
  rewrite !fill_full by (try apply zlen_zmap; try lia; apply (hww_com W HW)). reflexivity.
Qed.

Lemma next_T5 : tp_next C (E 5) (T5 W) (net5 W) (tbuf 5 (tp_output_size (T5 W))) = Ok (0, T6 W, turned (M8 W)).
Proof.
  pose proof Hn as Hn. rewrite tp_next_5 by reflexivity. unfold tp_step14. set (out := tbuf _ _). assert (Ho : zlen out = n * n * 256) by (unfold out; change (tp_output_size (T5 W)) with (n * n * 256); rewrite z_tbuf; nia).
  clearbody out. unfold T5. tpc. unfold net5 at 1 2. rewrite (zlen_square _ 256) by exact z_M8. change msg8_SIZE with 256.
  replace (256 * n * n) with (n * n * 256) by lia. rewrite Ho, Z.eqb_refl. cbn [negb].
  pose (out_k := fun k => M8 W (k mod n) (k / n)). pose (base := fun j => st W j 3 0).
  pose (St := fun k => (mkt W 5 4 (zmap (lastk base 4 k) n) (zmap (pk W) n) (zmap (coms W) n) (wenc W) (tr2 W), bfill 256 out_k k out, k * 256)).
  assert (Zo : forall k, 0 <= k < n * n -> zlen (out_k k) = 256) by (intros k Hk; destruct (in_square k Hk) as (A & B & _); apply z_M8; assumption).
  assert (Lp : loopM (tp_step14_body C (E 5) (net5 W)) (zrange 0 (Z.to_nat (n * n))) (St 0) = Ok (Next (St (n * n)))).
  { apply (loopM_fun0 _ St); [nia|]. intros k Hk. destruct (in_square k Hk) as (Hj & Hi & Hd). unfold St at 1, tp_step14_body. tpc. change msg8_SIZE with 256. rewrite getz_zmap by assumption. cbn [bind].
    pose proof (rd_square (M8 W) 256 (k mod n) (k / n) Hj Hi z_M8) as R. fold (net5 W) in R.
    unfold pk. erewrite (recv_h _ _ _ _ 8 (k mod n + 1) (k / n + 1) (sk W (k mod n)) (st W (k mod n) 4 (k / n))); [|reflexivity| |exact R|lia|unfold is_byte; lia|apply byte_p; assumption|apply byte_p; assumption|apply (hww_p W HW)| |].
    2: { tpc. apply last_get. assumption. }
    2: { tpc. pose proof (hg_4 W HW (k mod n) (k / n) Hj Hi) as F. rewrite Hd in F. exact F. }
    2: { tpc. apply last_upd. assumption. }
    cbn [bind negb Z.eqb]. rewrite R. cbn [bind].
    destruct (bfill_open 256 out_k (n * n) k out) as (junk & post & H1 & H2 & H3 & H4); [lia|lia|assumption|assumption|].
    rewrite H2, wr_mid; [|assumption|rewrite z_M8 by assumption; assumption]. cbn [bind]. do 2 f_equal. unfold St. tpc. rewrite H3. replace ((k + 1) * 256) with (k * 256 + 256) by lia. reflexivity. }
  unfold St in Lp at 1. rewrite last_0, bfill_0, Z.mul_0_l in Lp. unfold base in Lp at 1.
  change (loopM (tp_step14_body C (E 5) (net5 W)) (zrange 0 (Z.to_nat (n * n)))
    (mkt W 5 4 (zmap (fun j => st W j 3 0) n) (zmap (pk W) n) (zmap (coms W) n) (wenc W) (tr2 W), out, 0) = Ok (Next (St (n * n)))) in Lp.
  unfold mkt in Lp at 1. unfold mkt at 1. rewrite Lp. cbn [bind]. unfold St. tpc. change (0 <? zlen (@nil cheater)) with false. cbv iota.
  rewrite last_end, (bfill_full 256) by assumption.
  assert (Ew : wr (wenc W) 0 (net5 W) = Ok (net5 W)).
  { pose proof (wr_first (wenc W) [] (net5 W)) as Ew. rewrite !app_nil_r in Ew. apply Ew. rewrite (hww_enc W HW). unfold net5. rewrite (zlen_square _ 256) by exact z_M8. reflexivity. }
  rewrite Ew. cbn [bind]. unfold tp_finish_step. cbn [bind Z.eqb]. unfold turned. rewrite (blocks_nest (fun i j => M8 W j i)) by lia. reflexivity.
Qed.

Lemma rd_sub (buf : bytes) off len m o k : rd buf off len = Ok m -> 0 <= o -> 0 <= k -> o + k <= len -> exists x, rd buf (off + o) k = Ok x.
Proof.
  intros H Ho Hk Hl. rewrite <- (rd_rd _ _ _ _ o k H) by assumption. apply rd_inv in H. destruct H as (A & B & D & F & _). rewrite rd_ok by lia. eexists. reflexivity.
Qed.
Lemma rd_one (buf : bytes) off b r len : rd buf off len = Ok (b :: r) -> getz buf off = Ok b.
Proof.
  intros H. pose proof (rd_split _ _ _ _ H) as Hs. apply rd_inv in H. destruct H as (A & B & D & F & _). rewrite Hs. cbn [app]. apply getz_mid. unfold zlen. rewrite firstn_length. unfold zlen in *. cbn [length] in *. lia.
Qed.

Lemma next_T6 : tp_next C (E 6) (T6 W) (blocks (M9 W) n) (tbuf 6 (tp_output_size (T6 W))) = Ok (0, T7 W, B10 W).
Proof.
  pose proof Hn as Hn. rewrite tp_next_6 by reflexivity. unfold tp_step16. set (out := tbuf _ _).
  set (z9 := msg9_SIZE n). assert (V9 : z9 = 112 + n) by (unfold z9, msg9_SIZE, hdr_SIZE; lia).
  assert (Ho : zlen out = 111 + n * z9) by (unfold out; change (tp_output_size (T6 W)) with (111 + n * z9); rewrite z_tbuf; nia).
  clearbody out. unfold T6. tpc. change (msg10_SIZE n) with (111 + n * z9). change (msg9_SIZE n) with z9. change hdr_SIZE with 111.
  assert (Z9 : forall i, 0 <= i < n -> zlen (M9 W i) = z9) by (intros i Hi; rewrite z_M9 by assumption; lia).
  rewrite (zlen_blocks _ z9), Ho by (try lia; assumption). rewrite (Z.mul_comm z9), !Z.eqb_refl. cbn [negb].
  destruct (split_hdr out (n * z9) ltac:(nia) Ho) as (h & r & -> & Hh & Hr).
  pose (St := fun k => (mkt W 6 5 (fill (fun j => st W j 5 0) k (zmap (fun j => st W j 4 (n - 1)) n)) (zmap (pk W) n) (zmap (coms W) n) (net5 W) (tr2 W), h ++ bfill z9 (M9 W) k r, 111 + k * z9)).
  assert (L : loopM (tp_step16_body C (E 6) (blocks (M9 W) n)) (zrange 0 (Z.to_nat n)) (St 0) = Ok (Next (St n))).
  { apply (loopM_fun0 _ St); [lia|]. intros k Hk. unfold St at 1, tp_step16_body. tpc. change (msg9_SIZE n) with z9. change hdr_SIZE with 111.
    assert (Rb : rd (blocks (M9 W) n) (k * z9) z9 = Ok (M9 W k)) by (apply rd_blocks; assumption).
    rewrite getz_zmap by assumption. cbn [bind].
    assert (Zl : zlen (zmap (fun j => st W j 4 (n - 1)) n) = n) by (apply zlen_zmap; lia).
    unfold pk. erewrite (recv_h _ _ _ _ 9 (k + 1) 255 (sk W k) (st W k 5 0)); [|reflexivity| |exact Rb|lia|unfold is_byte; lia|apply byte_p; assumption|apply byte_255|apply (hww_p W HW)| |].
    2: { tpc. rewrite fill_get by lia. apply getz_zmap. assumption. }
    2: { tpc. apply (hg_5 W HW). assumption. }
    2: { tpc. apply (fill_upd (fun j => st W j 5 0)). lia. }
    cbn [bind negb Z.eqb]. tpc. change (msg9_SIZE n) with z9. change hdr_SIZE with 111.
    destruct (rd_sub _ _ _ _ off_len 4 Rb) as (fl & ->); [unfold off_len; lia|lia|unfold off_len; lia|]. cbn [bind].
    pose proof (body_mk S HS sid Hsid _ _ _ _ _ _ _ _ _ Rb) as Rd. apply rd_one in Rd. rewrite Rd. cbn [bind]. change (bz (zb 0)) with 0.
    destruct (Z.ltb_spec (u64 (of_le fl - 111)) 0) as [Hlt|_]; [pose proof (Z.mod_pos_bound (of_le fl - 111) (2 ^ 64) ltac:(lia)); unfold u64 in Hlt; lia|].
    change (zrange 0 (Z.to_nat 0)) with (@nil Z). cbn [loopM bind]. tpc. change (msg9_SIZE n) with z9. rewrite Rb. cbn [bind].
    destruct (bfill_open z9 (M9 W) n k r) as (junk & post & H1 & H2 & H3 & H4); [lia|lia|assumption|assumption|].
    rewrite H2, app_assoc, wr_mid; [|rewrite zlen_app; lia|rewrite Z9 by assumption; assumption]. cbn [bind]. do 2 f_equal. unfold St. tpc. rewrite <- app_assoc, <- H3.
    replace (111 + (k + 1) * z9) with (111 + k * z9 + z9) by lia. reflexivity. }
  unfold St in L at 1. rewrite !fill_0, bfill_0, Z.mul_0_l, Z.add_0_r in L.
  change (tp_complaints_set (mkt W 6 5 (zmap (fun j => st W j 4 (n - 1)) n) (zmap (pk W) n) (zmap (coms W) n) (net5 W) (tr2 W)) []) with (mkt W 6 5 (zmap (fun j => st W j 4 (n - 1)) n) (zmap (pk W) n) (zmap (coms W) n) (net5 W) (tr2 W)).
  rewrite L. cbn [bind]. unfold St. tpc. change (zlen (@nil cheater)) with 0. change (zlen (@nil Z)) with 0.
  destruct (Z.leb_spec (t * t) 0) as [Hc|_]; [nia|]. change (0 <? 0) with false. cbv iota.
  rewrite (bfill_full z9) by lia.
  pose proof (send_mk S HS sid Hsid [] h (blocks (M9 W) n) [] 0 (zlen (h ++ blocks (M9 W) n)) 10 0 255 (wtsk W) (e_s (E 6) 0) eq_refl Hh) as Es.
  rewrite !app_nil_r in Es. cbn [app] in Es. rewrite Es; [|rewrite zlen_app; lia|apply (hww_e W HW)]. cbn [bind]. tpc. change (zlen (@nil Z) =? 0) with true. cbv iota.
  rewrite !fill_full by (try apply zlen_zmap; lia). reflexivity.
Qed.

Lemma next_T7 : tp_next C (E 8) (T7 W) (blocks (M19 W) n) (tbuf 8 (tp_output_size (T7 W))) = Ok (0, T8 W, B20 W).
Proof.
  pose proof Hn as Hn. rewrite tp_next_8 by reflexivity. unfold tp_step20. set (out := tbuf _ _).
  assert (Ho : zlen out = 113) by (unfold out; change (tp_output_size (T7 W)) with 113; rewrite z_tbuf; lia).
  clearbody out. unfold T7. tpc. change msg19_SIZE with 143. change msg20_SIZE with 113. change hdr_SIZE with 111.
  rewrite (zlen_blocks _ 143), Ho by (try lia; intros; apply z_M19). rewrite (Z.mul_comm 143), !Z.eqb_refl. cbn [negb].
  destruct (split_hdr out 2 ltac:(lia) Ho) as (h & r & -> & Hh & Hr).
  pose proof (wr_mid h r [] str_OK 111 Hh Hr) as Ew. rewrite !app_nil_r in Ew. rewrite Ew. cbn [bind]. clear Ew.
  set (hash := blake2b (cH C) 32 (tr3 W)).
  pose (St := fun k => (mkt W 8 6 (fill (fun j => st W j 8 0) k (zmap (fun j => st W j 5 0) n)) (zmap (pk W) n) (zmap (coms W) n) (net5 W) (tr3 W), h ++ str_OK)).
  assert (L : loopM (tp_step20_body C (E 8) (blocks (M19 W) n) hash) (zrange 0 (Z.to_nat n)) (St 0) = Ok (Next (St n))).
  { apply (loopM_fun0 _ St); [lia|]. intros k Hk. unfold St at 1, tp_step20_body. tpc. change msg19_SIZE with 143. change hdr_SIZE with 111.
    assert (Rb : rd (blocks (M19 W) n) (k * 143) 143 = Ok (M19 W k)) by (apply rd_blocks; [assumption|intros; apply z_M19]).
    rewrite getz_zmap by assumption. cbn [bind].
    assert (Zl : zlen (zmap (fun j => st W j 5 0) n) = n) by (apply zlen_zmap; lia).
    unfold pk. erewrite (recv_h _ _ _ _ 20 (k + 1) 0 (sk W k) (st W k 8 0)); [|reflexivity| |exact Rb|lia|unfold is_byte; lia|apply byte_p; assumption|apply byte_0|apply (hww_p W HW)| |].
    2: { tpc. rewrite fill_get by lia. apply getz_zmap. assumption. }
    2: { tpc. apply (hg_8 W HW). assumption. }
    2: { tpc. apply (fill_upd (fun j => st W j 8 0)). lia. }
    cbn [bind negb Z.eqb]. tpc.
    pose proof (body_mk S HS sid Hsid _ _ _ _ _ _ _ _ _ Rb) as Rd. rewrite z_hash in Rd. rewrite Rd. cbn [bind]. fold hash. rewrite bytes_eqb_refl. cbn [negb]. reflexivity. }
  unfold St in L at 1. rewrite !fill_0 in L. rewrite L. cbn [bind]. unfold St. tpc. change (zlen (@nil cheater) =? 0) with true. cbv iota.
  pose proof (send_mk S HS sid Hsid [] h str_OK [] 0 (zlen (h ++ str_OK)) 21 0 255 (wtsk W) (e_s (E 8) 0) eq_refl Hh) as Es.
  rewrite !app_nil_r in Es. cbn [app] in Es. rewrite Es; [|rewrite zlen_app; lia|apply (hww_e W HW)]. cbn [bind]. unfold tp_finish_step. cbn [bind Z.eqb]. tpc.
  rewrite !fill_full by (try apply zlen_zmap; lia). reflexivity.
Qed.

Lemma next_T8 : tp_next C (E 9) (T8 W) (blocks (M21 W) n) (tbuf 9 (tp_output_size (T8 W))) = Ok (0, T9 W, []).
Proof.
  pose proof Hn as Hn. rewrite tp_next_9 by reflexivity. unfold tp_step22. set (out := tbuf _ _).
  assert (Ho : zlen out = 0) by (unfold out; change (tp_output_size (T8 W)) with 0; rewrite z_tbuf; lia).
  assert (On : out = []) by (destruct out; [reflexivity|unfold zlen in Ho; cbn [length] in Ho; lia]). rewrite On. clear Ho On out.
  unfold T8. tpc. change msg21_SIZE with 113. change hdr_SIZE with 111.
  rewrite (zlen_blocks _ 113) by (try lia; intros; apply z_M21). rewrite (Z.mul_comm 113), !Z.eqb_refl. change (zlen (@nil byte) =? 0) with true. cbn [negb].
  pose (St := fun k => mkt W 9 8 (fill (fun j => st W j 9 0) k (zmap (fun j => st W j 8 0) n)) (zmap (pk W) n) (zmap (coms W) n) (net5 W) (tr3 W)).
  assert (L : loopM (tp_step22_body C (E 9) (blocks (M21 W) n)) (zrange 0 (Z.to_nat n)) (St 0) = Ok (Next (St n))).
  { apply (loopM_fun0 _ St); [lia|]. intros k Hk. unfold St at 1, tp_step22_body. tpc. change msg21_SIZE with 113. change hdr_SIZE with 111.
    assert (Rb : rd (blocks (M21 W) n) (k * 113) 113 = Ok (M21 W k)) by (apply rd_blocks; [assumption|intros; apply z_M21]).
    rewrite getz_zmap by assumption. cbn [bind].
    assert (Zl : zlen (zmap (fun j => st W j 8 0) n) = n) by (apply zlen_zmap; lia).
    unfold pk. erewrite (recv_h _ _ _ _ 22 (k + 1) 0 (sk W k) (st W k 9 0)); [|reflexivity| |exact Rb|lia|unfold is_byte; lia|apply byte_p; assumption|apply byte_0|apply (hww_p W HW)| |].
    2: { tpc. rewrite fill_get by lia. apply getz_zmap. assumption. }
    2: { tpc. apply (hg_9 W HW). assumption. }
    2: { tpc. apply (fill_upd (fun j => st W j 9 0)). lia. }
    cbn [bind negb Z.eqb]. pose proof (body_mk S HS sid Hsid _ _ _ _ _ _ _ _ _ Rb) as Rd. change (zlen str_OK) with 2 in Rd. rewrite Rd. reflexivity. }
  unfold St in L at 1. rewrite !fill_0 in L. rewrite L. cbn [bind]. unfold St. tpc. change (0 <? zlen (@nil cheater)) with false. cbv iota.
  unfold tp_finish_step. cbn [bind Z.eqb]. tpc. rewrite !fill_full by (try apply zlen_zmap; lia). reflexivity.
Qed.
End HTP.
