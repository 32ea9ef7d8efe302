(** The honest run, part 3: every step of a peer. *)
From Coq Require Import ZArith Lia List Bool.
From Coq.Strings Require Import Byte.
From Verif Require Import PrimeL Bytes Res Mem Sodium ToprfModel ToprfSpec DkgModel DkgSpec DkgProofs WireModel WireSpec WireProofs TpCrypto TpModel PeerModel
  TpFrame PeerFrame TpRun TpSpec TpMsg TpContent TpControl RunSpec HonestMsg HonestState HonestTp.
Import ListNotations.
Open Scope list_scope.
Open Scope Z_scope.

Lemma share_of_bytes s : is_byte (s_index s) -> 0 <= s_value s < L -> share_of (share_bytes s) = s.
Proof.
  destruct s as [i v]. cbn [s_index s_value]. intros Hi Hv. unfold share_of, share_bytes. cbn [s_index s_value]. f_equal.
  - rewrite bz_zb. apply Z.mod_small. exact Hi.
  - rewrite of_le_le_bytes. apply Z.mod_small. pose proof L_lt_2_255 as HL. change (256 ^ Z.of_nat 32) with (2 ^ 256). assert (2 ^ 255 < 2 ^ 256) by reflexivity. lia.
Qed.

Section HPEER.
Variable W : world.
Hypothesis HW : world_ok W.
Notation C := (wC W).
Notation S := (cS (wC W)).
Notation N := (cN (wC W)).
Notation w := (wW W).
Notation n := (wn W).
Notation t := (wt W).
Notation sid := (wsid W).
Notation E := (s_tp (wW W)).
Notation Q := (s_peer (wW W)).

Let HS := HS W HW.
Let Hsid := Hsid W HW.
Let Hn := Hn W HW.

Definition pbuf i s k := s_buf w (i + 1) s k.
Lemma z_pbuf i s k : 0 <= k -> zlen (pbuf i s k) = k.
Proof. apply (ww_out W HW). Qed.

Lemma precv_h c buf off len msgno from to j ts body i now last : p_sid C c = sid -> getz (p_last C c) i = Ok last ->
  rd buf off len = Ok (mk W (sk W j) msgno from to ts body) -> len < 2 ^ 32 -> is_byte msgno -> is_byte from -> is_byte to -> is_u64 ts ->
  fresh (p_eps C c) last ts now -> forall l, updz (p_last C c) i ts = Ok l ->
  peer_recv C c buf off len msgno from to (pk W j) i now = Ok (0, peer_last_set C c l).
Proof.
  intros Hs Hg Hr Hl H1 H2 H3 H4 Hf l Hu. unfold peer_recv, pk. rewrite Hg. cbn [bind]. rewrite Hs.
  rewrite (recv_mk S HS sid Hsid _ _ _ _ _ _ _ _ _ _ _ _ Hr Hl H1 H2 H3 H4 Hf). cbn [bind]. rewrite Hu. reflexivity.
Qed.
Lemma precv_tp_h c buf len msgno to ts body now : p_sid C c = sid -> p_tp_pk C c = tpk W ->
  buf = mk W (wtsk W) msgno 0 to ts body -> zlen buf = len -> len < 2 ^ 32 -> is_byte msgno -> is_byte to -> is_u64 ts ->
  fresh (p_eps C c) (p_tp_last C c) ts now ->
  peer_recv_tp C c buf 0 len msgno to now = Ok (0, peer_tp_last_set C c ts).
Proof.
  intros Hs Hg Hr Hz Hl H1 H3 H4 Hf. unfold peer_recv_tp. rewrite Hs, Hg. unfold tpk.
  erewrite (recv_mk S HS sid Hsid); [reflexivity| | | |apply byte_0| | |]; try eassumption. subst buf. apply rd_all. assumption.
Qed.
Lemma to_mk k msgno from to ts body : getz (mk W k msgno from to ts body) off_to = Ok (zb to).
Proof.
  unfold mk, mk_msg, message. cbn zeta. set (h := header _ _ _ _ _ _) at 1. assert (Zs : zlen (sig_sign S k h) = 64) by (apply (sig_zlen S HS)).
  revert Zs. generalize (sig_sign S k h). intros g Zs. unfold header.
  replace (g ++ ([zb msgno] ++ be_bytes 4 (111 + zlen body) ++ [zb from] ++ [zb to] ++ be_bytes 8 ts ++ sid) ++ body)
    with ((g ++ [zb msgno] ++ be_bytes 4 (111 + zlen body) ++ [zb from]) ++ zb to :: (be_bytes 8 ts ++ sid ++ body)).
  - apply getz_mid. rewrite !zlen_app, Zs. unfold zlen. rewrite be_bytes_length. reflexivity.
  - rewrite <- !app_assoc. reflexivity.
Qed.

Ltac ppc := cbn [p_step p_prev p_sid p_n p_t p_index p_lt_sk p_sk p_noise_sk p_tp_pk p_tp_last p_last p_eps p_pks p_npks p_dev p_outs p_ins p_com p_shares p_xshares
  p_complaints p_cmax p_my p_mymax p_transcript p_share mkp mkq mkz
  peer_step_set peer_tp_last_set peer_last_set peer_keys_set peer_dev_set peer_pk_set peer_outs_set peer_ins_set peer_com_set peer_shares_set peer_xshares_set
  peer_complaints_set peer_my_set peer_transcript_set peer_share_set].

Ltac useloop L := match type of L with loopM ?f ?z ?s = _ => match goal with |- context [loopM f z ?s'] => change s' with s; rewrite L end end.

Lemma next_P0 i : 0 <= i < n -> peer_next C (Q i 0) (P0 W i) (M1 W i) (pbuf i 0 (peer_output_size C (P0 W i))) = Ok (0, P1 W i, M2s W i).
Proof.
  intros Hi. pose proof Hn as Hn'. rewrite peer_next_0 by reflexivity. unfold peer_step23. set (out := pbuf _ _ _).
  assert (Ho : zlen out = 239) by (unfold out; change (peer_output_size C (P0 W i)) with 239; rewrite z_pbuf; lia). clearbody out.
  rewrite (z_M1 W HW), Ho. change (negb (111 =? msg1_SIZE)) with false. change (negb (239 =? msg2_SIZE + sign_BYTES)) with false. cbv iota.
  unfold M1 at 1. rewrite to_mk. cbn [bind]. rewrite bz_zb, (Z.mod_small (i + 1)) by lia.
  rewrite (precv_tp_h _ _ msg1_SIZE 1 (i + 1) (e_s (E 0) (i + 1)) []); [|reflexivity|reflexivity|reflexivity|apply (z_M1 W HW)|reflexivity|unfold is_byte; lia|unfold is_byte; lia|apply (ww_e W HW)|apply (f_tp0 W HW); assumption].
  cbn [bind Z.eqb negb]. destruct (Z.ltb_spec 128 (i + 1)); [lia|]. destruct (Z.ltb_spec (i + 1) 1); [lia|]. cbn [orb].
  change (hdr_SIZE + 32) with 143. change hdr_SIZE with 111. change msg2_SIZE with 175.
  destruct (split_hdr out 128 ltac:(lia) Ho) as (h & r & -> & Hh & Hr).
  assert (Er : exists r1 r2 r3, r = r1 ++ r2 ++ r3 /\ zlen r1 = 32 /\ zlen r2 = 32 /\ zlen r3 = 64).
  { exists (firstn 32 r), (firstn 32 (skipn 32 r)), (skipn 64 r). split; [|unfold zlen in *; rewrite !firstn_length, !skipn_length; lia].
    rewrite <- (firstn_skipn 32 r) at 1. f_equal. rewrite <- (firstn_skipn 32 (skipn 32 r)) at 1. f_equal. rewrite skipn_skipn. reflexivity. }
  destruct Er as (r1 & r2 & r3 & -> & Z1 & Z2 & Z3).
  change (pe_sk (Q i 0)) with (sk W i). change (pe_nsk (Q i 0)) with (nsk W i). fold (pk W i) (npk W i).
  assert (Zk : zlen (pk W i) = 32) by (apply (z_pk W HW)). assert (Zk2 : zlen (npk W i) = 32) by (apply (z_npk W HW)).
  rewrite (wr_mid h r1 (r2 ++ r3)) by lia. cbn [bind]. rewrite (app_assoc h), (wr_mid (h ++ pk W i) r2 r3) by (try rewrite zlen_app; lia). cbn [bind].
  change (p_sid C (peer_tp_last_set C (P0 W i) (e_s (E 0) (i + 1)))) with sid.
  pose proof (send_mk S HS sid Hsid [] h (pk W i ++ npk W i) r3 0 175 2 (i + 1) 255 (sk W i) (pe_s (Q i 0) 0) eq_refl Hh) as Es. cbn [app] in Es.
  rewrite <- !app_assoc in Es. rewrite <- app_assoc. rewrite Es; [|rewrite zlen_app; lia|apply (ww_p W HW)]. cbn [bind]. fold (st W i 0 0). 
  change (mk_msg S sid (sk W i) 2 (i + 1) 255 (st W i 0 0) (pk W i ++ npk W i)) with (M2 W i).
  rewrite (rd_first (M2 W i) r3) by (apply (z_M2 W HW)). cbn [bind].
  change (p_lt_sk C (peer_tp_last_set C (P0 W i) (e_s (E 0) (i + 1)))) with (wlt W i).
  pose proof (wr_mid (M2 W i) r3 [] (sig_sign S (wlt W i) (M2 W i)) 175) as Ew. rewrite !app_nil_r in Ew. rewrite Ew; [|apply (z_M2 W HW)|rewrite (sig_zlen S HS); assumption].
  cbn [bind]. reflexivity.
Qed.

Lemma rd_part (b : bytes) off len m o k : rd b 111 len = Ok m -> off = 111 + o -> 0 <= o -> 0 <= k -> o + k <= len -> rd b off k = rd m o k.
Proof. intros H -> A B D. symmetry. apply (rd_rd _ _ _ _ _ _ H); assumption. Qed.

Lemma next_P1 i : 0 <= i < n -> peer_next C (Q i 1) (P1 W i) (B3 W) (pbuf i 1 (peer_output_size C (P1 W i))) = Ok (0, P2 W i, blocks (M4 W i) n).
Proof.
  intros Hi. pose proof Hn as Hn'. rewrite peer_next_1 by reflexivity. unfold peer_step5. set (out := pbuf _ _ _).
  assert (Ho : zlen out = n * 159) by (unfold out; change (peer_output_size C (P1 W i)) with (159 * n); rewrite z_pbuf; lia). clearbody out.
  rewrite Ho, (z_B3 W HW). change (p_n C (P1 W i)) with n. change msg2_SIZE with 175. change msg4_SIZE with 159. change hdr_SIZE with 111.
  rewrite (Z.mul_comm 159). replace (175 * n + 111) with (111 + n * 175) by lia. rewrite !Z.eqb_refl. cbn [negb].
  assert (RB : rd (B3 W) 0 (111 + n * 175) = Ok (B3 W)) by (apply rd_all; apply (z_B3 W HW)).
  rewrite (precv_tp_h _ _ (111 + n * 175) 3 255 (e_s (E 1) 0) (blocks (M2 W) n)); [|reflexivity|reflexivity|reflexivity|apply (z_B3 W HW)|lia|unfold is_byte; lia|apply byte_255|apply (ww_e W HW)|apply (f_tp1 W HW); assumption].
  cbn [bind Z.eqb negb]. change (p_n C (peer_dev_set C _ _)) with n. unfold P1. ppc. rewrite (d_0 W HW) by assumption.
  pose proof (body_mk S HS sid Hsid _ _ _ _ _ _ _ _ _ RB) as Rb. rewrite (zlen_blocks _ 175) in Rb by (try lia; intros; apply (z_M2 W HW)). cbn [Z.add] in Rb.
  destruct (ww_B W HW i Hi) as (ZB1 & ZB2 & ZB3 & ZB4 & ZB5 & ZB6 & ZB7).
  pose (St := fun k => (mkp W i 1 0 (i + 1) (zeros 64) (sk W i) (nsk W i) (e_s (E 1) 0) (fill (fun j => st W j 0 0) k (zeroes W)) (fill (pk W) k (b_pks _ (b W i))) (fill (npk W) k (b_npks _ (b W i)))
    (Some (wdv W i k)) (fill (fun j => Live (l_o1 _ (lk W i j))) k (b_outs _ (b W i))) (b_ins _ (b W i)) (b_com _ (b W i)) (b_shares _ (b W i)) (b_xshares _ (b W i)) (tr1 W) (wsh0 W i),
    bfill 159 (M4 W i) k out)).
  assert (Zl : zlen (zeroes W) = n) by (apply zlen_zmap; lia).
  assert (L : loopM (peer_step5_body C (Q i 1) (B3 W)) (zrange 0 (Z.to_nat n)) (St 0) = Ok (Next (St n))).
  { apply (loopM_fun0 _ St); [lia|]. intros k Hk. unfold St at 1, peer_step5_body. change msg2_SIZE with 175. change msg4_SIZE with 159. change hdr_SIZE with 111.
    assert (R2 : rd (B3 W) (111 + k * 175) 175 = Ok (M2 W k)).
    { rewrite (rd_part _ _ _ _ (k * 175) 175 Rb) by lia. apply rd_blocks; [assumption|intros; apply (z_M2 W HW)]. }
    assert (Zk : zlen (pk W k) = 32) by (apply (z_pk W HW)). assert (Zk2 : zlen (npk W k) = 32) by (apply (z_npk W HW)).
    assert (R3 : rd (B3 W) (111 + k * 175 + 111) 32 = Ok (pk W k)).
    { eapply (part_mk S HS sid Hsid _ _ _ _ _ _ _ _ [] (pk W k) (npk W k)); [exact R2|change (zlen (@nil byte)) with 0; lia|lia]. }
    assert (R4 : rd (B3 W) (111 + k * 175 + 111 + 32) 32 = Ok (npk W k)).
    { eapply (part_mk S HS sid Hsid _ _ _ _ _ _ _ _ (pk W k) (npk W k) []); [rewrite app_nil_r; exact R2|lia|lia]. }
    rewrite R3. cbn [bind].
    erewrite (precv_h _ _ _ _ 2 (k + 1) 255 k (st W k 0 0)); [|reflexivity| |exact R2|lia|unfold is_byte; lia|unfold is_byte; lia|apply byte_255|apply (ww_p W HW)| |].
    2: { ppc. rewrite fill_get by lia. unfold zeroes. apply getz_zmap. assumption. }
    2: { ppc. apply (k_0 W HW); assumption. }
    2: { ppc. apply (fill_upd (fun j => st W j 0 0)). lia. }
    cbn [bind negb Z.eqb]. ppc. rewrite fill_upd by lia. cbn [bind]. rewrite R4. cbn [bind]. rewrite fill_upd by lia. cbn [bind of_opt]. rewrite fill_get by lia.
    destruct (getz_some (b_outs _ (b W i)) k ltac:(lia)) as (sl & ->). cbn [bind]. rewrite (c_init W HW) by assumption. cbn [bind].
    rewrite (fill_upd (fun j => Live (l_o1 _ (lk W i j)))) by lia. cbn [bind].
    destruct (bfill_open 159 (M4 W i) n k out) as (junk & post & H1 & H2 & H3 & H4); [lia|lia|assumption|intros; apply (z_M4 W HW); assumption|].
    rewrite H2. pose proof (put_mk S HS sid Hsid (blocks (M4 W i) k) junk post (k * 159) 159 4 (i + 1) (k + 1) (sk W i) (st W i 1 k) (l_m1 _ (lk W i k)) H4 H1) as Ep.
    unfold bind at 1 in Ep. unfold bind at 1. destruct (wr (blocks (M4 W i) k ++ junk ++ post) (k * 159 + 111) (l_m1 C (lk W i k))) as [o1|] eqn:Ew; [|exfalso].
    - fold (st W i 1 k). rewrite Ep; [|rewrite (c_m1 W HW) by assumption; reflexivity|apply (ww_p W HW)]. cbn [bind]. do 2 f_equal. unfold St. rewrite H3. reflexivity.
    - rewrite (c_m1 W HW) in Ep by assumption. specialize (Ep eq_refl (ww_p W HW _ _ _)). discriminate. }
  unfold St in L at 1. rewrite !fill_0, bfill_0 in L. useloop L. cbn [bind done]. unfold St. unfold peer_finish_step. cbn [bind Z.eqb].
  rewrite !fill_full by assumption. rewrite (bfill_full 159) by lia. reflexivity.
Qed.

(** writing the body of a message and then its header *)
Lemma put_h pre junk post off len msgno from to k now body : zlen pre = off -> zlen junk = len -> len = 111 + zlen body -> is_u64 now ->
  exists o, wr (pre ++ junk ++ post) (off + 111) body = Ok o /\ send_msg S o off len msgno from to k sid now = Ok (pre ++ mk W k msgno from to now body ++ post).
Proof.
  intros H1 H2 H3 H4. pose proof (put_mk S HS sid Hsid pre junk post off len msgno from to k now body H1 H2 H3 H4) as Ep.
  destruct (wr (pre ++ junk ++ post) (off + 111) body) as [o|]; [|discriminate]. exists o. split; [reflexivity|exact Ep].
Qed.
Lemma put_block f sz k old off len msgno from to key now body : 0 <= k < n -> 0 <= sz -> zlen old = n * sz -> (forall i, 0 <= i < n -> zlen (f i) = sz) ->
  f k = mk W key msgno from to now body -> off = k * sz -> len = sz -> sz = 111 + zlen body -> is_u64 now ->
  exists o, wr (bfill sz f k old) (off + 111) body = Ok o /\ send_msg S o off len msgno from to key sid now = Ok (bfill sz f (k + 1) old).
Proof.
  intros Hk Hs Ho Hf Hm -> -> Hb Hu. destruct (bfill_open sz f n k old Hk Hs Ho Hf) as (junk & post & H1 & H2 & H3 & H4). rewrite H2, H3, Hm. apply put_h; assumption.
Qed.
(** the same for a body written in three parts *)
Lemma put_block3 f sz k old off len msgno from to key now b1 b2 b3 o2 o3 : 0 <= k < n -> 0 <= sz -> zlen old = n * sz -> (forall i, 0 <= i < n -> zlen (f i) = sz) ->
  f k = mk W key msgno from to now (b1 ++ b2 ++ b3) -> off = k * sz -> len = sz -> sz = 111 + zlen b1 + zlen b2 + zlen b3 -> is_u64 now ->
  o2 = off + 111 + zlen b1 -> o3 = off + 111 + zlen b1 + zlen b2 ->
  exists x1 x2 x3, wr (bfill sz f k old) (off + 111) b1 = Ok x1 /\ wr x1 o2 b2 = Ok x2 /\ wr x2 o3 b3 = Ok x3 /\
    send_msg S x3 off len msgno from to key sid now = Ok (bfill sz f (k + 1) old).
Proof.
  intros Hk Hs Ho Hf Hm -> -> Hb Hu -> ->. destruct (bfill_open sz f n k old Hk Hs Ho Hf) as (junk & post & H1 & H2 & H3 & H4). rewrite H2, H3, Hm.
  assert (Ej : exists j0 j1 j2 j3, junk = j0 ++ j1 ++ j2 ++ j3 /\ zlen j0 = 111 /\ zlen j1 = zlen b1 /\ zlen j2 = zlen b2 /\ zlen j3 = zlen b3).
  { exists (firstn 111 junk), (firstn (length b1) (skipn 111 junk)), (firstn (length b2) (skipn (length b1) (skipn 111 junk))), (skipn (length b2) (skipn (length b1) (skipn 111 junk))).
    split; [rewrite !firstn_skipn; reflexivity|]. unfold zlen in *. rewrite !firstn_length, !skipn_length. lia. }
  destruct Ej as (j0 & j1 & j2 & j3 & -> & Z0 & Z1 & Z2 & Z3). set (pre := blocks f k) in *.
  exists (pre ++ j0 ++ b1 ++ j2 ++ j3 ++ post), (pre ++ j0 ++ b1 ++ b2 ++ j3 ++ post), (pre ++ j0 ++ (b1 ++ b2 ++ b3) ++ post). split; [|split; [|split]].
  - rewrite <- !app_assoc, !(app_assoc pre j0). apply wr_mid; [rewrite zlen_app; lia|lia].
  - replace (pre ++ j0 ++ b1 ++ j2 ++ j3 ++ post) with ((pre ++ j0 ++ b1) ++ j2 ++ j3 ++ post) by (rewrite <- !app_assoc; reflexivity).
    replace (pre ++ j0 ++ b1 ++ b2 ++ j3 ++ post) with ((pre ++ j0 ++ b1) ++ b2 ++ j3 ++ post) by (rewrite <- !app_assoc; reflexivity).
    apply wr_mid; [rewrite !zlen_app; lia|lia].
  - replace (pre ++ j0 ++ b1 ++ b2 ++ j3 ++ post) with ((pre ++ j0 ++ b1 ++ b2) ++ j3 ++ post) by (rewrite <- !app_assoc; reflexivity).
    replace (pre ++ j0 ++ (b1 ++ b2 ++ b3) ++ post) with ((pre ++ j0 ++ b1 ++ b2) ++ b3 ++ post) by (rewrite <- !app_assoc; reflexivity).
    apply wr_mid; [rewrite !zlen_app; lia|lia].
  - apply (send_mk S HS sid Hsid pre j0 (b1 ++ b2 ++ b3) post); [assumption|assumption|rewrite !zlen_app; lia|assumption].
Qed.
(** a single message *)
Lemma put_one out len msgno from to key now body : zlen out = len -> len = 111 + zlen body -> is_u64 now ->
  exists o, wr out 111 body = Ok o /\ send_msg S o 0 len msgno from to key sid now = Ok (mk W key msgno from to now body).
Proof.
  intros H1 H2 H3. destruct (put_h [] out [] 0 len msgno from to key now body eq_refl H1 H2 H3) as (o & A & B). rewrite !app_nil_r in *. cbn [app] in *. exists o. split; assumption.
Qed.

Lemma next_P2 i : 0 <= i < n ->
  peer_next C (Q i 2) (P2 W i) (blocks (fun j => M4 W j i) n) (pbuf i 2 (peer_output_size C (P2 W i))) = Ok (0, P3 W i, blocks (M5 W i) n).
Proof.
  intros Hi. pose proof Hn as Hn'. rewrite peer_next_2 by reflexivity. unfold peer_step7. set (out := pbuf _ _ _).
  assert (Ho : zlen out = n * 159) by (unfold out; change (peer_output_size C (P2 W i)) with (159 * n); rewrite z_pbuf; lia). clearbody out.
  assert (ZM : forall j, 0 <= j < n -> zlen (M4 W j i) = 159) by (intros; apply (z_M4 W HW); assumption).
  rewrite Ho, (zlen_blocks _ 159) by (try lia; assumption). change (p_n C (P2 W i)) with n. change msg4_SIZE with 159. change msg5_SIZE with 159. 
  rewrite (Z.mul_comm 159), !Z.eqb_refl. cbn [negb].
  destruct (ww_B W HW i Hi) as (ZB1 & ZB2 & ZB3 & ZB4 & ZB5 & ZB6 & ZB7).
  pose (St := fun k => (mkq W i 2 1 (e_s (E 1) 0) (fill (fun j => st W j 1 i) k (zmap (fun j => st W j 0 0) n)) (zmap (fun j => Live (l_o1 _ (lk W i j))) n)
    (fill (fun j => Live (l_r2 _ (lk W j i))) k (b_ins _ (b W i))) (b_com _ (b W i)) (b_shares _ (b W i)) (b_xshares _ (b W i)) (tr1 W) (wsh0 W i), bfill 159 (M5 W i) k out)).
  assert (Zl : zlen (zmap (fun j => st W j 0 0) n) = n) by (apply zlen_zmap; lia).
  assert (L : loopM (peer_step7_body C (Q i 2) (blocks (fun j => M4 W j i) n)) (zrange 0 (Z.to_nat n)) (St 0) = Ok (Next (St n))).
  { apply (loopM_fun0 _ St); [lia|]. intros k Hk. unfold St at 1, peer_step7_body. change msg5_SIZE with 159. change msg4_SIZE with 159. change hdr_SIZE with 111. change hs1_SIZE with 48.
    pose proof (rd_blocks (fun j => M4 W j i) 159 n k Hk ZM) as R. cbv beta in R.
    ppc. rewrite getz_zmap by assumption. cbn [bind].
    erewrite (precv_h _ _ _ _ 4 (k + 1) (i + 1) k (st W k 1 i)); [|reflexivity| |exact R|lia|unfold is_byte; lia|unfold is_byte; lia|unfold is_byte; lia|apply (ww_p W HW)| |].
    2: { ppc. rewrite fill_get by lia. apply getz_zmap. assumption. }
    2: { ppc. apply (k_1 W HW); assumption. }
    2: { ppc. apply (fill_upd (fun j => st W j 1 i)). lia. }
    cbn [bind negb Z.eqb]. ppc. cbn [of_opt bind].
    pose proof (body_mk S HS sid Hsid _ _ _ _ _ _ _ _ _ R) as Rb. unfold lk in Rb. rewrite (c_m1 W HW) in Rb by assumption. rewrite Rb. cbn [bind].
    rewrite (c_resp W HW) by assumption. rewrite (fill_upd (fun j => Live (l_r2 _ (lk W j i)))) by lia. cbn [bind].
    edestruct (put_block (M5 W i) 159 k out (k * 159) 159 5 (i + 1) (k + 1) (sk W i) (st W i 2 k)) as (o & -> & Es); try reflexivity; try assumption; try lia.
    { intros; apply (z_M5 W HW); assumption. } { unfold lk. rewrite (c_m2 W HW) by assumption. reflexivity. } { apply (ww_p W HW). }
    cbn [bind]. ppc. fold (st W i 2 k). rewrite Es. reflexivity. }
  unfold St in L at 1. rewrite !fill_0, bfill_0 in L. useloop L. cbn [bind done]. unfold St. unfold peer_finish_step. cbn [bind Z.eqb].
  rewrite !fill_full by assumption. rewrite (bfill_full 159) by lia. reflexivity.
Qed.

Lemma shares_zmap i : shares_of (co W i) n = zmap (sh W i) n.
Proof.
  unfold shares_of, zmap, zrange. rewrite map_map. rewrite <- seq_shift, !map_map. apply map_ext. intros k. unfold sh. 
  replace (Z.of_nat (Datatypes.S k)) with (0 + Z.of_nat k + 1) by lia. reflexivity.
Qed.

Lemma next_P3 i : 0 <= i < n ->
  peer_next C (Q i 3) (P3 W i) (blocks (fun j => M5 W j i) n) (pbuf i 3 (peer_output_size C (P3 W i))) = Ok (0, P4 W i, M6 W i).
Proof.
  intros Hi. pose proof Hn as Hn'. rewrite peer_next_3 by reflexivity. unfold peer_step911. set (out := pbuf _ _ _).
  assert (Ho : zlen out = 111 + 32 * t) by (unfold out; change (peer_output_size C (P3 W i)) with (111 + 32 * t); rewrite z_pbuf; lia). clearbody out.
  assert (ZM : forall j, 0 <= j < n -> zlen (M5 W j i) = 159) by (intros; apply (z_M5 W HW); assumption).
  rewrite Ho, (zlen_blocks _ 159) by (try lia; assumption). change (p_n C (P3 W i)) with n. change (msg6_SIZE (p_t C (P3 W i))) with (111 + 32 * t). change msg5_SIZE with 159. 
  rewrite (Z.mul_comm 159), !Z.eqb_refl. cbn [negb].
  destruct (ww_B W HW i Hi) as (ZB1 & ZB2 & ZB3 & ZB4 & ZB5 & ZB6 & ZB7).
  pose (St := fun k => mkq W i 3 2 (e_s (E 1) 0) (fill (fun j => st W j 2 i) k (zmap (fun j => st W j 1 i) n)) 
    (fill (fun j => Live (l_o2 _ (lk W i j))) k (zmap (fun j => Live (l_o1 _ (lk W i j))) n))
    (zmap (fun j => Live (l_r2 _ (lk W j i))) n) (b_com _ (b W i)) (b_shares _ (b W i)) (b_xshares _ (b W i)) (tr1 W) (wsh0 W i)).
  assert (Zl : zlen (zmap (fun j => st W j 1 i) n) = n) by (apply zlen_zmap; lia).
  assert (Zl2 : zlen (zmap (fun j => Live (l_o1 _ (lk W i j))) n) = n) by (apply zlen_zmap; lia).
  assert (L : loopM (peer_step911_body C (Q i 3) (blocks (fun j => M5 W j i) n)) (zrange 0 (Z.to_nat n)) (St 0) = Ok (Next (St n))).
  { apply (loopM_fun0 _ St); [lia|]. intros k Hk. unfold St at 1, peer_step911_body. change msg5_SIZE with 159. change hdr_SIZE with 111. change hs2_SIZE with 48.
    pose proof (rd_blocks (fun j => M5 W j i) 159 n k Hk ZM) as R. cbv beta in R.
    ppc. rewrite getz_zmap by assumption. cbn [bind].
    erewrite (precv_h _ _ _ _ 5 (k + 1) (i + 1) k (st W k 2 i)); [|reflexivity| |exact R|lia|unfold is_byte; lia|unfold is_byte; lia|unfold is_byte; lia|apply (ww_p W HW)| |].
    2: { ppc. rewrite fill_get by lia. apply getz_zmap. assumption. }
    2: { ppc. apply (k_2 W HW); assumption. }
    2: { ppc. apply (fill_upd (fun j => st W j 2 i)). lia. }
    cbn [bind negb Z.eqb]. ppc.
    pose proof (body_mk S HS sid Hsid _ _ _ _ _ _ _ _ _ R) as Rb. unfold lk in Rb. rewrite (c_m2 W HW) in Rb by assumption. rewrite Rb. cbn [bind].
    rewrite fill_get by lia. rewrite getz_zmap by assumption. cbn [bind of_opt].
    rewrite (c_fin W HW) by assumption. cbn [bind]. rewrite (fill_upd (fun j => Live (l_o2 _ (lk W i j)))) by lia. reflexivity. }
  unfold St in L at 1. rewrite !fill_0 in L. useloop L. cbn [bind]. change (p_t C (St n)) with t. change (p_n C (St n)) with n. change hdr_SIZE with 111.
  destruct (split_hdr out (32 * t) ltac:(lia) Ho) as (h & r & Eo & Hh & Hr).
  assert (Rd : rd out 111 (32 * t) = Ok r) by (rewrite Eo; pose proof (rd_mid h r [] 111 (32 * t) Hh Hr) as X; rewrite app_nil_r in X; exact X).
  rewrite Rd. cbn [bind]. rewrite (ww_lock W HW) by assumption. destruct (ww_a W HW i Hi) as (Za & Fa).
  rewrite dkg_start_eq; [|lia|lia|exact Za| | |].
  2: { eapply Forall_impl; [|exact Fa]. unfold random_scalar. intros x Hx. lia. }
  2: { unfold rows. rewrite map_length, seq_length. lia. }
  2: { exact ZB5. }
  cbn [bind Z.eqb negb]. change (commitments_of (cR C) (pe_a (Q i 3))) with (coms W i).
  destruct (put_one out (111 + 32 * t) 6 (i + 1) 255 (sk W i) (st W i 3 0) (concat (coms W i))) as (o & Ew & Es); [assumption|rewrite (z_comdata W HW) by assumption; lia|apply (ww_p W HW)|].
  rewrite Ew. cbn [bind]. change (msg6_SIZE (p_t C (peer_shares_set C (St n) (shares_of (pe_a (Q i 3)) n)))) with (111 + 32 * t).
  change (send_msg S o 0 (111 + 32 * t) 6 (p_index C (peer_shares_set C (St n) (shares_of (pe_a (Q i 3)) n))) 255 (p_sk C (peer_shares_set C (St n) (shares_of (pe_a (Q i 3)) n)))
    (p_sid C (peer_shares_set C (St n) (shares_of (pe_a (Q i 3)) n))) (pe_s (Q i 3) 0)) with (send_msg S o 0 (111 + 32 * t) 6 (i + 1) 255 (sk W i) sid (st W i 3 0)).
  rewrite Es. cbn [bind]. unfold peer_finish_step. cbn [bind Z.eqb]. change (pe_a (Q i 3)) with (co W i). rewrite shares_zmap. unfold St. rewrite !fill_full by assumption. reflexivity.
Qed.

Lemma sh_range i j : 0 <= s_value (sh W i j) < L.
Proof. unfold sh. cbn [s_value]. apply Z.mod_pos_bound. reflexivity. Qed.

Lemma next_P4 i : 0 <= i < n -> peer_next C (Q i 4) (P4 W i) (B7 W) (pbuf i 4 (peer_output_size C (P4 W i))) = Ok (0, P5 W i, blocks (M8 W i) n).
Proof.
  intros Hi. pose proof Hn as Hn'. rewrite peer_next_4 by reflexivity. unfold peer_step13. set (out := pbuf _ _ _).
  assert (Ho : zlen out = n * 256) by (unfold out; change (peer_output_size C (P4 W i)) with (n * 256); rewrite z_pbuf; lia). clearbody out.
  set (z6 := 111 + 32 * t) in *. assert (Z6 : forall j, 0 <= j < n -> zlen (M6 W j) = z6) by (intros; apply (z_M6 W HW); assumption).
  rewrite Ho, (z_B7 W HW). change (p_n C (P4 W i)) with n. change (msg6_SIZE (p_t C (P4 W i))) with z6. change msg8_SIZE with 256. change hdr_SIZE with 111. fold z6.
  rewrite (Z.mul_comm z6), !Z.eqb_refl. cbn [negb].
  assert (RB : rd (B7 W) 0 (111 + n * z6) = Ok (B7 W)) by (apply rd_all; apply (z_B7 W HW)).
  rewrite (precv_tp_h _ _ (111 + n * z6) 7 255 (e_s (E 4) 0) (blocks (M6 W) n)); [|reflexivity|reflexivity|reflexivity|apply (z_B7 W HW)|unfold z6; nia|unfold is_byte; lia|apply byte_255|apply (ww_e W HW)|apply (f_tp4 W HW); assumption].
  cbn [bind Z.eqb negb]. change (p_n C (peer_transcript_set C _ _)) with n.
  pose proof (body_mk S HS sid Hsid _ _ _ _ _ _ _ _ _ RB) as Rb. rewrite (zlen_blocks _ z6) in Rb by (try lia; assumption). cbn [Z.add] in Rb.
  destruct (ww_B W HW i Hi) as (ZB1 & ZB2 & ZB3 & ZB4 & ZB5 & ZB6 & ZB7).
  pose (St := fun k => (mkq W i 4 3 (e_s (E 4) 0) (fill (fun j => st W j 3 0) k (zmap (fun j => st W j 2 i) n))
    (fill (fun j => Live (l_o4 _ (lk W i j))) k (zmap (fun j => Live (l_o2 _ (lk W i j))) n)) (zmap (fun j => Live (l_r2 _ (lk W j i))) n)
    (fill (coms W) k (b_com _ (b W i))) (zmap (sh W i) n) (b_xshares _ (b W i)) (tr2 W) (wsh0 W i),
    bfill 256 (M8 W i) k out)).
  assert (Zl : zlen (zmap (fun j => st W j 2 i) n) = n) by (apply zlen_zmap; lia).
  assert (Zl2 : zlen (zmap (fun j => Live (l_o2 _ (lk W i j))) n) = n) by (apply zlen_zmap; lia).
  assert (L : loopM (peer_step13_body C (Q i 4) (B7 W)) (zrange 0 (Z.to_nat n)) (St 0) = Ok (Next (St n))).
  { apply (loopM_fun0 _ St); [lia|]. intros k Hk. unfold St at 1, peer_step13_body. ppc. change (msg6_SIZE t) with z6. change msg8_SIZE with 256. change hs3_SIZE with 64. change share_SIZE with 33. change mac_SIZE with 16. change hdr_SIZE with 111.
    assert (Hkz : (k + 1) * z6 <= n * z6) by (unfold z6; nia). assert (Hkz0 : 0 <= k * z6) by (unfold z6; nia).
    assert (R2 : rd (B7 W) (111 + k * z6) z6 = Ok (M6 W k)).
    { rewrite (rd_part _ _ _ _ (k * z6) z6 Rb) by (unfold z6 in *; lia). apply rd_blocks; assumption. }
    rewrite getz_zmap by assumption. cbn [bind].
    erewrite (precv_h _ _ _ _ 6 (k + 1) 255 k (st W k 3 0)); [|reflexivity| |exact R2|unfold z6; lia|unfold is_byte; lia|unfold is_byte; lia|apply byte_255|apply (ww_p W HW)| |].
    2: { ppc. rewrite fill_get by lia. apply getz_zmap. assumption. }
    2: { ppc. apply (k_3 W HW); assumption. }
    2: { ppc. apply (fill_upd (fun j => st W j 3 0)). lia. }
    cbn [bind negb Z.eqb]. ppc. pose proof (body_mk S HS sid Hsid _ _ _ _ _ _ _ _ _ R2) as Rd. rewrite (z_comdata W HW) in Rd by assumption. rewrite Rd. cbn [bind]. rewrite (rows_coms W HW) by assumption.
    rewrite fill_upd by lia. cbn [bind]. ppc. rewrite fill_get by lia. rewrite getz_zmap by assumption. cbn [bind]. rewrite (c_e1 W HW) by assumption. cbn [bind].
    destruct (updz_some (fill (fun j => Live (l_o4 _ (lk W i j))) k (zmap (fun j => Live (l_o2 _ (lk W i j))) n)) k (Live (l_o3 _ (lk W i k)))) as (u & Eu); [rewrite zlen_fill; lia|].
    rewrite Eu. cbn [bind Z.eqb negb].
    destruct (put_block3 (M8 W i) 256 k out (k * 256) 256 8 (i + 1) (k + 1) (sk W i) (st W i 4 k) (l_m3 _ (lk W i k)) (l_ct _ (lk W i k)) (mac W i k) (k * 256 + 111 + 64) (k * 256 + 111 + 64 + 33 + 16))
      as (x1 & x2 & x3 & -> & E2 & E3 & E4); try assumption; try reflexivity; try lia.
    { intros; apply (z_M8 W HW); assumption. } { unfold lk. rewrite (c_m3 W HW), (c_ct W HW), (z_mac W HW) by assumption. lia. } { apply (ww_p W HW). }
    { unfold lk. rewrite (c_m3 W HW) by assumption. lia. } { unfold lk. rewrite (c_m3 W HW), (c_ct W HW) by assumption. lia. }
    cbn [bind]. ppc. rewrite getz_zmap by assumption. cbn [bind]. change (33 + 16) with 49. rewrite (c_e2 W HW) by assumption. cbn [bind].
    assert (Eu2 : updz u k (Live (l_o4 _ (lk W i k))) = Ok (fill (fun j => Live (l_o4 _ (lk W i j))) (k + 1) (zmap (fun j => Live (l_o2 _ (lk W i j))) n))).
    { destruct (fill_open (fun j => Live (l_o4 _ (lk W i j))) k (zmap (fun j => Live (l_o2 _ (lk W i j))) n) ltac:(lia)) as (x & post & _ & F1 & F2). rewrite F1 in Eu. rewrite F2.
      rewrite updz_mid in Eu by (apply zlen_zmap; lia). injection Eu as <-. apply updz_mid. apply zlen_zmap. lia. }
    rewrite Eu2. cbn [bind Z.eqb negb]. rewrite E2. cbn [bind]. rewrite (c_k1 W HW) by assumption. cbn [bind]. fold (mac W i k). rewrite E3. cbn [bind]. ppc. fold (st W i 4 k). rewrite E4. reflexivity. }
  unfold St in L at 1. rewrite !fill_0, bfill_0 in L. useloop L. cbn [bind done]. unfold St. unfold peer_finish_step. cbn [bind Z.eqb].
  rewrite !fill_full by assumption. rewrite (bfill_full 256) by lia. reflexivity.
Qed.

Lemma next_P5 i : 0 <= i < n ->
  peer_next C (Q i 5) (P5 W i) (blocks (fun j => M8 W j i) n) (pbuf i 5 (peer_output_size C (P5 W i))) = Ok (0, P6 W i, M9 W i).
Proof.
  intros Hi. pose proof Hn as Hn'. rewrite peer_next_5 by reflexivity. unfold peer_step15. set (out := pbuf _ _ _).
  set (z9 := msg9_SIZE n). assert (V9 : z9 = 112 + n) by (unfold z9, msg9_SIZE, hdr_SIZE; lia).
  assert (Ho : zlen out = z9) by (unfold out; change (peer_output_size C (P5 W i)) with z9; rewrite z_pbuf; lia). clearbody out.
  assert (ZM : forall j, 0 <= j < n -> zlen (M8 W j i) = 256) by (intros; apply (z_M8 W HW); assumption).
  rewrite Ho, (zlen_blocks _ 256) by (try lia; assumption). change (p_n C (P5 W i)) with n. change (msg9_SIZE n) with z9. change msg8_SIZE with 256. 
  rewrite !Z.eqb_refl. cbn [negb].
  destruct (ww_B W HW i Hi) as (ZB1 & ZB2 & ZB3 & ZB4 & ZB5 & ZB6 & ZB7).
  pose (St := fun k => mkq W i 5 4 (e_s (E 4) 0) (fill (fun j => st W j 4 i) k (zmap (fun j => st W j 3 0) n)) 
    (zmap (fun j => Live (l_o4 _ (lk W i j))) n) (fill (fun j => Live (l_r4 _ (lk W j i))) k (zmap (fun j => Live (l_r2 _ (lk W j i))) n))
    (zmap (coms W) n) (zmap (sh W i) n) (fill (fun j => sh W j i) k (b_xshares _ (b W i))) (tr2 W) (wsh0 W i)).
  assert (Zl : zlen (zmap (fun j => st W j 3 0) n) = n) by (apply zlen_zmap; lia).
  assert (Zl2 : zlen (zmap (fun j => Live (l_r2 _ (lk W j i))) n) = n) by (apply zlen_zmap; lia).
  assert (L : loopM (peer_step15_body C (Q i 5) (blocks (fun j => M8 W j i) n)) (zrange 0 (Z.to_nat n)) (St 0) = Ok (Next (St n))).
  { apply (loopM_fun0 _ St); [lia|]. intros k Hk. unfold St at 1, peer_step15_body. change msg8_SIZE with 256. change hs3_SIZE with 64. change share_SIZE with 33. change mac_SIZE with 16. change hmac_SIZE with 32. change hdr_SIZE with 111.
    pose proof (rd_blocks (fun j => M8 W j i) 256 n k Hk ZM) as R. cbv beta in R.
    ppc. rewrite getz_zmap by assumption. cbn [bind].
    erewrite (precv_h _ _ _ _ 8 (k + 1) (i + 1) k (st W k 4 i)); [|reflexivity| |exact R|lia|unfold is_byte; lia|unfold is_byte; lia|unfold is_byte; lia|apply (ww_p W HW)| |].
    2: { ppc. rewrite fill_get by lia. apply getz_zmap. assumption. }
    2: { ppc. apply (k_4 W HW); assumption. }
    2: { ppc. apply (fill_upd (fun j => st W j 4 i)). lia. }
    cbn [bind negb Z.eqb]. ppc.
    assert (R1 : rd (blocks (fun j => M8 W j i) n) (k * 256 + 111) 64 = Ok (l_m3 _ (lk W k i))).
    { eapply (part_mk S HS sid Hsid _ _ _ _ _ _ _ _ [] (l_m3 _ (lk W k i))); [exact R|change (zlen (@nil byte)) with 0; lia|unfold lk; rewrite (c_m3 W HW) by assumption; reflexivity]. }
    assert (R2 : rd (blocks (fun j => M8 W j i) n) (k * 256 + 111 + 64) (33 + 16) = Ok (l_ct _ (lk W k i))).
    { eapply (part_mk S HS sid Hsid _ _ _ _ _ _ _ _ (l_m3 _ (lk W k i)) (l_ct _ (lk W k i))); [exact R|unfold lk; rewrite (c_m3 W HW) by assumption; lia|unfold lk; rewrite (c_ct W HW) by assumption; reflexivity]. }
    assert (R3 : rd (blocks (fun j => M8 W j i) n) (k * 256 + 111 + 64 + 33 + 16) 32 = Ok (mac W k i)).
    { eapply (part_mk S HS sid Hsid _ _ _ _ _ _ _ _ (l_m3 _ (lk W k i) ++ l_ct _ (lk W k i)) (mac W k i) []); [rewrite app_nil_r, <- app_assoc; exact R|rewrite zlen_app; unfold lk; rewrite (c_m3 W HW), (c_ct W HW) by assumption; lia|rewrite (z_mac W HW); reflexivity]. }
    rewrite R1. cbn [bind]. rewrite fill_get by lia. rewrite getz_zmap by assumption. cbn [bind]. rewrite (c_d1 W HW) by assumption. cbn [bind].
    destruct (updz_some (fill (fun j => Live (l_r4 _ (lk W j i))) k (zmap (fun j => Live (l_r2 _ (lk W j i))) n)) k (Live (l_r3 _ (lk W k i)))) as (u & Eu); [rewrite zlen_fill; lia|].
    rewrite Eu. cbn [bind Z.eqb negb]. rewrite (c_k2 W HW) by assumption. cbn [bind]. rewrite R2. cbn [bind]. rewrite R3. cbn [bind]. fold (mac W k i). rewrite bytes_eqb_refl. cbn [negb].
    rewrite (c_d2 W HW) by assumption. cbn [bind]. ppc.
    assert (Eu2 : updz u k (Live (l_r4 _ (lk W k i))) = Ok (fill (fun j => Live (l_r4 _ (lk W j i))) (k + 1) (zmap (fun j => Live (l_r2 _ (lk W j i))) n))).
    { destruct (fill_open (fun j => Live (l_r4 _ (lk W j i))) k (zmap (fun j => Live (l_r2 _ (lk W j i))) n) ltac:(lia)) as (x & post & _ & F1 & F2). rewrite F1 in Eu. rewrite F2.
      rewrite updz_mid in Eu by (apply zlen_zmap; lia). injection Eu as <-. apply updz_mid. apply zlen_zmap. lia. }
    rewrite Eu2. cbn [bind Z.eqb negb]. ppc. rewrite share_of_bytes; [|unfold sh, is_byte; cbn [s_index]; lia|apply sh_range].
    rewrite (fill_upd (fun j => sh W j i)) by lia. reflexivity. }
  unfold St in L at 1. rewrite !fill_0 in L. useloop L. cbn [bind]. change (p_n C (St n)) with n. change (p_index C (St n)) with (i + 1). change (p_com C (St n)) with (zmap (coms W) n). 
  change (p_xshares C (St n)) with (fill (fun j => sh W j i) n (b_xshares _ (b W i))). rewrite fill_full by assumption.
  destruct (ww_fl W HW i Hi) as (Zf & ret & ->). cbn [bind]. change hdr_SIZE with 111.
  destruct (put_one out z9 9 (i + 1) 255 (sk W i) (st W i 5 0) (zb 0 :: map zb (wfl W i))) as (o & -> & Es); [assumption|rewrite zlen_cons, zlen_map; lia|apply (ww_p W HW)|].
  cbn [bind]. change (msg9_SIZE n) with z9. change (p_sk C (St n)) with (sk W i). change (p_sid C (St n)) with sid. fold (st W i 5 0). rewrite Es. cbn [bind]. unfold peer_finish_step. cbn [bind Z.eqb].
  unfold St. rewrite !fill_full by assumption. reflexivity.
Qed.

Lemma next_P6 i : 0 <= i < n -> peer_next C (Q i 6) (P6 W i) (B10 W) (pbuf i 6 (peer_output_size C (P6 W i))) = Ok (0, P7 W i, []).
Proof.
  intros Hi. pose proof Hn as Hn'. rewrite peer_next_6 by reflexivity. unfold peer_step17. set (out := pbuf _ _ _).
  assert (Ho : zlen out = 0) by (unfold out; change (peer_output_size C (P6 W i)) with 0; rewrite z_pbuf; lia).
  assert (On : out = []) by (destruct out; [reflexivity|unfold zlen in Ho; cbn [length] in Ho; lia]). rewrite On. clear Ho On out.
  set (z9 := msg9_SIZE n). assert (V9 : z9 = 112 + n) by (unfold z9, msg9_SIZE, hdr_SIZE; lia).
  assert (Z9 : forall j, 0 <= j < n -> zlen (M9 W j) = z9) by (intros j Hj; rewrite (z_M9 W HW) by assumption; lia).
  assert (ZB : zlen (B10 W) = 111 + n * z9) by (rewrite (z_B10 W HW); lia).
  rewrite ZB. change (msg10_SIZE (p_n C (P6 W i))) with (111 + n * z9). rewrite Z.eqb_refl. change (zlen (@nil byte) =? 0) with true. cbn [negb].
  assert (RB : rd (B10 W) 0 (111 + n * z9) = Ok (B10 W)) by (apply rd_all; assumption).
  rewrite (precv_tp_h _ _ (111 + n * z9) 10 255 (e_s (E 6) 0) (blocks (M9 W) n)); [|reflexivity|reflexivity|reflexivity|assumption|nia|unfold is_byte; lia|apply byte_255|apply (ww_e W HW)|apply (f_tp6 W HW); assumption].
  cbn [bind Z.eqb negb]. change (p_n C (peer_transcript_set C _ _)) with n.
  pose proof (body_mk S HS sid Hsid _ _ _ _ _ _ _ _ _ RB) as Rb. rewrite (zlen_blocks _ z9) in Rb by (try lia; assumption). cbn [Z.add] in Rb.
  pose (St := fun k => mkq W i 6 5 (e_s (E 6) 0) (fill (fun j => st W j 5 0) k (zmap (fun j => st W j 4 i) n))
    (zmap (fun j => Live (l_o4 _ (lk W i j))) n) (zmap (fun j => Live (l_r4 _ (lk W j i))) n)
    (zmap (coms W) n) (zmap (sh W i) n) (zmap (fun j => sh W j i) n) (tr3 W) (wsh0 W i)).
  assert (Zl : zlen (zmap (fun j => st W j 4 i) n) = n) by (apply zlen_zmap; lia).
  assert (L : loopM (peer_step17_body C (Q i 6) (B10 W)) (zrange 0 (Z.to_nat n)) (St 0) = Ok (Next (St n))).
  { apply (loopM_fun0 _ St); [lia|]. intros k Hk. unfold St at 1, peer_step17_body. ppc. change (msg9_SIZE n) with z9. change hdr_SIZE with 111.
    assert (Hkz : (k + 1) * z9 <= n * z9) by nia. assert (Hkz0 : 0 <= k * z9) by nia.
    assert (R2 : rd (B10 W) (111 + k * z9) z9 = Ok (M9 W k)).
    { rewrite (rd_part _ _ _ _ (k * z9) z9 Rb) by lia. apply rd_blocks; assumption. }
    rewrite getz_zmap by assumption. cbn [bind].
    erewrite (precv_h _ _ _ _ 9 (k + 1) 255 k (st W k 5 0)); [|reflexivity| |exact R2|lia|unfold is_byte; lia|unfold is_byte; lia|apply byte_255|apply (ww_p W HW)| |].
    2: { ppc. rewrite fill_get by lia. apply getz_zmap. assumption. }
    2: { ppc. apply (k_5 W HW); assumption. }
    2: { ppc. apply (fill_upd (fun j => st W j 5 0)). lia. }
    cbn [bind negb Z.eqb].
    destruct (rd_sub _ _ _ _ off_len 4 R2) as (fl & ->); [unfold off_len; lia|lia|unfold off_len; lia|]. cbn [bind].
    pose proof (body_mk S HS sid Hsid _ _ _ _ _ _ _ _ _ R2) as Rd. apply rd_one in Rd. rewrite Rd. cbn [bind]. change (bz (zb 0)) with 0.
    destruct (Z.ltb_spec (u64 (of_le fl - 111)) 0) as [Hlt|_]; [pose proof (Z.mod_pos_bound (of_le fl - 111) (2 ^ 64) ltac:(lia)); unfold u64 in Hlt; lia|].
    change (zrange 0 (Z.to_nat 0)) with (@nil Z). reflexivity. }
  unfold St in L at 1. rewrite !fill_0 in L. useloop L. cbn [bind]. change (zlen (p_complaints C (St n)) =? 0) with true. cbv iota. unfold peer_finish_step. cbn [bind Z.eqb].
  unfold St. rewrite !fill_full by assumption. reflexivity.
Qed.

Lemma next_P7 i : 0 <= i < n -> peer_next C (Q i 8) (P7 W i) [] (pbuf i 8 (peer_output_size C (P7 W i))) = Ok (0, P8 W i, M19 W i).
Proof.
  intros Hi. pose proof Hn as Hn'. rewrite peer_next_8 by reflexivity. unfold peer_step19. set (out := pbuf _ _ _).
  assert (Ho : zlen out = 143) by (unfold out; change (peer_output_size C (P7 W i)) with 143; rewrite z_pbuf; lia). clearbody out.
  rewrite Ho. change (zlen (@nil byte) =? 0) with true. change (143 =? msg19_SIZE) with true. cbn [negb]. change msg19_SIZE with 143. change hdr_SIZE with 111.
  change (p_transcript C (P7 W i)) with (tr3 W).
  destruct (put_one out 143 20 (i + 1) 0 (sk W i) (st W i 8 0) (blake2b (cH C) 32 (tr3 W))) as (o & -> & Es); [assumption|rewrite (z_hash W HW); reflexivity|apply (ww_p W HW)|].
  cbn [bind]. change (send_msg S o 0 143 20 (p_index C (P7 W i)) 0 (p_sk C (P7 W i)) (p_sid C (P7 W i)) (pe_s (Q i 8) 0)) with (send_msg S o 0 143 20 (i + 1) 0 (sk W i) sid (st W i 8 0)).
  rewrite Es. reflexivity.
Qed.

Lemma next_P8 i : 0 <= i < n -> peer_next C (Q i 9) (P8 W i) (B20 W) (pbuf i 9 (peer_output_size C (P8 W i))) = Ok (0, P9 W i, M21 W i).
Proof.
  intros Hi. pose proof Hn as Hn'. rewrite peer_next_9 by reflexivity. unfold peer_step21. set (out := pbuf _ _ _).
  assert (Ho : zlen out = 113) by (unfold out; change (peer_output_size C (P8 W i)) with 113; rewrite z_pbuf; lia). clearbody out.
  assert (ZB : zlen (B20 W) = 113) by (unfold B20; rewrite (zmk W HW); reflexivity).
  rewrite Ho, ZB. change (113 =? msg20_SIZE) with true. change (113 =? msg21_SIZE) with true. cbn [negb]. change msg21_SIZE with 113. change hdr_SIZE with 111.
  rewrite (precv_tp_h _ _ 113 21 255 (e_s (E 8) 0) str_OK); [|reflexivity|reflexivity|reflexivity|assumption|reflexivity|unfold is_byte; lia|apply byte_255|apply (ww_e W HW)|apply (f_tp8 W HW); assumption].
  cbn [bind Z.eqb negb].
  pose proof (body_mk S HS sid Hsid _ _ _ _ _ _ _ _ _ (rd_all (B20 W) 113 ZB)) as Rd. change (zlen str_OK) with 2 in Rd. change (0 + 111) with 111 in Rd. rewrite Rd. cbn [bind]. rewrite bytes_eqb_refl. cbn [negb].
  destruct (put_one out 113 22 (i + 1) 0 (sk W i) (st W i 9 0) str_OK) as (o & -> & Es); [assumption|reflexivity|apply (ww_p W HW)|].
  cbn [bind]. set (c2 := peer_share_set C _ _). change (p_index C c2) with (i + 1). change (p_sk C c2) with (sk W i). change (p_sid C c2) with sid. fold (st W i 9 0). rewrite Es. cbn [bind]. unfold peer_finish_step. cbn [bind Z.eqb].
  unfold c2. change (p_n C (peer_tp_last_set C (P8 W i) (e_s (E 8) 0))) with n. change (p_xshares C (peer_tp_last_set C (P8 W i) (e_s (E 8) 0))) with (zmap (fun j => sh W j i) n).
  rewrite firstn_all2; [reflexivity|]. pose proof (zlen_zmap (fun j => sh W j i) n ltac:(lia)) as Z. unfold zlen in Z. lia.
Qed.

Lemma next_P9 i : peer_next C (Q i 10) (P9 W i) [] (pbuf i 10 (peer_output_size C (P9 W i))) = Ok (0, P10 W i, []).
Proof.
  rewrite peer_next_10 by reflexivity. set (out := pbuf _ _ _).
  assert (Ho : zlen out = 0) by (unfold out; change (peer_output_size C (P9 W i)) with 0; rewrite z_pbuf; lia).
  assert (On : out = []) by (destruct out; [reflexivity|unfold zlen in Ho; cbn [length] in Ho; lia]). rewrite On. reflexivity.
Qed.
End HPEER.
