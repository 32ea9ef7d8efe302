(** Starting a session: what the trusted party announces and what a peer accepts (C45). *)
From Coq Require Import ZArith Lia List Bool.
From Coq.Strings Require Import Byte.
From Verif Require Import Bytes Res Mem Sodium WireModel WireSpec WireProofs TpCrypto TpModel PeerModel.
From Verif Require Import TpFrame PeerFrame TpSpec TpMsg TpContent TpComplaints PeerContent TpControl TpAgree BlameSpec TpBlame.
Import ListNotations.
Open Scope list_scope.
Open Scope Z_scope.

Section START.
Variable C : crypto.
Notation S := (cS C).

(** the body of message 0 *)
Definition body0 (pk dst : bytes) (n t : Z) : bytes := pk ++ dst ++ [zb n; zb t].

Lemma zlen_len {A} (l : list A) n : length l = n -> zlen l = Z.of_nat n.
Proof. intros <-. reflexivity. Qed.

Lemma start_forward c eps n t name buf sid sk now :
  sigs_ok S -> hashes_ok (cH C) -> 2 <= n <= 128 -> t < n -> 1 <= zlen name <= 1024 -> zlen buf = msg0_SIZE -> zlen sid = 32 -> is_u64 now ->
  exists c' msg0 dst, start_tp C c eps n t name buf sid sk now = Ok (0, c', msg0) /\ zlen msg0 = msg0_SIZE /\ zlen dst = 32 /\
    signed S (sig_pk S sk) sid 0 0 255 now (body0 (sig_pk S sk) dst n t) msg0.
Proof.
  intros HS HH Hn Ht Hname Hbuf Hsid Hnow. unfold start_tp.
  assert (V : msg0_SIZE = 177) by reflexivity. assert (Vh : hdr_SIZE = 111) by reflexivity. rewrite V in Hbuf.
  rewrite (proj2 (Z.ltb_ge n 2)), (proj2 (Z.leb_gt n t)), (proj2 (Z.ltb_ge 128 n)), (proj2 (Z.ltb_ge (zlen name) 1)), (proj2 (Z.ltb_ge 1024 (zlen name))) by lia.
  cbn [orb]. rewrite V, Hbuf. cbn [Z.eqb Pos.eqb negb].
  set (dst := blake2b _ _ _). cbv zeta. set (pk := sig_pk S sk).
  assert (Lpk : zlen pk = 32) by (apply (zlen_len pk 32), (ok_sig_pk_len S HS)). assert (Ldst : zlen dst = 32) by (apply (zlen_len dst 32), (ok_blake2b_len _ HH)).
  assert (L2 : zlen [zb n; zb t] = 2) by reflexivity. rewrite Vh.
  destruct (wr_is_ok buf 111 pk ltac:(lia) ltac:(lia)) as (b1 & E1 & N1). rewrite E1. cbn [bind].
  destruct (wr_is_ok b1 (111 + 32) dst ltac:(lia) ltac:(lia)) as (b2 & E2 & N2). rewrite E2. cbn [bind].
  destruct (wr_is_ok b2 (111 + 64) [zb n; zb t] ltac:(lia) ltac:(lia)) as (b3 & E3 & N3). rewrite E3. cbn [bind].
  assert (RB : rd b3 (0 + 111) (177 - 111) = Ok (body0 pk dst n t)).
  { unfold body0. change (177 - 111) with (32 + 34). apply rd_join.
    - rewrite (rd_wr_before _ _ _ _ _ _ E3) by lia. rewrite (rd_wr_before _ _ _ _ _ _ E2) by lia. pose proof (rd_wr_same _ _ _ _ E1) as R. rewrite Lpk in R. exact R.
    - change 34 with (32 + 2). apply rd_join.
      + rewrite (rd_wr_before _ _ _ _ _ _ E3) by lia. pose proof (rd_wr_same _ _ _ _ E2) as R. rewrite Ldst in R. exact R.
      + exact (rd_wr_same _ _ _ _ E3). }
  destruct (send_signed S b3 0 177 0 0 255 sk sid now _ HS ltac:(lia) ltac:(lia) RB ltac:(lia) ltac:(unfold is_byte; lia) ltac:(unfold is_byte; lia) ltac:(unfold is_byte; lia) Hsid Hnow)
    as (b4 & m & F1 & F2 & F3 & F4 & _).
  rewrite F1. cbn [bind]. assert (zlen b4 = 177) by lia. rewrite rd_all in F3 by congruence. injection F3 as <-.
  eexists _, b4, dst. split; [reflexivity|]. split; [assumption|]. split; [exact Ldst|exact F4].
Qed.

(** reading the fields of a message *)
Lemma signed_sid buf off len m pk sid msgno from to ts body : rd buf off len = Ok m -> zlen sid = 32 ->
  signed S pk sid msgno from to ts body m -> rd buf (off + off_sid) sid_SIZE = Ok sid.
Proof.
  intros Hm Hs Hg. pose proof (signed_zlen _ _ _ _ _ _ _ _ _ Hs Hg) as L. pose proof (rd_inv _ _ _ _ Hm) as (R1 & R2 & R3 & R4 & _).
  pose proof (zlen_nonneg body) as Hb. destruct Hg as (sig & G1 & G2 & G3 & _). unfold message, header in G3.
  assert (L1 : forall z, zlen [zb z] = 1) by reflexivity. unfold off_sid, sid_SIZE.
  rewrite <- (rd_rd _ _ _ _ 79 32 Hm) by lia. rewrite G3, <- !app_assoc.
  rewrite (app_assoc sig), (app_assoc (sig ++ _)), (app_assoc ((sig ++ _) ++ _)), (app_assoc (((sig ++ _) ++ _) ++ _)), (app_assoc ((((sig ++ _) ++ _) ++ _) ++ _)).
  apply rd_mid; [|exact Hs]. rewrite !zlen_app, G1, !zlen_be, !L1. reflexivity.
Qed.

Lemma start_peer_forward p eps lt msg0 now pk sid ts dst n t :
  zlen msg0 = msg0_SIZE -> zlen pk = 32 -> zlen dst = 32 -> zlen sid = 32 -> 0 <= n < 256 -> 0 <= t < 256 ->
  signed S pk sid 0 0 255 ts (body0 pk dst n t) msg0 -> fresh eps 0 ts now ->
  exists p', start_peer C p eps lt msg0 now = Ok ((if t <? 2 then 1 else if n <=? t then 2 else if 128 <? n then 3 else 0), p') /\
    p_n C p' = n /\ p_t C p' = t /\ p_sid C p' = sid /\ p_tp_pk C p' = pk /\ p_tp_last C p' = ts.
Proof.
  intros Hl Hpk Hdst Hsid Hn Ht Hg Hf. assert (V : msg0_SIZE = 177) by reflexivity. assert (Vh : hdr_SIZE = 111) by reflexivity.
  assert (Rm : rd msg0 0 177 = Ok msg0) by (apply rd_all; congruence).
  pose proof (signed_body _ _ _ _ _ _ _ _ _ Hsid Hg) as RB.
  assert (Lb : zlen (body0 pk dst n t) = 66) by (unfold body0; rewrite !zlen_app, Hpk, Hdst; reflexivity). rewrite Lb in RB.
  assert (Rpk : rd msg0 111 32 = Ok pk).
  { change 111 with (111 + 0). rewrite <- (rd_rd _ _ _ _ 0 32 RB) by lia. unfold body0. apply (rd_mid [] pk); [reflexivity|exact Hpk]. }
  assert (Rn : getz msg0 (111 + 64) = Ok (zb n)).
  { apply (getz_of_rd _ _ _ _ 64 _ RB). unfold body0. rewrite app_assoc. apply (getz_mid (pk ++ dst) (zb n) [zb t]). rewrite zlen_app. lia. }
  assert (Rt : getz msg0 (111 + 65) = Ok (zb t)).
  { apply (getz_of_rd _ _ _ _ 65 _ RB). unfold body0. change [zb n; zb t] with ([zb n] ++ [zb t]). rewrite !app_assoc. apply (getz_mid ((pk ++ dst) ++ [zb n]) (zb t) []).
    rewrite !zlen_app, Hpk, Hdst. reflexivity. }
  unfold start_peer. rewrite V, Vh, Rpk. cbn [bind]. pose proof (signed_sid _ _ _ _ _ _ _ _ _ _ _ Rm Hsid Hg) as Rs. rewrite Z.add_0_l in Rs. rewrite Rs. cbn [bind].
  rewrite (recv_signed S msg0 0 177 msg0 0 0 255 pk sid eps 0 ts now _ Rm ltac:(lia) ltac:(unfold is_byte; lia) ltac:(unfold is_byte; lia) ltac:(unfold is_byte; lia) Hsid Hg Hf).
  cbn [bind Z.eqb negb]. rewrite Rn. cbn [bind]. rewrite Rt. cbn [bind]. cbv zeta. rewrite !bz_zb_small by lia.
  destruct (t <? 2); [eexists; split; [reflexivity|]; auto 8|]. destruct (n <=? t); [eexists; split; [reflexivity|]; auto 8|].
  destruct (128 <? n); [eexists; split; [reflexivity|]; auto 8|]. rewrite Rm. cbn [bind]. eexists. split; [reflexivity|]. auto 8.
Qed.

(** C45 *)
Lemma parameters_agree c eps n t name buf sid sk now c' msg0 p peps lt pnow :
  crypto_ok C -> start_tp C c eps n t name buf sid sk now = Ok (0, c', msg0) -> 0 <= t -> zlen sid = 32 -> is_u64 now -> fresh peps 0 now pnow ->
  exists p', start_peer C p peps lt msg0 pnow = Ok ((if t <? 2 then 1 else 0), p') /\
    p_n C p' = t_n c' /\ p_t C p' = t_t c' /\ p_sid C p' = t_sid c' /\ p_tp_pk C p' = t_pk c' /\ t_n c' = n /\ t_t c' = t /\ 2 <= n <= 128 /\ t < n.
Proof.
  intros HC H Ht Hsid Hnow Hf. pose proof (start_tp_inv C _ _ _ _ _ _ _ _ _ _ _ H) as (A1 & A2 & A3 & A4 & A5 & A6 & A7 & A8 & A9 & A10 & A11 & A12 & A13 & A14).
  destruct (start_forward c eps n t name buf sid sk now (ok_cS C HC) (ok_cH C HC) A1 A2 A14 A3 Hsid Hnow) as (c1 & m1 & dst & F1 & F2 & F3 & F4).
  rewrite H in F1. injection F1 as <- <-.
  assert (Lpk : zlen (sig_pk S sk) = 32) by (apply (zlen_len _ 32), (ok_sig_pk_len S (ok_cS C HC))).
  destruct (start_peer_forward p peps lt msg0 pnow _ sid now dst n t F2 Lpk F3 Hsid ltac:(lia) ltac:(lia) F4 Hf) as (p' & P1 & P2 & P3 & P4 & P5 & _).
  exists p'. rewrite P1, A5, A6, A7, A10. rewrite (proj2 (Z.leb_gt n t)), (proj2 (Z.ltb_ge 128 n)) by lia. destruct (t <? 2); auto 12.
Qed.
End START.
