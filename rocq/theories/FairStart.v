(** What starting a session establishes on both sides (C85). *)
From Coq Require Import ZArith Lia List Bool.
From Coq.Strings Require Import Byte.
From Verif Require Import Bytes Res Mem Sodium WireModel WireSpec WireProofs TpCrypto TpModel PeerModel.
From Verif Require Import TpFrame PeerFrame TpSpec TpMsg TpContent TpComplaints PeerContent TpControl TpAgree BlameSpec TpBlame SafeSpec TpStart.
Import ListNotations.
Open Scope list_scope.
Open Scope Z_scope.

Section START.
Variable C : crypto.
Notation S := (cS C).

(** What the API calls that start a session establish, on both sides. *)
Lemma start_both c0 eps n t name buf sid sk now c msg0 com enc chmax pks lt now2 p0 peps plt pnow p1 ppks npks outs ins shares xshares pcom :
  crypto_ok C -> start_tp C c0 eps n t name buf sid sk now = Ok (0, c, msg0) -> 1 <= t -> zlen sid = 32 -> is_u64 now ->
  zlen com = n -> Forall (fun row => zlen row = t) com -> zlen enc = n * n * msg8_SIZE -> 0 <= chmax -> zlen pks = n -> zlen lt = n ->
  start_peer C p0 peps plt msg0 pnow = Ok (0, p1) ->
  zlen ppks = n -> zlen npks = n -> zlen outs = n -> zlen ins = n -> zlen shares = n -> zlen xshares = n -> zlen pcom = n -> Forall (fun row => zlen row = t) pcom ->
  Forall (fun sl => sl = Uninit \/ sl = Null) outs -> Forall (fun sl => sl = Uninit \/ sl = Null) ins ->
  let c := tp_set_bufs c com (n * n) enc chmax pks lt now2 in
  let p := peer_set_bufs C p1 ppks npks outs ins shares xshares pcom (n * n) n in
  (tp_wf c /\ t_step c = 0 /\ t_complaints c = [] /\ t_cheaters c = [] /\ t_eps c = eps /\ (forall k, 0 <= k < n -> getz (t_last c) k = Ok now2) /\ t_n c = n /\ t_t c = t) /\
  peer_fresh C p /\ p_n C p = t_n c /\ p_t C p = t_t c /\ p_sid C p = t_sid c /\ p_tp_pk C p = t_pk c /\ p_transcript C p = t_transcript c /\ 2 <= t.
Proof.
  intros HC H Ht Hsid Hnow B1 B2 B3 B4 B5 B6 HP D1 D2 D3 D4 D5 D6 D7 D8 D9 D10.
  pose proof (tp_wf_start C c0 eps n t name buf sid sk now c msg0 com enc chmax pks lt now2 H Ht Hsid B1 B2 B3 B4 B5 B6) as W.
  pose proof (start_tp_inv C _ _ _ _ _ _ _ _ _ _ _ H) as (A1 & A2 & A3 & A4 & A5 & A6 & A7 & A8 & A9 & A10 & A11 & A12 & A13 & A14).
  destruct (start_forward C c0 eps n t name buf sid sk now (ok_cS C HC) (ok_cH C HC) A1 A2 A14 A3 Hsid Hnow) as (c1 & m1 & dst & F1 & F2 & F3 & F4).
  rewrite H in F1. assert (c1 = c /\ m1 = msg0) as (-> & ->) by (split; congruence). clear F1.
  assert (Lpk : zlen (sig_pk S sk) = 32) by (apply (zlen_len _ 32), (ok_sig_pk_len S (ok_cS C HC))). set (pk := sig_pk S sk) in *.
  assert (V : msg0_SIZE = 177) by reflexivity. assert (Vh : hdr_SIZE = 111) by reflexivity. rewrite V in F2.
  assert (Rm : rd msg0 0 177 = Ok msg0) by (apply rd_all; congruence).
  pose proof (signed_body _ _ _ _ _ _ _ _ _ Hsid F4) as RB.
  assert (Lb : zlen (body0 pk dst n t) = 66) by (unfold body0; rewrite !zlen_app, Lpk, F3; reflexivity). rewrite Lb in RB.
  assert (Rpk : rd msg0 111 32 = Ok pk).
  { change 111 with (111 + 0). rewrite <- (rd_rd _ _ _ _ 0 32 RB) by lia. unfold body0. apply (rd_mid [] pk); [reflexivity|exact Lpk]. }
  assert (Rn : getz msg0 (111 + 64) = Ok (zb n)).
  { apply (getz_of_rd _ _ _ _ 64 _ RB). unfold body0. rewrite app_assoc. apply (getz_mid (pk ++ dst) (zb n) [zb t]). rewrite zlen_app. lia. }
  assert (Rt : getz msg0 (111 + 65) = Ok (zb t)).
  { apply (getz_of_rd _ _ _ _ 65 _ RB). unfold body0. change [zb n; zb t] with ([zb n] ++ [zb t]). rewrite !app_assoc. apply (getz_mid ((pk ++ dst) ++ [zb n]) (zb t) []).
    rewrite !zlen_app, Lpk, F3. reflexivity. }
  pose proof (signed_sid C _ _ _ _ _ _ _ _ _ _ _ Rm Hsid F4) as Rs. rewrite Z.add_0_l in Rs.
  unfold start_peer in HP. rewrite V, Vh, Rpk in HP. cbn [bind] in HP. rewrite Rs in HP. cbn [bind] in HP.
  apply bind_ok in HP. destruct HP as ((ret & last) & HRc & HP). pose proof (recv_codes _ _ _ _ _ _ _ _ _ _ _ _ _ _ HRc) as Hr.
  destruct (ret =? 0) eqn:Er; cbn [negb] in HP; [|apply Z.eqb_neq in Er; assert (64 + ret = 0) by congruence; lia].
  rewrite Rn, Rt in HP. cbn [bind] in HP. cbv zeta in HP. rewrite !bz_zb_small in HP by lia.
  destruct (Z.ltb_spec t 2); [discriminate|]. rewrite (proj2 (Z.leb_gt n t)), (proj2 (Z.ltb_ge 128 n)) in HP by lia. rewrite Rm in HP. cbn [bind] in HP.
  match type of HP with Ok (0, ?x) = _ => assert (E : p1 = x) by congruence end. clear HP. cbv zeta. rewrite E. clear E.
  cbn [t_step t_n t_t t_sid t_pk t_last t_eps t_complaints t_cheaters t_transcript tp_set_bufs p_n p_t p_sid p_tp_pk p_transcript peer_set_bufs]. rewrite ?A4, ?A5, ?A6, ?A7, ?A9, ?A10, ?A11, ?A12, ?A13.
  split; [split; [exact W|]|split; [|auto 8]].
  - repeat (split; [reflexivity|]). split; [|auto]. intros k Hk. apply getz_ok; [|lia]. apply nth_error_repeat. lia.
  - split; [|cbn [p_step p_complaints p_my p_outs p_ins peer_set_bufs]; auto 8].
    constructor; cbn [p_step p_n p_t p_sid p_last p_pks p_npks p_outs p_ins p_com p_shares p_xshares p_cmax p_mymax peer_set_bufs]; try assumption; try lia. unfold zlen. rewrite repeat_length. lia.
Qed.
End START.
