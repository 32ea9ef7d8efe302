(** Complaints: what a peer complains about (C47) and what follows from complaints (C43). *)
From Coq Require Import ZArith Lia List Bool Sorting.Sorted.
From Coq.Strings Require Import Byte.
From Verif Require Import Bytes Res Mem Sodium ToprfModel ToprfSpec DkgModel DkgSpec DkgProofs WireModel WireSpec WireProofs TpCrypto TpModel PeerModel.
From Verif Require Import TpFrame PeerFrame TpSpec TpMsg TpContent TpComplaints PeerContent TpControl TpAgree BlameSpec TpBlame.
Import ListNotations.
Open Scope list_scope.
Open Scope Z_scope.

Section MISC.
Variable C : crypto.
Notation S := (cS C).
Notation peer := (peer C).

(** ** C47 *)
Lemma step15_com e input i c r : peer_step15_body C e input i c = Ok r -> p_com C (ctl_state r) = p_com C c /\ p_index C (ctl_state r) = p_index C c.
Proof.
  unfold peer_step15_body. intros H. inv H;
    (match goal with E : peer_recv _ _ _ _ _ _ _ _ _ _ _ = Ok _ |- _ => apply peer_recv_inv in E; destruct E as (? & ? & ? & _ & _ & _ & ->) end); split; reflexivity.
Qed.

Lemma loop15_com e input l : forall c r, loopM (peer_step15_body C e input) l c = Ok r -> p_com C (ctl_state r) = p_com C c /\ p_index C (ctl_state r) = p_index C c.
Proof.
  induction l as [|i l IH]; intros c r H; cbn [loopM] in H; [injection H as <-; auto|].
  apply bind_ok in H. destruct H as (r1 & E & H). apply step15_com in E. destruct r1 as [c1|code c1]; [|injection H as <-; exact E].
  apply IH in H. cbn [ctl_state] in E. destruct E, H. split; congruence.
Qed.

Lemma firstn_map_bz (l : list Z) n : Forall (fun x => 0 <= x < 256) (firstn n l) -> map bz (firstn n (map zb l)) = firstn n l.
Proof.
  intros H. rewrite firstn_map, map_map. induction (firstn n l) as [|x m IH]; [reflexivity|]. inversion H; subst. cbn [map]. rewrite bz_zb_small, IH by assumption. reflexivity.
Qed.

Lemma complains_exactly e (c : peer) input out c' out' :
  crypto_ok C -> p_step C c = 5 -> 1 <= p_n C c <= 128 -> 1 <= p_t C c -> 1 <= p_index C c <= 128 ->
  zlen (p_com C c) = p_n C c -> Forall (fun row => zlen row = p_t C c) (p_com C c) -> zlen (p_xshares C c) = p_n C c ->
  zlen (p_sid C c) = 32 -> is_u64 (pe_s e 0) ->
  peer_next C e c input out = Ok (0, c', out') ->
  p_com C c' = p_com C c /\ zlen (p_xshares C c') = p_n C c /\ zlen out' = msg9_SIZE (p_n C c) /\
  (exists body, signed S (sig_pk S (p_sk C c)) (p_sid C c) 9 (p_index C c) 255 (pe_s e 0) body out') /\
  ((exists u, 1 <= u <= p_n C c /\ unusable_dealer (cR C) (p_index C c) (p_com C c') (p_xshares C c') u /\
      (forall j, 1 <= j < u -> ~ unusable_dealer (cR C) (p_index C c) (p_com C c') (p_xshares C c') j) /\
      (forall j, In j (named out') <-> 1 <= j < u /\ cheated (cR C) (p_index C c) (p_com C c') (p_xshares C c') j)) \/
   ((forall j, ~ unusable_dealer (cR C) (p_index C c) (p_com C c') (p_xshares C c') j) /\
    (forall j, In j (named out') <-> cheated (cR C) (p_index C c) (p_com C c') (p_xshares C c') j))).
Proof.
  intros HC Hst Hn Ht Hi Hcom Hrows Hxs Hsid Hu H. rewrite peer_next_5 in H by assumption. apply pfinish_inv in H. destruct H as (p & H & ->).
  assert (Vh : hdr_SIZE = 111) by reflexivity.
  pose proof (pext_step15 C _ _ _ _ _ _ _ H) as PE. pose proof (y_step _ _ _ PE) as Y1.
  unfold peer_step15 in H. destruct (zlen input =? _); cbn [negb] in H; [|inv H]. destruct (zlen out =? _) eqn:E2; cbn [negb] in H; [|inv H].
  apply Z.eqb_eq in E2. apply bind_ok in H. destruct H as (r & LL & H). destruct r as [c1|r c1].
  2:{ exfalso. injection H as -> -> ->. pose proof (loopM_code (fun r => r <> 0) (peer_step15_body C e input)) as K. eapply K in LL; [apply LL; reflexivity|].
      intros i a r s HH. unfold peer_step15_body in HH. inv HH; try lia.
      match goal with E : peer_recv _ _ _ _ _ _ _ _ _ _ _ = Ok _ |- _ => apply peer_recv_inv in E; destruct E as (? & ? & ? & _ & E & _); apply recv_codes in E end; lia. }
  pose proof (loop15_com _ _ _ _ _ LL) as (K1 & K2). cbn [ctl_state] in K1, K2.
  assert (PL : p_ext C c c1).
  { refine (ploop_ext C (fun s : peer => s) (peer_step15_body C e input) _ _ _ _ LL). intros i a r HH. exact (pext_step15_body _ _ _ _ _ _ HH). }
  assert (VA : verify_args (p_n C c1) (p_t C c1) (p_index C c1) (p_com C c1) (p_xshares C c1) (repeat 0 (Z.to_nat (p_n C c1)))).
  { pose proof (y_n _ _ _ PL) as Yn. pose proof (y_t _ _ _ PL) as Yt. pose proof (y_xshares _ _ _ PL) as Yx. rewrite K1, K2, Yn, Yt. unfold zlen in *.
    repeat split; try lia; try assumption. rewrite repeat_length. lia. }
  destruct (verify_commitments_spec (cR C) (ok_cR C HC) _ _ _ _ _ _ VA) as (ret & fails & nm & V1 & V2 & V3 & V4 & V5).
  rewrite V1 in H. cbn [bind] in H. apply bind_ok in H. destruct H as (b1 & W & H). apply bind_ok in H. destruct H as (b2 & Sd & H). injection H as <- <-.
  cbn [peer_step_set p_com p_xshares p_step] in *. rewrite K1, K2 in *.
  split; [reflexivity|]. pose proof (y_xshares _ _ _ PL) as Yx. split; [lia|].
  pose proof (y_n _ _ _ PL) as Yn. rewrite Yn in *. rewrite repeat_length in V2.
  rewrite Vh in W. pose proof (wr_zlen _ _ _ _ W) as Zb1. pose proof (rd_wr_same _ _ _ _ W) as Rb.
  assert (Zf : zlen (zb (Z.of_nat (length nm)) :: map zb fails) = 1 + p_n C c) by (rewrite zlen_cons, zlen_map; unfold zlen; lia). rewrite Zf in Rb.
  assert (V9 : msg9_SIZE (p_n C c) = 112 + p_n C c) by apply msg9_val.
  assert (Rb' : rd b1 (0 + 111) (msg9_SIZE (p_n C c) - 111) = Ok (zb (Z.of_nat (length nm)) :: map zb fails)) by (rewrite V9; replace (112 + p_n C c - 111) with (1 + p_n C c) by lia; exact Rb).
  destruct (send_signed S b1 0 (msg9_SIZE (p_n C c)) 9 (p_index C c) 255 (p_sk C c1) (p_sid C c1) (pe_s e 0) _ (ok_cS C HC) ltac:(lia) ltac:(lia) Rb' ltac:(lia)
    ltac:(unfold is_byte; lia) ltac:(unfold is_byte; lia) ltac:(unfold is_byte; lia) ltac:(rewrite (y_sid _ _ _ PL); exact Hsid) Hu) as (b3 & m & F1 & F2 & F3 & F4 & F5).
  rewrite F1 in Sd. injection Sd as ->. split; [lia|].
  assert (m = b2) by (rewrite rd_all in F3 by lia; congruence). subst m.
  rewrite (y_sid _ _ _ PL), (y_sk _ _ _ PL) in F4 by lia. split; [eexists; exact F4|].
  assert (Hnm : named b2 = nm).
  { pose proof (F5 111 (1 + p_n C c) ltac:(lia)) as R. rewrite Rb in R. apply rd_inv in R. destruct R as (_ & _ & _ & _ & R).
    unfold named. assert (Ln : (length nm <= length fails)%nat) by (rewrite <- V3; rewrite firstn_length; lia).
    assert (E111 : skipn 111 b2 = zb (Z.of_nat (length nm)) :: map zb fails).
    { rewrite R. symmetry. apply firstn_all2. rewrite skipn_length. unfold zlen in *. lia. }
    rewrite E111, bz_zb_small by lia. rewrite Nat2Z.id, firstn_map_bz; rewrite V3; [reflexivity|].
    apply Forall_forall. intros j Hj.
    assert (Hr : forall cs s, dealt (p_com C c) (p_xshares C c1) j cs s -> 0 <= j < 256).
    { intros cs s (D1 & D2 & _). assert (Z.to_nat (j - 1) < length (p_com C c))%nat by (apply nth_error_Some; congruence). unfold zlen in *. lia. }
    destruct V5 as [(u & _ & _ & _ & _ & V5)|(_ & _ & V5)]; [apply V5 in Hj; destruct Hj as (_ & Hj)|apply V5 in Hj]; destruct Hj as (_ & cs & s & Hd & _); exact (Hr _ _ Hd). }
  rewrite Hnm. destruct V5 as [(u & U1 & U2 & U3 & _ & U4)|(U1 & _ & U2)]; [left; exists u|right]; auto.
Qed.

(** ** C43 *)
Lemma complaint_step e c input out ret c' out' : t_step c = 6 -> tp_next C e c input out = Ok (ret, c', out') -> t_complaints c' <> [] -> t_step c' = 7.
Proof.
  intros Hs H Hc. rewrite tp_next_6 in H by assumption. apply bind_ok in H. destruct H as (((r & p) & o) & E & H). injection H as <- <- <-. cbn in *.
  pose proof (ext_step16 C _ _ _ _ _ _ _ E) as X. destruct (t_complaints p) eqn:Ep; [contradiction|]. rewrite (x_step _ _ X), Hs. rewrite zlen_cons. pose proof (zlen_nonneg l). destruct (1 + zlen l =? 0) eqn:E0; [apply Z.eqb_eq in E0; lia|reflexivity].
Qed.

(** after a complaint has been recorded the trusted party fails in its next call and is done *)
Lemma complaint_tp_fails e c input out ret c' out' e2 input2 out2 ret2 c2 out2' : t_step c = 6 -> tp_next C e c input out = Ok (ret, c', out') ->
  t_complaints c' <> [] -> tp_next C e2 c' input2 out2 = Ok (ret2, c2, out2') -> ret2 <> 0 /\ tp_not_done c2 = false.
Proof.
  intros Hs H Hc H2. apply complaint_step in H; try assumption. rewrite tp_next_7 in H2 by assumption. apply finish_inv in H2. destruct H2 as (p & H2 & ->).
  apply step18_fails in H2. split; [assumption|]. unfold tp_not_done. cbn. destruct (ret2 =? 0) eqn:E; [apply Z.eqb_eq in E; contradiction|reflexivity].
Qed.

Lemma accused_done e (c : peer) input out c' out' : p_step C c = 7 -> p_complaints C c <> [] -> p_my C c <> [] -> peer_next C e c input out = Ok (0, c', out') ->
  peer_not_done C c' = false.
Proof.
  intros Hs Hc Hm H. rewrite peer_next_7 in H by assumption. apply pfinish_inv in H. destruct H as (p & H & ->). unfold peer_step17a in H.
  destruct (zlen input =? 0); cbn [negb] in H; [|inv H]. destruct (zlen out =? _) eqn:E; cbn [negb] in H; [|inv H]. apply Z.eqb_eq in E.
  assert (V : 0 < zlen out).
  { rewrite E. unfold peer_output_size. rewrite Hs. assert (Vh : hdr_SIZE = 111) by reflexivity.
    assert (0 < zlen (p_complaints C c)) by (destruct (p_complaints C c); [contradiction|rewrite zlen_cons; pose proof (zlen_nonneg l); lia]).
    assert (0 < zlen (p_my C c)) by (destruct (p_my C c); [contradiction|rewrite zlen_cons; pose proof (zlen_nonneg l); lia]).
    rewrite !(proj2 (Z.ltb_lt 0 _)) by assumption. rewrite Vh. unfold noise_key_SIZE. lia. }
  destruct (zlen out =? 0) eqn:E0; [apply Z.eqb_eq in E0; lia|]. apply bind_ok in H. destruct H as (r & LL & H). destruct r as [o|r o].
  - apply bind_ok in H. destruct H as (o2 & _ & H). injection H as <- _. reflexivity.
  - exfalso. injection H as -> _ _. refine (_ (loopM_code (fun r => r <> 0) _ _ _ _ _ _ LL)); [intros K; apply K; reflexivity|].
    intros ? ? ? ? HH. unfold peer_step17a_body in HH. inv HH.
Qed.

Lemma unaccused_continues e (c : peer) : p_step C c = 7 -> p_complaints C c <> [] -> p_my C c = [] ->
  exists c', peer_next C e c [] [] = Ok (0, c', []) /\ c' = peer_step_set C c 8 7.
Proof.
  intros Hs Hc Hm. rewrite peer_next_7 by assumption. unfold peer_step17a, peer_output_size. rewrite Hs, Hm.
  assert (0 < zlen (p_complaints C c)) by (destruct (p_complaints C c); [contradiction|rewrite zlen_cons; pose proof (zlen_nonneg l); lia]).
  rewrite (proj2 (Z.ltb_lt 0 _)) by assumption. change (0 <? zlen (A:=Z) []) with false. cbv iota. change (zlen (A:=byte) [] =? 0) with true. cbn [negb]. unfold peer_finish_step. cbn [bind Z.eqb].
  eexists. split; [reflexivity|]. rewrite Hs. reflexivity.
Qed.

(** the transcript step of a peer never fails *)
Lemma step19_forward e (c : peer) out : crypto_ok C -> p_step C c = 8 -> zlen (p_sid C c) = 32 -> is_byte (p_index C c) -> is_u64 (pe_s e 0) -> zlen out = msg19_SIZE ->
  exists m, peer_next C e c [] out = Ok (0, peer_step_set C c 9 8, m) /\ zlen m = msg19_SIZE /\ signed S (sig_pk S (p_sk C c)) (p_sid C c) 20 (p_index C c) 0 (pe_s e 0) (blake2b (cH C) 32 (p_transcript C c)) m.
Proof.
  intros HC Hs Hsid Hi Hu Ho. rewrite peer_next_8 by assumption. unfold peer_step19. change (zlen (A:=byte) [] =? 0) with true. rewrite Ho, Z.eqb_refl. cbn [negb].
  assert (V : msg19_SIZE = 143) by reflexivity. assert (Vh : hdr_SIZE = 111) by reflexivity. rewrite V in *. rewrite Vh.
  assert (Ld : zlen (blake2b (cH C) 32 (p_transcript C c)) = 32) by (unfold zlen; rewrite (ok_blake2b_len _ (ok_cH C HC)); reflexivity).
  destruct (wr_is_ok out 111 (blake2b (cH C) 32 (p_transcript C c)) ltac:(lia) ltac:(lia)) as (b1 & W & N1). rewrite W. cbn [bind].
  pose proof (rd_wr_same _ _ _ _ W) as R. rewrite Ld in R.
  destruct (send_signed S b1 0 143 20 (p_index C c) 0 (p_sk C c) (p_sid C c) (pe_s e 0) _ (ok_cS C HC) ltac:(lia) ltac:(lia) R ltac:(lia)
    ltac:(unfold is_byte; lia) Hi ltac:(unfold is_byte; lia) Hsid Hu) as (b2 & m & F1 & F2 & F3 & F4 & _).
  rewrite F1. cbn [bind]. unfold peer_finish_step. cbn [bind Z.eqb]. rewrite Hs. exists b2. split; [reflexivity|]. split; [lia|].
  rewrite rd_all in F3 by lia. injection F3 as <-. exact F4.
Qed.
End MISC.
