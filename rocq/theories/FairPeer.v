(** C85, the side of the peer: everything a peer that follows the protocol writes is a message signed
    with its session key, with the right number, sender and recipient and its own time stamp. *)
From Coq Require Import ZArith Lia List Bool.
From Coq.Strings Require Import Byte.
From Verif Require Import PrimeL Bytes Res Mem Sodium ToprfModel ToprfSpec DkgModel DkgSpec DkgProofs WireModel WireSpec WireProofs TpCrypto TpModel PeerModel.
From Verif Require Import TpFrame PeerFrame TpSpec TpMsg TpContent TpComplaints PeerContent TpControl TpAgree SafeSpec TpSafe PeerSafe HonestMsg HonestPeer PeerAnswer PeerSelf TpMisc.
Import ListNotations.
Open Scope list_scope.
Open Scope Z_scope.

Section FAIRPEER.
Variable C : crypto.
Hypothesis HC : crypto_ok C.
Notation peer := (peer C).
Notation N := (cN C).
Notation S := (cS C).
Let HN : noise_ok N := ok_cN C HC.
Let HS : sigs_ok S := ok_cS C HC.

(** the [sz] bytes of message [j] of a row of messages *)
Definition sent_to (p : peer) (sz msgno : Z) (e : penv) (out : bytes) (j : Z) : Prop :=
  exists body m, rd out (j * sz) sz = Ok m /\ signed S (sig_pk S (p_sk C p)) (p_sid C p) msgno (p_index C p) (j + 1) (pe_s e j) body m.

(** writing message [i] of a row *)
Lemma send_row sid (Hsid : zlen sid = 32) out o1 sz msgno from i sk now out' m :
  match m with Some b => wr out (i * sz + 111) b = Ok o1 | None => o1 = out end -> (forall b, m = Some b -> zlen b = sz - 111) ->
  send_msg S o1 (i * sz) sz msgno from (i + 1) sk sid now = Ok out' -> 0 <= i -> 111 <= sz < 2 ^ 32 -> (i + 1) * sz <= zlen out ->
  is_byte msgno -> is_byte from -> is_byte (i + 1) -> is_u64 now ->
  zlen out' = zlen out /\ (forall j, 0 <= j -> j <> i -> rd out' (j * sz) sz = rd out (j * sz) sz) /\
  exists body m', rd out' (i * sz) sz = Ok m' /\ signed S (sig_pk S sk) sid msgno from (i + 1) now body m'.
Proof.
  intros Hw Hm Hs Hi Hsz Ho B1 B2 B3 Hu.
  assert (Zo : zlen o1 = zlen out /\ forall j, 0 <= j -> j <> i -> rd o1 (j * sz) sz = rd out (j * sz) sz).
  { destruct m as [b|]; [|subst; auto]. split; [eapply wr_zlen; exact Hw|]. intros j Hj Ne. pose proof (Hm b eq_refl).
    destruct (Z.lt_ge_cases j i); [apply (rd_wr_before _ _ _ _ _ _ Hw); nia|apply (rd_wr_after _ _ _ _ _ _ Hw); nia]. }
  destruct Zo as (Zo & Ro).
  assert (B : exists body, rd o1 (i * sz + 111) (sz - 111) = Ok body) by (eexists; apply rd_ok; nia). destruct B as (body & B).
  destruct (send_signed S o1 (i * sz) sz msgno from (i + 1) sk sid now body) as (b' & m' & F1 & F2 & F3 & F4 & F5); try assumption; try nia.
  rewrite F1 in Hs. injection Hs as <-. split; [lia|]. split.
  - intros j Hj Ne. rewrite <- Ro by assumption. apply F5. nia.
  - exists body, m'. auto.
Qed.

Lemma respond_len d inmsg rand sl m : respond_noise C d inmsg rand = (sl, m) -> forall b, m = Some b -> zlen b = 48.
Proof.
  unfold respond_noise. intros H b ->. destruct (nz_responder _ _ _); [|discriminate]. destruct (nz_read _ _ _) as [s' [x|]]; [|discriminate].
  destruct (nz_write _ _ _) as [s'' [y|]]; [|discriminate]. destruct (zlen y =? hs2_SIZE) eqn:E; [|discriminate]. injection H as _ <-. apply Z.eqb_eq in E. exact E.
Qed.
Lemma init_len d sl name rpk rand d' sl' m : init_noise C d sl name rpk rand = (d', sl', m) -> forall b, m = Some b -> zlen b = 48.
Proof. intros H. destruct (init_inv C _ _ _ _ _ _ _ _ H) as [(_ & _ & ->)|(id & _ & Q & _)]; [discriminate|exact Q]. Qed.

(** the state a row of messages is written from *)
Definition keyed (c c' : peer) : Prop := p_sk C c' = p_sk C c /\ p_sid C c' = p_sid C c /\ p_index C c' = p_index C c /\ p_n C c' = p_n C c.

Lemma row_loop (f : penv -> bytes -> Z -> peer * bytes -> res (ctl (peer * bytes))) e c c0 input out sz msgno p out' : (forall i a o b o', f e input i (a, o) = Ok (Next (b, o')) -> 0 <= i < p_n C c -> keyed c a -> zlen o = p_n C c * sz ->
     keyed c b /\ zlen o' = zlen o /\ (forall j, 0 <= j -> j <> i -> rd o' (j * sz) sz = rd o (j * sz) sz) /\ sent_to c sz msgno e o' i) ->
  keyed c c0 -> 0 <= p_n C c -> zlen out = p_n C c * sz -> loopM (f e input) (zrange 0 (Z.to_nat (p_n C c))) (c0, out) = Ok (Next (p, out')) ->
  keyed c p /\ forall j, 0 <= j < p_n C c -> sent_to c sz msgno e out' j.
Proof.
  intros Hf K0 Hn Zo L.
  pose (J := fun (i : Z) (s : peer * bytes) => keyed c (fst s) /\ zlen (snd s) = p_n C c * sz /\ forall j, 0 <= j < i -> sent_to c sz msgno e (snd s) j).
  assert (HJ : J (Z.of_nat (Z.to_nat (p_n C c))) (p, out')).
  { refine (next_loop (f e input) J _ _ _ _ _ L).
    - split; [exact K0|]. split; [exact Zo|]. intros; lia.
    - intros i [a o] [b o'] Hi (J1 & J2 & J3) E. cbn [fst snd] in *. destruct (Hf _ _ _ _ _ E ltac:(lia) J1 J2) as (B1 & B2 & B3 & B4).
      split; [exact B1|]. split; [cbn [snd]; lia|]. intros j Hj. cbn [snd]. destruct (Z.eq_dec j i) as [->|Ne]; [exact B4|].
      destruct (J3 j ltac:(lia)) as (body & m & R & Sg). exists body, m. rewrite B3 by lia. auto. }
  rewrite Z2Nat.id in HJ by lia. destruct HJ as (J1 & _ & J3). auto.
Qed.

Lemma b5_out e input i c out c' out' base : peer_step5_body C e input i (c, out) = Ok (Next (c', out')) ->
  0 <= i < p_n C base -> p_n C base <= 128 -> keyed base c -> zlen (p_sid C base) = 32 -> is_byte (p_index C base) -> is_u64 (pe_s e i) -> zlen out = p_n C base * 159 ->
  keyed base c' /\ zlen out' = zlen out /\ (forall j, 0 <= j -> j <> i -> rd out' (j * 159) 159 = rd out (j * 159) 159) /\ sent_to base 159 4 e out' i.
Proof.
  intros H Hi Hn (K1 & K2 & K3 & K4) Hsid Hix Hts Zo. unfold peer_step5_body in H. change msg4_SIZE with 159 in H. change hdr_SIZE with 111 in H.
  apply bind_ok in H. destruct H as (pk & _ & H). apply bind_ok in H. destruct H as ((rt & c1) & E1 & H). apply peer_recv_inv in E1. destruct E1 as (? & ? & ? & _ & _ & _ & ->).
  destruct (rt =? 0); cbn [negb] in H; [|discriminate]. apply bind_ok in H. destruct H as (pks & _ & H). apply bind_ok in H. destruct H as (npk & _ & H). apply bind_ok in H. destruct H as (npks & _ & H).
  apply bind_ok in H. destruct H as (d & _ & H). apply bind_ok in H. destruct H as (sl & _ & H). destruct (init_noise _ _ _ _ _ _) as ((d' & sl') & m) eqn:Ei.
  apply bind_ok in H. destruct H as (outs & _ & H). apply bind_ok in H. destruct H as (o1 & W1 & H). apply bind_ok in H. destruct H as (o2 & Hs & H). injection H as <- <-.
  cbn [p_sk p_sid p_index p_n peer_last_set peer_pk_set peer_outs_set peer_dev_set] in *. rewrite K1, K2, K3 in Hs.
  split; [split; [|split; [|split]]; assumption|].
  eapply (send_row _ Hsid out o1 159 4 _ i _ _ _ m); try eassumption; try lia.
  - destruct m; [exact W1|injection W1 as <-; reflexivity].
  - intros b Hb. rewrite (init_len _ _ _ _ _ _ _ _ Ei b Hb). reflexivity.
  - unfold is_byte. lia.
  - unfold is_byte. lia.
Qed.
Lemma b7_out e input i c out c' out' base : peer_step7_body C e input i (c, out) = Ok (Next (c', out')) ->
  0 <= i < p_n C base -> p_n C base <= 128 -> keyed base c -> zlen (p_sid C base) = 32 -> is_byte (p_index C base) -> is_u64 (pe_s e i) -> zlen out = p_n C base * 159 ->
  keyed base c' /\ zlen out' = zlen out /\ (forall j, 0 <= j -> j <> i -> rd out' (j * 159) 159 = rd out (j * 159) 159) /\ sent_to base 159 5 e out' i.
Proof.
  intros H Hi Hn (K1 & K2 & K3 & K4) Hsid Hix Hts Zo. unfold peer_step7_body in H. change msg4_SIZE with 159 in H. change msg5_SIZE with 159 in H. change hdr_SIZE with 111 in H.
  apply bind_ok in H. destruct H as (pk & _ & H). apply bind_ok in H. destruct H as ((rt & c1) & E1 & H). apply peer_recv_inv in E1. destruct E1 as (? & ? & ? & _ & _ & _ & ->).
  destruct (rt =? 0); cbn [negb] in H; [|discriminate]. apply bind_ok in H. destruct H as (d & _ & H). apply bind_ok in H. destruct H as (inmsg & _ & H).
  destruct (respond_noise _ _ _ _) as (sl' & m) eqn:Ei.
  apply bind_ok in H. destruct H as (ins & _ & H). apply bind_ok in H. destruct H as (o1 & W1 & H). apply bind_ok in H. destruct H as (o2 & Hs & H). injection H as <- <-.
  cbn [p_sk p_sid p_index p_n peer_last_set peer_ins_set] in *. rewrite K1, K2, K3 in Hs.
  split; [split; [|split; [|split]]; assumption|].
  eapply (send_row _ Hsid out o1 159 5 _ i _ _ _ m); try eassumption; try lia.
  - destruct m; [exact W1|injection W1 as <-; reflexivity].
  - intros b Hb. rewrite (respond_len _ _ _ _ _ Ei b Hb). reflexivity.
  - unfold is_byte. lia.
  - unfold is_byte. lia.
Qed.

(** ** Calls 1 and 2: a message for everyone *)
Lemma s5_sent e c input out p out' : peer_wf C c -> (forall j, is_u64 (pe_s e j)) -> is_byte (p_index C c) -> peer_step5 C e c input out = Ok (0, p, out') ->
  zlen out' = p_n C c * 159 /\ forall j, 0 <= j < p_n C c -> sent_to c 159 4 e out' j.
Proof.
  intros W Hts Hix H. pose proof (v_sid C c W) as Hsid. pose proof (v_n C c W) as Hn. unfold peer_step5 in H.
  destruct (zlen input =? _); cbn [negb] in H; [|discriminate]. destruct (Z.eqb_spec (zlen out) (msg4_SIZE * p_n C c)) as [Zo|]; cbn [negb] in H; [|discriminate].
  apply bind_ok in H. destruct H as ((rt & c1) & E1 & H). apply peer_recv_tp_inv in E1. destruct E1 as (last & Hr & ->).
  destruct (rt =? 0) eqn:Er; cbn [negb] in H.
  2:{ apply Z.eqb_neq in Er. apply recv_codes in Hr. injection H as E _ _. lia. }
  apply bind_ok in H. destruct H as (r & L & H). apply done_inv in H. destruct H as (_ & _ & [(-> & _)| ->]).
  2:{ exfalso. assert (HH : (fun r => r <> 0) 0); [|apply HH; reflexivity]. refine (loopM_code (fun r => r <> 0) _ _ _ _ _ _ L). intros x s r1 s2 E'. eapply code5; exact E'. }
  set (c0 := peer_dev_set C _ _) in L. change (p_n C c0) with (p_n C c) in L. change msg4_SIZE with 159 in Zo.
  assert (Zl : zlen out' = p_n C c * 159).
  { pose (J := fun (_ : Z) (s : peer * bytes) => zlen (snd s) = p_n C c * 159 /\ keyed c (fst s)).
    assert (HJ : J (Z.of_nat (Z.to_nat (p_n C c))) (p, out')); [|exact (proj1 HJ)].
    refine (next_loop (peer_step5_body C e input) J _ _ _ _ _ L); [split; [cbn [snd]; lia|repeat split]|].
    intros i [a o] [b o'] Hi (J1 & J2) E. cbn [fst snd] in *. destruct (b5_out _ _ _ _ _ _ _ c E ltac:(lia) ltac:(lia) J2 Hsid Hix (Hts i) J1) as (B1 & B2 & _). split; [cbn [snd]; lia|exact B1]. }
  split; [exact Zl|].
  refine (proj2 (row_loop (peer_step5_body C) e c c0 input out 159 4 p out' _ _ _ _ L)); [|repeat split|lia|lia].
  intros i a o b o' E Hi K Z. eapply b5_out; try eassumption; try lia. apply Hts.
Qed.
Lemma s7_sent e c input out p out' : peer_wf C c -> (forall j, is_u64 (pe_s e j)) -> is_byte (p_index C c) -> peer_step7 C e c input out = Ok (0, p, out') ->
  zlen out' = p_n C c * 159 /\ forall j, 0 <= j < p_n C c -> sent_to c 159 5 e out' j.
Proof.
  intros W Hts Hix H. pose proof (v_sid C c W) as Hsid. pose proof (v_n C c W) as Hn. unfold peer_step7 in H.
  destruct (zlen input =? _); cbn [negb] in H; [|discriminate]. destruct (Z.eqb_spec (zlen out) (msg5_SIZE * p_n C c)) as [Zo|]; cbn [negb] in H; [|discriminate].
  apply bind_ok in H. destruct H as (r & L & H). apply done_inv in H. destruct H as (_ & _ & [(-> & _)| ->]).
  2:{ exfalso. assert (HH : (fun r => r <> 0) 0); [|apply HH; reflexivity]. refine (loopM_code (fun r => r <> 0) _ _ _ _ _ _ L). intros x s r1 s2 E'. eapply code7; exact E'. }
  change msg5_SIZE with 159 in Zo.
  assert (Zl : zlen out' = p_n C c * 159).
  { pose (J := fun (_ : Z) (s : peer * bytes) => zlen (snd s) = p_n C c * 159 /\ keyed c (fst s)).
    assert (HJ : J (Z.of_nat (Z.to_nat (p_n C c))) (p, out')); [|exact (proj1 HJ)].
    refine (next_loop (peer_step7_body C e input) J _ _ _ _ _ L); [split; [cbn [snd]; lia|repeat split]|].
    intros i [a o] [b o'] Hi (J1 & J2) E. cbn [fst snd] in *. destruct (b7_out _ _ _ _ _ _ _ c E ltac:(lia) ltac:(lia) J2 Hsid Hix (Hts i) J1) as (B1 & B2 & _). split; [cbn [snd]; lia|exact B1]. }
  split; [exact Zl|].
  refine (proj2 (row_loop (peer_step7_body C) e c c input out 159 5 p out' _ _ _ _ L)); [|repeat split|lia|lia].
  intros i a o b o' E Hi K Z. eapply b7_out; try eassumption; try lia. apply Hts.
Qed.

(** a message that fills the whole output *)
Lemma send_all sid (Hsid : zlen sid = 32) o sz msgno from to sk now out' : send_msg S o 0 sz msgno from to sk sid now = Ok out' -> zlen o = sz -> 111 <= sz < 2 ^ 32 ->
  is_byte msgno -> is_byte from -> is_byte to -> is_u64 now ->
  zlen out' = sz /\ (forall a b, 111 <= a -> rd out' a b = rd o a b) /\ exists body, signed S (sig_pk S sk) sid msgno from to now body out'.
Proof.
  intros Hs Zo Hsz B1 B2 B3 Hu. assert (B : exists body, rd o (0 + 111) (sz - 111) = Ok body) by (eexists; apply rd_ok; lia). destruct B as (body & B).
  destruct (send_signed S o 0 sz msgno from to sk sid now body) as (b' & m' & F1 & F2 & F3 & F4 & F5); try assumption; try lia.
  rewrite F1 in Hs. injection Hs as <-. split; [lia|]. split; [intros a b Ha; apply F5; lia|]. rewrite rd_all in F3 by lia. injection F3 as <-. eauto.
Qed.

(** ** Call 3: the commitments *)
Lemma s911_sent e c input out p out' : peer_wf C c -> p_step C c <> 0 -> is_u64 (pe_s e 0) -> is_byte (p_index C c) -> peer_step911 C e c input out = Ok (0, p, out') ->
  zlen out' = 111 + 32 * p_t C c /\ exists body, signed S (sig_pk S (p_sk C c)) (p_sid C c) 6 (p_index C c) 255 (pe_s e 0) body out'.
Proof.
  intros W H0 Hts Hix H. pose proof (v_n C c W) as Hn. pose proof (v_t C c W) as Ht. pose proof (v_sid C c W) as Hsid. unfold peer_step911 in H.
  destruct (zlen input =? _); cbn [negb] in H; [|discriminate]. destruct (Z.eqb_spec (zlen out) (msg6_SIZE (p_t C c))) as [Zo|]; cbn [negb] in H; [|discriminate].
  apply bind_ok in H. destruct H as (r & L & H).
  pose proof (ploop_ext C (fun c => c) _ _ _ _ (pext_step911_body C e input) L) as X. cbn beta in X.
  destruct r as [c1|code c1]; cbn [ctl_state] in *.
  2:{ exfalso. injection H as -> _ _. assert (HH : (fun r => r <> 0) 0); [|apply HH; reflexivity]. refine (loopM_code (fun r => r <> 0) _ _ _ _ _ _ L). intros x s r1 s2 E'. eapply code911; exact E'. }
  apply bind_ok in H. destruct H as (data & Hd & H). apply bind_ok in H. destruct H as (((ret & coms) & shares) & Hk & H).
  destruct (ret =? 0); cbn [negb] in H; [|discriminate]. apply bind_ok in H. destruct H as (o1 & W1 & H). apply bind_ok in H. destruct H as (o2 & W2 & H). injection H as <- <-.
  cbn [p_t p_index p_sk p_sid peer_shares_set] in W2. rewrite (y_t C _ _ X), (y_sid C _ _ X), (y_index C _ _ X H0), (y_sk C _ _ X H0) in W2.
  rewrite msg6_val in *. apply wr_zlen in W1.
  destruct (send_all _ Hsid _ _ _ _ _ _ _ _ W2 ltac:(lia) ltac:(lia) ltac:(unfold is_byte; lia) Hix ltac:(unfold is_byte; lia) Hts) as (Q1 & _ & Q2). auto.
Qed.

(** ** Call 4: the shares *)
Lemma s13_sent e c input out p out' : zlen (p_outs C c) = p_n C c -> slots C (finished C) (p_outs C c) -> zlen (p_sid C c) = 32 -> (forall j, is_u64 (pe_s e j)) ->
  peer_step13 C e c input out = Ok (0, p, out') -> forall j, 0 <= j < p_n C c -> sent_to c 256 8 e out' j.
Proof.
  intros Lo Hi Hsid Hts H. pose proof (pext_step13 C _ _ _ _ _ _ _ H) as X.
  destruct (s13_out C HC _ _ _ _ _ _ Lo Hi Hsid Hts H) as (_ & A2 & A3 & A4). intros j Hj. destruct (A4 j ltac:(rewrite (y_n C _ _ X); exact Hj)) as (sh & _ & s & k & ct & m3 & _ & _ & _ & _ & _ & _ & R).
  rewrite A2, A3, (y_sid C _ _ X) in R. exists (m3 ++ ct ++ c_auth C k ct). eexists. split; [exact R|]. apply (signed_mk S HS). apply Hts.
Qed.

(** ** Call 5: the complaints *)
Lemma s15_sent e c input out p out' : peer_wf C c -> p_step C c = 5 -> 1 <= p_index C c <= 128 -> is_u64 (pe_s e 0) -> peer_step15 C e c input out = Ok (0, p, out') ->
  zlen out' = 112 + p_n C c /\ (exists body, signed S (sig_pk S (p_sk C c)) (p_sid C c) 9 (p_index C c) 255 (pe_s e 0) body out') /\
  exists nm, zlen nm <= p_n C c /\ getz out' 111 = Ok (zb (zlen nm)) /\ NoDup nm /\ Forall (fun a => 1 <= a <= p_n C c) nm /\ rd out' 112 (zlen nm) = Ok (map zb nm).
Proof.
  intros W Hst Hi Hu H. pose proof (v_n C c W) as Hn. pose proof (v_t C c W) as Ht. pose proof (v_sid C c W) as Hsid.
  unfold peer_step15 in H. destruct (zlen input =? _); cbn [negb] in H; [|inv H]. destruct (zlen out =? _) eqn:E2; cbn [negb] in H; [|inv H].
  apply Z.eqb_eq in E2. apply bind_ok in H. destruct H as (r & LL & H). destruct r as [c1|r c1].
  2:{ exfalso. injection H as -> -> ->. pose proof (loopM_code (fun r => r <> 0) (peer_step15_body C e input)) as K. eapply K in LL; [apply LL; reflexivity|].
      intros i a r s HH. unfold peer_step15_body in HH. inv HH; try lia.
      match goal with E : peer_recv _ _ _ _ _ _ _ _ _ _ _ = Ok _ |- _ => apply peer_recv_inv in E; destruct E as (? & ? & ? & _ & E & _); apply recv_codes in E end; lia. }
  pose proof (loop15_com _ _ _ _ _ _ LL) as (K1 & K2). cbn [ctl_state] in K1, K2.
  assert (PL : p_ext C c c1).
  { refine (ploop_ext C (fun s : peer => s) (peer_step15_body C e input) _ _ _ _ LL). intros i a r HH. exact (pext_step15_body _ _ _ _ _ _ HH). }
  pose proof (y_n _ _ _ PL) as Yn. pose proof (y_t _ _ _ PL) as Yt. pose proof (y_xshares _ _ _ PL) as Yx. pose proof (v_com C c W) as Vc. pose proof (v_rows C c W) as Vr. pose proof (v_xshares C c W) as Vx.
  assert (VA : verify_args (p_n C c1) (p_t C c1) (p_index C c1) (p_com C c1) (p_xshares C c1) (repeat 0 (Z.to_nat (p_n C c1)))).
  { rewrite K1, K2, Yn, Yt. unfold zlen in *. repeat split; try lia; try assumption. rewrite repeat_length. lia. }
  destruct (verify_commitments_spec (cR C) (ok_cR C HC) _ _ _ _ _ _ VA) as (ret & fails & nm & V1 & V2 & V3 & V4 & V5).
  rewrite V1 in H. cbn [bind] in H. apply bind_ok in H. destruct H as (b1 & Wb & H). apply bind_ok in H. destruct H as (b2 & Sd & H). injection H as <- <-.
  rewrite (y_sid _ _ _ PL), (y_sk _ _ _ PL), K2, Yn in Sd by lia. rewrite K1, K2, Yn in *. rewrite repeat_length in V2. change hdr_SIZE with 111 in Wb.
  assert (V9 : msg9_SIZE (p_n C c) = 112 + p_n C c) by apply msg9_val. rewrite V9 in *.
  assert (Zf : zlen (zb (Z.of_nat (length nm)) :: map zb fails) = 1 + p_n C c) by (rewrite zlen_cons, zlen_map; unfold zlen; lia).
  pose proof (rd_wr_same _ _ _ _ Wb) as Rb. rewrite Zf in Rb. apply wr_zlen in Wb.
  destruct (send_all _ Hsid _ _ _ _ _ _ _ _ Sd ltac:(lia) ltac:(lia) ltac:(unfold is_byte; lia) ltac:(unfold is_byte; lia) ltac:(unfold is_byte; lia) Hu) as (Q1 & Q2 & Q3).
  split; [exact Q1|]. split; [exact Q3|]. rewrite <- (Q2 111) in Rb by lia.
  assert (Ln : (length nm <= length fails)%nat) by (rewrite <- V3; rewrite firstn_length; lia).
  exists nm. split; [unfold zlen; lia|]. split; [|split; [|split]].
  - destruct (getz_of_rd _ _ _ _ 0 (zb (Z.of_nat (length nm))) Rb eq_refl) as (_ & Q). rewrite Z.add_0_r in Q. exact Q.
  - clear - V4. induction V4 as [|x l S IH F]; constructor; [|exact IH]. intros I. pose proof (proj1 (Forall_forall _ _) F x I). lia.
  - apply Forall_forall. intros j Hj.
    assert (Hr : forall cs s, dealt (p_com C c) (p_xshares C c1) j cs s -> 1 <= j <= p_n C c).
    { intros cs s (D1 & D2 & _). assert (Z.to_nat (j - 1) < length (p_com C c))%nat by (apply nth_error_Some; congruence). unfold zlen in *. lia. }
    destruct V5 as [(u & _ & _ & _ & _ & V5)|(_ & _ & V5)]; [apply V5 in Hj; destruct Hj as (_ & Hj)|apply V5 in Hj]; destruct Hj as (_ & cs & s & Hd & _); exact (Hr _ _ Hd).
  - change 112 with (111 + 1). rewrite <- (rd_rd _ _ _ _ 1 (zlen nm) Rb) by (unfold zlen; lia). rewrite <- (firstn_skipn (length nm) fails), V3, map_app.
    change (zb (Z.of_nat (length nm)) :: map zb nm ++ map zb (skipn (length nm) fails)) with ([zb (Z.of_nat (length nm))] ++ map zb nm ++ map zb (skipn (length nm) fails)).
    apply rd_mid; [reflexivity|]. rewrite zlen_map. reflexivity.
Qed.

(** ** Call 7, nobody complained: the digest *)
Lemma s19_sent e c input out p out' : peer_wf C c -> 0 <= p_index C c < 256 -> is_u64 (pe_s e 0) -> peer_step19 C e c input out = Ok (0, p, out') ->
  zlen out' = 143 /\ (exists body, signed S (sig_pk S (p_sk C c)) (p_sid C c) 20 (p_index C c) 0 (pe_s e 0) body out') /\ rd out' 111 32 = Ok (blake2b (cH C) 32 (p_transcript C c)).
Proof.
  intros W Hi Hu H. pose proof (v_sid C c W) as Hsid. unfold peer_step19 in H. destruct (zlen input =? 0); cbn [negb] in H; [|discriminate].
  destruct (zlen out =? msg19_SIZE) eqn:E; cbn [negb] in H; [|discriminate]. apply Z.eqb_eq in E.
  apply bind_ok in H. destruct H as (o1 & W1 & H). apply bind_ok in H. destruct H as (o2 & Sn & H). injection H as <- <-.
  assert (Hl : zlen (blake2b (cH C) 32 (p_transcript C c)) = 32) by (unfold zlen; rewrite (ok_blake2b_len _ (ok_cH C HC)); reflexivity).
  pose proof (rd_wr_same _ _ _ _ W1) as R. rewrite Hl in R. apply wr_zlen in W1. change msg19_SIZE with 143 in *. change hdr_SIZE with 111 in *.
  destruct (send_all _ Hsid _ _ _ _ _ _ _ _ Sn ltac:(lia) ltac:(lia) ltac:(unfold is_byte; lia) Hi ltac:(unfold is_byte; lia) Hu) as (Q1 & Q2 & Q3).
  split; [exact Q1|]. split; [exact Q3|]. rewrite Q2 by lia. exact R.
Qed.
(** ** Call 5: how a share was opened *)
Definition opened_by (ins ins' : list (slot (nz_sess N))) (input : bytes) (k : Z) (sh : share) : Prop :=
  exists s s2 s3 m3 p3 key ct pt, getz ins k = Ok (Live s) /\ getz ins' k = Ok (Live s3) /\ nz_read N s m3 = (s2, Some p3) /\ nz_key N s2 = Some key /\
    rd input (k * 256 + 175) 49 = Ok ct /\ rd input (k * 256 + 224) 32 = Ok (c_auth C key ct) /\ nz_read N s2 ct = (s3, Some pt) /\ sh = share_of pt.
Lemma b15_opened k e input i c c' : peer_step15_body C e input i c = Ok (Next c') ->
  (i <> k -> PeerSelf.R15 C k c c') /\ (i = k -> exists sh, getz (p_xshares C c') k = Ok sh /\ opened_by (p_ins C c) (p_ins C c') input k sh).
Proof.
  intros H. split; [apply (b15_self C k e input i c c' H)|]. intros ->. unfold peer_step15_body in H. inv H.
  match goal with Q : peer_recv _ _ _ _ _ _ _ _ _ _ _ = Ok _ |- _ => apply peer_recv_inv in Q; destruct Q as (? & ? & ? & ? & ? & ? & Q); subst end.
  cbn [p_ins peer_last_set peer_ins_set p_xshares] in *.
  repeat match goal with Q : negb (_ =? 0) = false |- _ => apply negb_false_iff, Z.eqb_eq in Q; subst end.
  repeat match goal with Q : noise_decrypt _ _ _ _ = _ |- _ => apply decrypt_ok in Q; destruct Q as (? & ? & ? & ? & ? & ?); subst end.
  match goal with Q : Live _ = Live _ |- _ => injection Q as Q; subst end.
  match goal with Q : negb (bytes_eqb _ _) = false |- _ => apply negb_false_iff, bytes_eqb_eq in Q; subst end.
  change msg8_SIZE with 256 in *. change hdr_SIZE with 111 in *. change hs3_SIZE with 64 in *. change share_SIZE with 33 in *. change mac_SIZE with 16 in *. change hmac_SIZE with 32 in *. change (33 + 16) with 49 in *.
  repeat match goal with Q : updz _ k _ = Ok _ |- _ => apply updz_inv in Q; destruct Q as (? & ? & Q) end.
  match goal with Q : session_key _ _ = Ok _ |- _ => unfold session_key, of_opt in Q; destruct (nz_key N _) eqn:? in Q; [injection Q as ->|discriminate] end.
  cbn [p_ins p_xshares peer_ins_set peer_last_set peer_xshares_set]. eexists. split.
  - match goal with Q1 : forall _, getz ?l _ = _ |- getz ?l k = _ => rewrite Q1 end. rewrite Z.eqb_refl. reflexivity.
  - do 8 eexists. split; [eassumption|]. split; [match goal with Q1 : forall _, getz ?l _ = _ |- getz ?l k = _ => rewrite Q1 end; rewrite Z.eqb_refl; reflexivity|].
    split; [eassumption|]. split; [eassumption|]. split; [replace (k * 256 + 175) with (k * 256 + 111 + 64) by lia; eassumption|].
    split; [replace (k * 256 + 224) with (k * 256 + 111 + 64 + 33 + 16) by lia; eassumption|]. split; [eassumption|reflexivity].
Qed.
Lemma s15_opened k e c input out p out' : 0 <= k < p_n C c -> peer_step15 C e c input out = Ok (0, p, out') ->
  exists sh, getz (p_xshares C p) k = Ok sh /\ opened_by (p_ins C c) (p_ins C p) input k sh.
Proof.
  intros Hk H. unfold peer_step15 in H.
  destruct (zlen input =? _); cbn [negb] in H; [|discriminate]. destruct (zlen out =? _); cbn [negb] in H; [|discriminate].
  apply bind_ok in H. destruct H as (r & L & H). destruct r as [c1|code c1].
  2:{ exfalso. injection H as -> _ _. assert (HH : (fun r => r <> 0) 0); [|apply HH; reflexivity]. refine (loopM_code (fun r => r <> 0) _ _ _ _ _ _ L). intros x s r1 s2 E'. eapply (code15 C); exact E'. }
  assert (E : p_xshares C p = p_xshares C c1 /\ p_ins C p = p_ins C c1) by (inv H; auto). destruct E as (E & E'). rewrite E, E'. clear H E E'.
  destruct (loop_at (PeerSelf.R15 C k) (peer_step15_body C e input) k) with (l := zrange 0 (Z.to_nat (p_n C c))) (s := c) (s' := c1) as (a & b & A & E & B); unfold PeerSelf.R15 in *; try assumption.
  - auto.
  - intuition congruence.
  - apply zrange_NoDup.
  - apply zrange_k; exact Hk.
  - intros i s1 s2 _ Ne E. apply (b15_opened k) in E. apply E. exact Ne.
  - apply (b15_opened k) in E. destruct E as (_ & E). destruct (E eq_refl) as (sh & E1 & s & s2 & s3 & m3 & p3 & key & ct & pt & E2 & E3 & E4). destruct A as (A1 & A2), B as (B1 & B2).
    exists sh. split; [congruence|]. exists s, s2, s3, m3, p3, key, ct, pt. rewrite <- A1, B1. split; [exact E2|]. split; [exact E3|exact E4].
Qed.
(** the key of the channel opens it *)
Lemma responder_key s s2 m p : responded C s -> nz_read N s m = (s2, Some p) -> forall key c s3 pt, nz_key N s2 = Some key -> nz_read N s2 c = (s3, Some pt) ->
  nz_aead_decrypt N key c = Some pt /\ nz_key N s3 = Some key.
Proof.
  intros (d & r & s0 & m1 & s1 & p1 & m2 & A0 & A1 & A2 & A3) R key c s3 pt K Q. destruct (ok_nz_key_responder N HN _ _ _ _ _ _ _ _ _ _ _ A0 A1 A2 A3 R) as (k & K1 & _ & K3).
  assert (k = key) by congruence. subst k. exact (K3 _ _ _ Q).
Qed.
End FAIRPEER.
