(** Messages of the protocol as a whole: accepted means signed and fresh; sent means signed. *)
From Coq Require Import ZArith Lia List Bool.
From Verif Require Import Bytes Res Mem Sodium ToprfModel DkgModel WireModel WireSpec WireProofs TpCrypto TpModel PeerModel TpSpec.
Import ListNotations.
Open Scope list_scope.
Open Scope Z_scope.

Lemma signed_zlen S pk sid msgno from to ts body m : zlen sid = 32 -> signed S pk sid msgno from to ts body m ->
  zlen m = 111 + zlen body.
Proof.
  intros Hs (sig & H1 & _ & -> & _). unfold message. rewrite !zlen_app, H1, zlen_header by assumption. lia.
Qed.

Lemma signed_body S pk sid msgno from to ts body m : zlen sid = 32 -> signed S pk sid msgno from to ts body m ->
  rd m 111 (zlen body) = Ok body.
Proof.
  intros Hs (sig & H1 & _ & -> & _). unfold message. rewrite app_assoc. rewrite <- (app_nil_r body) at 2.
  apply rd_mid; [|reflexivity]. rewrite !zlen_app, H1, zlen_header by assumption. reflexivity.
Qed.

(** time stamp and body are determined by the bytes *)
Lemma signed_inj S pk pk' sid sid' msgno msgno' from from' to to' ts ts' body body' m : zlen sid = 32 -> zlen sid' = 32 ->
  signed S pk sid msgno from to ts body m -> signed S pk' sid' msgno' from' to' ts' body' m ->
  sid = sid' /\ ts = ts' /\ body = body'.
Proof.
  intros Hs Hs' H1 H2. pose proof (signed_zlen _ _ _ _ _ _ _ _ _ Hs H1) as L1. pose proof (signed_zlen _ _ _ _ _ _ _ _ _ Hs' H2) as L2.
  destruct H1 as (sig & A1 & A2 & A3 & _), H2 as (sig' & B1 & B2 & B3 & _). rewrite A3 in B3. unfold message, header in B3.
  assert (app_inj : forall (a b c d : bytes), zlen a = zlen c -> a ++ b = c ++ d -> a = c /\ b = d).
  { intros a b c d Hl Heq. assert (Hn : length a = length c) by (unfold zlen in Hl; lia).
    split.
    - apply (f_equal (firstn (length a))) in Heq. rewrite !firstn_app, Nat.sub_diag, firstn_all in Heq. cbn [firstn] in Heq.
      rewrite app_nil_r, Hn, firstn_all, Nat.sub_diag in Heq. cbn [firstn] in Heq. rewrite app_nil_r in Heq. exact Heq.
    - apply (f_equal (skipn (length a))) in Heq. rewrite !skipn_app, Nat.sub_diag, skipn_all in Heq. cbn [skipn app] in Heq.
      rewrite Hn, skipn_all, Nat.sub_diag in Heq. exact Heq. }
  rewrite <- !app_assoc in B3. apply app_inj in B3; [|lia]. destruct B3 as (_ & B3).
  apply app_inj in B3; [|reflexivity]. destruct B3 as (_ & B3).
  apply app_inj in B3; [|rewrite !zlen_be; reflexivity]. destruct B3 as (_ & B3).
  apply app_inj in B3; [|reflexivity]. destruct B3 as (_ & B3).
  apply app_inj in B3; [|reflexivity]. destruct B3 as (_ & B3).
  apply app_inj in B3; [|rewrite !zlen_be; reflexivity]. destruct B3 as (T & B3).
  apply app_inj in B3; [|lia]. destruct B3 as (D & B3). split; [exact D|]. split; [|exact B3].
  apply (f_equal of_be) in T. rewrite !of_be_be in T; [exact T|exact B2|exact A2].
Qed.

(** what acceptance means *)
Lemma recv_accepted S buf off len m msgno from to pk sid eps last now last' :
  rd buf off len = Ok m -> 111 <= len ->
  recv_msg S buf off len msgno from to pk sid eps last now = Ok (0, last') ->
  zlen sid = 32 /\ fresh eps last last' now /\ exists body, signed S pk sid msgno from to last' body m.
Proof.
  intros H1 H2 H3. destruct (recv_checks S buf off len m msgno from to pk sid eps last now H1 H2) as (f & r & l & F & En & R & R0 & _ & RL).
  rewrite R in H3. injection H3 as -> ->. specialize (RL eq_refl). subst last'. apply proj1 in R0. specialize (R0 eq_refl).
  unfold all_hold, checks in R0.
  repeat match goal with H : Forall _ (_ :: _) |- _ => inversion H; clear H; subst; cbn [snd] in * end.
  pose proof (zlen_encode f F) as Z. pose proof (rd_inv _ _ _ _ H1) as (_ & _ & _ & Hm & _).
  destruct F as (F1 & F2 & F3 & F4 & F5 & F6 & F7).
  assert (E : f_len f = 111 + zlen (f_body f)) by lia.
  split; [assumption|]. split; [assumption|]. exists (f_body f), (f_sig f). rewrite <- E. repeat split; try assumption; apply F6.
Qed.

Lemma recv_signed S buf off len m msgno from to pk sid eps last ts now body :
  rd buf off len = Ok m -> len < 2 ^ 32 -> is_byte msgno -> is_byte from -> is_byte to -> zlen sid = 32 ->
  signed S pk sid msgno from to ts body m -> fresh eps last ts now ->
  recv_msg S buf off len msgno from to pk sid eps last now = Ok (0, ts).
Proof.
  intros H1 H2 Hn Hf Ht Hs Hm Hfr. pose proof (signed_zlen _ _ _ _ _ _ _ _ _ Hs Hm) as L.
  pose proof (rd_inv _ _ _ _ H1) as (R1 & R2 & R3 & R4 & _). pose proof (zlen_nonneg body).
  assert (Hlen : 111 <= len) by lia.
  destruct (recv_checks S buf off len m msgno from to pk sid eps last now H1 Hlen) as (f & r & l & F & En & R & R0 & _ & RL).
  destruct Hm as (sig & M1 & M2 & M3 & M4).
  set (g := mkFields sig msgno (111 + zlen body) from to ts sid body).
  assert (Hg : fields_ok g) by (unfold g, fields_ok; cbn; repeat split; try assumption; try apply Hn; try apply Hf; try apply Ht; try apply M2; lia).
  assert (f = g) by (apply encode_inj; [assumption|assumption|]; rewrite En, M3; reflexivity). subst f.
  assert (r = 0).
  { apply R0. unfold all_hold, checks, g; cbn. repeat constructor; try assumption; cbn; lia. }
  subst r. rewrite R, (RL eq_refl). reflexivity.
Qed.

(** send_msg at [off] of a buffer whose body bytes are [body] *)
Lemma send_signed S buf off len msgno from to sk sid now body :
  sigs_ok S -> 0 <= off -> off + len <= zlen buf -> rd buf (off + 111) (len - 111) = Ok body -> len < 2 ^ 32 ->
  is_byte msgno -> is_byte from -> is_byte to -> zlen sid = 32 -> is_u64 now ->
  exists buf' m, send_msg S buf off len msgno from to sk sid now = Ok buf' /\ zlen buf' = zlen buf /\
    rd buf' off len = Ok m /\ signed S (sig_pk S sk) sid msgno from to now body m /\
    (forall o k, o + k <= off \/ off + 111 <= o -> rd buf' o k = rd buf o k).
Proof.
  intros HS Hoff Hbuf Hbody Hlen Hn Hf Ht Hsid Hnow.
  assert (Hsig : forall k m, zlen (sig_sign S k m) = 64) by (intros k m; unfold zlen; rewrite (ok_sig_len S HS); reflexivity).
  pose proof (rd_inv _ _ _ _ Hbody) as (B1 & B2 & B3 & B4 & _).
  pose proof (send_spec S buf off len msgno from to sk sid now Hsig Hoff ltac:(lia) Hsid Hnow ltac:(lia)) as E. cbn zeta in E.
  set (hd := header msgno len from to now sid) in *. set (sig := sig_sign S sk hd) in *.
  assert (H111 : zlen (sig ++ hd) = 111) by (rewrite zlen_app; unfold sig, hd; rewrite Hsig, zlen_header by assumption; reflexivity).
  assert (Hw : wr buf off (sig ++ hd) = Ok (firstn (Z.to_nat off) buf ++ sig ++ hd ++ skipn (Z.to_nat (off + 111)) buf)).
  { rewrite wr_ok by lia. rewrite H111, <- app_assoc. reflexivity. }
  set (buf' := firstn (Z.to_nat off) buf ++ sig ++ hd ++ skipn (Z.to_nat (off + 111)) buf) in *.
  exists buf', (message sig hd body). split; [exact E|]. split; [eapply wr_zlen; exact Hw|].
  assert (Hlen' : 111 + zlen body = len) by lia.
  split; [|split].
  - pose proof (rd_wr_same _ _ _ _ Hw) as R1. rewrite H111 in R1.
    assert (R2 : rd buf' (off + 111) (len - 111) = Ok body) by (rewrite <- Hbody; eapply rd_wr_after; [exact Hw|lia]).
    replace len with (111 + (len - 111)) by lia. unfold message. rewrite app_assoc. apply rd_join; assumption.
  - exists sig. rewrite Hlen'. fold hd. split; [apply Hsig|]. split; [assumption|]. split; [reflexivity|]. apply (ok_sig_complete S HS).
  - intros o k [Ho|Ho]; [eapply rd_wr_before; eassumption|eapply rd_wr_after; [exact Hw|lia]].
Qed.
