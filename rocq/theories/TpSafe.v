(** C32: which calls of the trusted party stay inside their buffers. *)
From Coq Require Import ZArith Lia List Bool.
From Coq.Strings Require Import Byte.
From Verif Require Import Bytes Res Mem Sodium ToprfModel DkgModel WireModel WireSpec WireProofs TpCrypto TpModel PeerModel.
From Verif Require Import TpFrame TpSpec TpMsg TpContent TpComplaints PeerContent TpControl TpSizes TpAgree BlameSpec SafeSpec TpBlame TpReports TpLog.
Import ListNotations.
Open Scope list_scope.
Open Scope Z_scope.

Section SAFE.
Variable C : crypto.
Hypothesis HC : crypto_ok C.
Notation S := (cS C).

Lemma recv_safe buf off len msgno from to pk sid eps last now : 0 <= off -> 111 <= len -> off + len <= zlen buf ->
  exists ret last', recv_msg S buf off len msgno from to pk sid eps last now = Ok (ret, last').
Proof.
  intros Ho Hl Hb. unfold recv_msg. unfold off_len, off_msgno, off_from, off_to, off_sid, sid_SIZE, off_ts, hdr_SIZE, sign_BYTES.
  rewrite !rd_ok by lia.
  destruct (getz_some buf (off + 64) ltac:(lia)) as (b1 & E1). destruct (getz_some buf (off + 69) ltac:(lia)) as (b2 & E2).
  destruct (getz_some buf (off + 70) ltac:(lia)) as (b3 & E3). rewrite ?E1, ?E2, ?E3.
  cbn [bind]. repeat match goal with
  | |- context [if negb ?b then _ else _] => destruct b; cbn [negb bind]
  | |- context [let '(_, _) := ?x in _] => destruct x; cbn [bind]
  | E : ?x = Ok _ |- context [bind ?x _] => rewrite E; cbn [bind]
  end; eauto.
Qed.
Lemma send_safe buf off len msgno from to sk sid now : 0 <= off -> off + 111 <= zlen buf -> zlen sid = 32 ->
  exists buf', send_msg S buf off len msgno from to sk sid now = Ok buf' /\ zlen buf' = zlen buf.
Proof.
  intros Ho Hb Hs. unfold send_msg. unfold off_len, off_msgno, off_from, off_to, off_sid, off_ts, hdr_SIZE, sign_BYTES.
  pose proof (ok_sig_len S (ok_cS C HC)) as Hsl.
  repeat match goal with |- context [bind (wr ?b ?o ?d) _] =>
    let E := fresh "E" in let L := fresh "L" in let b' := fresh "b" in
    destruct (wr_is_ok b o d) as (b' & E & L); [lia|rewrite ?zlen_le, ?Hs; try (change (zlen [_]) with 1); lia|rewrite E; cbn [bind]; clear E] end.
  rewrite rd_ok by lia. cbn [bind]. destruct (wr_is_ok b4 off (sig_sign S sk (firstn (Z.to_nat (111 - 64)) (skipn (Z.to_nat (off + 64)) b4)))) as (b5 & E & L5).
  - lia.
  - unfold zlen at 1. rewrite Hsl. lia.
  - exists b5. split; [exact E|lia].
Qed.
Lemma tp_recv_safe c buf off len msgno from to pk i now : 0 <= off -> 111 <= len -> off + len <= zlen buf -> 0 <= i < zlen (t_last c) ->
  exists ret c', tp_recv C c buf off len msgno from to pk i now = Ok (ret, c').
Proof.
  intros. unfold tp_recv. destruct (getz_some (t_last c) i ltac:(assumption)) as (l & ->). cbn [bind].
  destruct (recv_safe buf off len msgno from to pk (t_sid c) (t_eps c) l now) as (ret & l' & ->); try assumption. cbn [bind].
  destruct (updz_some (t_last c) i l' ltac:(assumption)) as (l2 & ->). cbn [bind]. eauto.
Qed.

(** sizes in the course of a step *)
Lemma wf_ext c c' : tp_wf c -> tp_ext c c' -> tp_wf c'.
Proof.
  intros [] []. constructor; try congruence; try lia. rewrite x_t. apply x_rows; [lia|exact w_rows].
Qed.

(** a loop that copies messages to the output *)
Definition room (c0 : tp) (L base len i : Z) (s : tp * bytes * Z) : Prop :=
  tp_ext c0 (fst (fst s)) /\ zlen (snd (fst s)) = L /\ 0 <= snd s <= base + i * len.
Definition keeps_room (c0 : tp) (L base len i : Z) (r : res (ctl (tp * bytes * Z))) : Prop :=
  exists x, r = Ok x /\ match x with Next s => room c0 L base len (i + 1) s | Return _ _ => True end.

Ltac ext_by := repeat (first [eassumption | eapply ext_trans; [eassumption|]]); eauto using ext_refl, ext_add, ext_recv, ext_pks, ext_com, updz_zlen.

Lemma copy_safe c0 L base len i c out w m : 0 <= len -> tp_ext c0 c -> zlen out = L -> 0 <= w <= base + i * len -> zlen m = len -> base + (i + 1) * len <= L ->
  exists out', wr out w m = Ok out' /\ room c0 L base len (i + 1) (c, out', w + len).
Proof.
  intros Hl X Lo Hw Lm Hb. destruct (wr_is_ok out w m) as (out' & E & L'); [lia|lia|]. exists out'. split; [exact E|]. unfold room. cbn [fst snd]. split; [exact X|]. split; lia.
Qed.
Lemma blame_safe c0 L base len i c out w r step error peer other : 0 <= len -> tp_ext c0 c -> zlen out = L -> 0 <= w <= base + i * len ->
  exists x, match add_cheater c step error peer other with None => Ok (Return r (c, out, w)) | Some c => Ok (Next (c, out, w)) end = Ok x /\
    match x with Next s => room c0 L base len (i + 1) s | Return _ _ => True end.
Proof.
  intros Hl X Lo Hw. destruct (add_cheater _ _ _ _ _) as [c1|] eqn:A; eexists; (split; [reflexivity|]); [|exact I].
  apply ext_add in A. unfold room. cbn [fst snd]. split; [eapply ext_trans; eassumption|]. split; lia.
Qed.

Lemma m2 : msg2_SIZE = 175. Proof. reflexivity. Qed.
Lemma m4 : msg4_SIZE = 159. Proof. reflexivity. Qed.
Lemma m8 : msg8_SIZE = 256. Proof. reflexivity. Qed.

Lemma body4_safe e input c0 L i s : tp_wf c0 -> zlen input = 239 * t_n c0 -> L = 111 + 175 * t_n c0 -> 0 <= i < t_n c0 ->
  room c0 L 111 175 i s -> keeps_room c0 L 111 175 i (tp_step4_body C e input i s).
Proof.
  intros W Li EL Hi (X & Lo & Hw). destruct s as [[c out] w]. cbn [fst snd] in *. unfold keeps_room, tp_step4_body. pose proof (wf_ext _ _ W X) as Wc.
  pose proof (x_n _ _ X) as En. rewrite m2, hdr_val. change sign_BYTES with 64. change (175 + 64) with 239.
  rewrite !rd_ok by lia. cbn [bind]. destruct (getz_some (t_lt c) i) as (lt & ->); [rewrite (w_lt c Wc); lia|]. cbn [bind].
  destruct (sig_verify _ _ _ _); cbn [negb]; [|eexists; split; [reflexivity|exact I]].
  match goal with |- context [tp_recv C c input ?o ?l ?a ?b ?d ?pk ?j ?nw] => destruct (tp_recv_safe c input o l a b d pk j nw) as (ret & c1 & E) end; [lia|lia|lia|rewrite (w_last c Wc); lia|].
  rewrite E. cbn [bind]. pose proof (ext_trans _ _ _ X (ext_recv _ _ _ _ _ _ _ _ _ _ _ _ _ E)) as X1. destruct (ret =? 0); cbn [negb].
  - match goal with |- context [updz (t_pks c1) i ?v] => destruct (updz_some (t_pks c1) i v) as (pks & Eu) end; [rewrite (w_pks c1 (wf_ext _ _ W X1)), (x_n _ _ X1); lia|].
    rewrite Eu. cbn [bind]. apply updz_zlen in Eu. pose proof (ext_trans _ _ _ X1 (ext_pks _ _ Eu)) as X2.
    match goal with |- context [wr out w ?m] => destruct (copy_safe c0 L 111 175 i (tp_pks_set c1 pks) out w m) as (out' & Ew & R) end; try assumption; try lia.
    { unfold zlen. rewrite firstn_length, skipn_length. unfold zlen in Li. lia. }
    rewrite Ew. cbn [bind]. eexists. split; [reflexivity|exact R].
  - apply blame_safe; try assumption; lia.
Qed.

Lemma relay_index n k : 0 < n -> 0 <= k < n * n -> 0 <= k / n < n /\ 0 <= k mod n < n.
Proof. intros Hn Hk. split; [split; [apply Z.div_pos; lia|apply Z.div_lt_upper_bound; lia]|apply Z.mod_pos_bound; exact Hn]. Qed.

Lemma body68_safe e input c0 L k s : tp_wf c0 -> e_log e = true -> zlen input = 159 * t_n c0 * t_n c0 -> L = 159 * t_n c0 * t_n c0 -> 0 <= k < t_n c0 * t_n c0 ->
  room c0 L 0 159 k s -> keeps_room c0 L 0 159 k (tp_step68_body C e input k s).
Proof.
  intros W Hlog Li EL Hk (X & Lo & Hw). destruct s as [[c out] w]. cbn [fst snd] in *. unfold keeps_room, tp_step68_body. pose proof (wf_ext _ _ W X) as Wc.
  pose proof (x_n _ _ X) as En. pose proof (w_n _ W) as Hn. rewrite Hlog. rewrite m4. rewrite En.
  destruct (relay_index (t_n c0) k ltac:(lia) Hk) as (Hi & Hj). set (i := k / t_n c0) in *. set (j := k mod t_n c0) in *. cbn zeta.
  destruct (getz_some (t_pks c) j) as (pk & ->); [rewrite (w_pks c Wc); lia|]. cbn [bind].
  assert (Hp : 0 <= (j * t_n c0 + i) * 159 /\ (j * t_n c0 + i) * 159 + 159 <= zlen input) by nia.
  match goal with |- context [tp_recv C c input ?o ?l ?a ?b ?d ?pk ?j ?nw] => destruct (tp_recv_safe c input o l a b d pk j nw) as (ret & c1 & E) end; [lia|lia|lia|rewrite (w_last c Wc); lia|].
  rewrite E. cbn [bind]. pose proof (ext_trans _ _ _ X (ext_recv _ _ _ _ _ _ _ _ _ _ _ _ _ E)) as X1. destruct (ret =? 0); cbn [negb].
  - rewrite rd_ok by lia. cbn [bind].
    match goal with |- context [wr out w ?m] => destruct (copy_safe c0 L 0 159 k c1 out w m) as (out' & Ew & R) end; try assumption; try nia.
    { unfold zlen. rewrite firstn_length, skipn_length. unfold zlen in Li, Hp. lia. }
    rewrite Ew. cbn [bind]. eexists. split; [reflexivity|exact R].
  - apply blame_safe; try assumption; lia.
Qed.
Lemma body14_safe e input c0 L k s : tp_wf c0 -> zlen input = 256 * t_n c0 * t_n c0 -> L = 256 * t_n c0 * t_n c0 -> 0 <= k < t_n c0 * t_n c0 ->
  room c0 L 0 256 k s -> keeps_room c0 L 0 256 k (tp_step14_body C e input k s).
Proof.
  intros W Li EL Hk (X & Lo & Hw). destruct s as [[c out] w]. cbn [fst snd] in *. unfold keeps_room, tp_step14_body. pose proof (wf_ext _ _ W X) as Wc.
  pose proof (x_n _ _ X) as En. pose proof (w_n _ W) as Hn. rewrite m8. rewrite En.
  destruct (relay_index (t_n c0) k ltac:(lia) Hk) as (Hi & Hj). set (i := k / t_n c0) in *. set (j := k mod t_n c0) in *. cbn zeta.
  destruct (getz_some (t_pks c) j) as (pk & ->); [rewrite (w_pks c Wc); lia|]. cbn [bind].
  assert (Hp : 0 <= (j * t_n c0 + i) * 256 /\ (j * t_n c0 + i) * 256 + 256 <= zlen input) by nia.
  match goal with |- context [tp_recv C c input ?o ?l ?a ?b ?d ?pk ?j ?nw] => destruct (tp_recv_safe c input o l a b d pk j nw) as (ret & c1 & E) end; [lia|lia|lia|rewrite (w_last c Wc); lia|].
  rewrite E. cbn [bind]. pose proof (ext_trans _ _ _ X (ext_recv _ _ _ _ _ _ _ _ _ _ _ _ _ E)) as X1. destruct (ret =? 0); cbn [negb].
  - rewrite rd_ok by lia. cbn [bind].
    match goal with |- context [wr out w ?m] => destruct (copy_safe c0 L 0 256 k c1 out w m) as (out' & Ew & R) end; try assumption; try nia.
    { unfold zlen. rewrite firstn_length, skipn_length. unfold zlen in Li, Hp. lia. }
    rewrite Ew. cbn [bind]. eexists. split; [reflexivity|exact R].
  - apply blame_safe; try assumption; lia.
Qed.

Lemma body12_safe e input c0 L i s : tp_wf c0 -> zlen input = msg6_SIZE (t_t c0) * t_n c0 -> L = 111 + zlen input -> 0 <= i < t_n c0 ->
  room c0 L 111 (msg6_SIZE (t_t c0)) i s -> keeps_room c0 L 111 (msg6_SIZE (t_t c0)) i (tp_step12_body C e input i s).
Proof.
  intros W Li EL Hi (X & Lo & Hw). destruct s as [[c out] w]. cbn [fst snd] in *. unfold keeps_room, tp_step12_body. pose proof (wf_ext _ _ W X) as Wc.
  pose proof (x_n _ _ X) as En. pose proof (x_t _ _ X) as Et. pose proof (w_t _ W) as Ht. rewrite Et.
  assert (V : msg6_SIZE (t_t c0) = 111 + 32 * t_t c0) by reflexivity. set (z := msg6_SIZE (t_t c0)) in *. rewrite hdr_val.
  destruct (getz_some (t_pks c) i) as (pk & ->); [rewrite (w_pks c Wc); lia|]. cbn [bind].
  assert (Hp : 0 <= i * z /\ i * z + z <= zlen input) by nia.
  match goal with |- context [tp_recv C c input ?o ?l ?a ?b ?d ?pk ?j ?nw] => destruct (tp_recv_safe c input o l a b d pk j nw) as (ret & c1 & E) end; [lia|lia|lia|rewrite (w_last c Wc); lia|].
  rewrite E. cbn [bind]. pose proof (ext_trans _ _ _ X (ext_recv _ _ _ _ _ _ _ _ _ _ _ _ _ E)) as X1. destruct (ret =? 0); cbn [negb].
  - rewrite (x_t _ _ X1). fold z. rewrite !rd_ok by lia. cbn [bind].
    match goal with |- context [updz (t_com c1) i ?v] => destruct (updz_some (t_com c1) i v) as (com & Eu) end; [rewrite (w_com c1 (wf_ext _ _ W X1)), (x_n _ _ X1); lia|].
    rewrite Eu. cbn [bind]. rewrite <- (x_t _ _ X1) in Eu. pose proof (ext_trans _ _ _ X1 (ext_com _ _ _ _ Eu)) as X2.
    match goal with |- context [wr out w ?m] => destruct (copy_safe c0 L 111 z i (tp_com_set c1 com) out w m) as (out' & Ew & R) end; try assumption; try nia.
    { unfold zlen. rewrite firstn_length, skipn_length. unfold zlen in Li, Hp. lia. }
    rewrite Ew. cbn [bind]. eexists. split; [reflexivity|]. exact R.
  - apply blame_safe; try assumption; lia.
Qed.

Lemma room0 c L base len out : zlen out = L -> 0 <= base -> room c L base len 0 (c, out, base).
Proof. intros H Hb. unfold room. cbn [fst snd]. split; [apply ext_refl|]. split; lia. Qed.

Lemma step1_safe e c input out : tp_wf c -> is_ok (tp_step1 C e c input out).
Proof.
  intros W. pose proof (w_n _ W). unfold tp_step1. destruct (_ =? 0); cbn [negb]; [|eexists; reflexivity].
  destruct (Z.eqb_spec (zlen out) (t_n c * msg1_SIZE)) as [El|]; cbn [negb]; [|eexists; reflexivity].
  change msg1_SIZE with 111 in El. destruct (Z.leb_spec 255 (t_n c)); [lia|].
  match goal with |- context [loopM ?f ?l ?s] => destruct (loopM_seq_ok f (fun _ o => zlen o = zlen out) 1 (Z.to_nat (t_n c)) s) as (r & E & Hr) end.
  - reflexivity.
  - intros i o Hi Lo. cbv beta in Lo. change msg1_SIZE with 111. destruct (send_safe o ((i - 1) * 111) hdr_SIZE 1 0 i (t_sk c) (t_sid c) (e_s e i)) as (o' & -> & L'); [lia|lia|exact (w_sid c W)|].
    cbn [bind]. eexists. split; [reflexivity|]. cbv beta iota. lia.
  - rewrite E. cbn [bind]. destruct r; eexists; reflexivity.
Qed.

Lemma step4_safe e c input out : tp_wf c -> is_ok (tp_step4 C e c input out).
Proof.
  intros W. pose proof (w_n _ W) as Hn. unfold tp_step4. rewrite m2, hdr_val. change sign_BYTES with 64. change (175 + 64) with 239.
  destruct (Z.eqb_spec (239 * t_n c) (zlen input)) as [Ei|]; cbn [negb]; [|eexists; reflexivity].
  destruct (Z.eqb_spec (zlen out) (175 * t_n c + 111)) as [El|]; cbn [negb]; [|eexists; reflexivity].
  destruct (loopM_seq_ok (tp_step4_body C e input) (room c (zlen out) 111 175) 0 (Z.to_nat (t_n c)) (c, out, 111)) as (r & E & Hr).
  - apply room0; [reflexivity|lia].
  - intros i s Hi R. apply body4_safe; try assumption; lia.
  - rewrite E. cbn [bind]. destruct r as [[[c1 o1] w1]|? [[c1 o1] w1]]; [|eexists; reflexivity].
    destruct Hr as (X & Lo & _). cbn [fst snd] in *. destruct (0 <? _); [eexists; reflexivity|].
    destruct (send_safe o1 0 (zlen o1) 3 0 255 (t_sk c1) (t_sid c1) (e_s e 0)) as (o & -> & _); [lia|lia|rewrite (x_sid _ _ X); exact (w_sid c W)|].
    eexists. reflexivity.
Qed.
Lemma step68_safe e c input out : tp_wf c -> e_log e = true -> is_ok (tp_step68 C e c input out).
Proof.
  intros W Hlog. pose proof (w_n _ W) as Hn. unfold tp_step68. rewrite m4.
  destruct (Z.eqb_spec (zlen input) (159 * t_n c * t_n c)) as [Ei|]; cbn [negb]; [|eexists; reflexivity].
  destruct (Z.eqb_spec (zlen input) (zlen out)) as [El|]; cbn [negb]; [|eexists; reflexivity].
  destruct (loopM_seq_ok (tp_step68_body C e input) (room c (zlen out) 0 159) 0 (Z.to_nat (t_n c * t_n c)) (c, out, 0)) as (r & E & Hr).
  - apply room0; [reflexivity|lia].
  - intros i s Hi R. apply body68_safe; try assumption; lia.
  - rewrite E. cbn [bind]. destruct r as [[[c1 o1] w1]|? [[c1 o1] w1]]; eexists; reflexivity.
Qed.
Lemma step12_safe e c input out : tp_wf c -> is_ok (tp_step12 C e c input out).
Proof.
  intros W. pose proof (w_n _ W) as Hn. pose proof (w_t _ W) as Ht. unfold tp_step12. rewrite hdr_val.
  destruct (Z.eqb_spec (msg6_SIZE (t_t c) * t_n c) (zlen input)) as [Ei|]; cbn [negb]; [|eexists; reflexivity].
  destruct (Z.eqb_spec (zlen out) (111 + zlen input)) as [El|]; cbn [negb]; [|eexists; reflexivity].
  destruct (loopM_seq_ok (tp_step12_body C e input) (room c (zlen out) 111 (msg6_SIZE (t_t c))) 0 (Z.to_nat (t_n c)) (c, out, 111)) as (r & E & Hr).
  - apply room0; [reflexivity|lia].
  - intros i s Hi R. apply body12_safe; try assumption; lia.
  - rewrite E. cbn [bind]. destruct r as [[[c1 o1] w1]|? [[c1 o1] w1]]; [|eexists; reflexivity].
    destruct Hr as (X & Lo & _). cbn [fst snd] in *. destruct (0 <? _); [eexists; reflexivity|]. pose proof (zlen_nonneg input).
    destruct (send_safe o1 0 (zlen o1) 7 0 255 (t_sk c1) (t_sid c1) (e_s e 0)) as (o & -> & _); [lia|lia|rewrite (x_sid _ _ X); exact (w_sid c W)|].
    eexists. reflexivity.
Qed.
Lemma step14_safe e c input out : tp_wf c -> is_ok (tp_step14 C e c input out).
Proof.
  intros W. pose proof (w_n _ W) as Hn. unfold tp_step14. rewrite m8.
  destruct (Z.eqb_spec (zlen input) (256 * t_n c * t_n c)) as [Ei|]; cbn [negb]; [|eexists; reflexivity].
  destruct (Z.eqb_spec (zlen input) (zlen out)) as [El|]; cbn [negb]; [|eexists; reflexivity].
  destruct (loopM_seq_ok (tp_step14_body C e input) (room c (zlen out) 0 256) 0 (Z.to_nat (t_n c * t_n c)) (c, out, 0)) as (r & E & Hr).
  - apply room0; [reflexivity|lia].
  - intros i s Hi R. apply body14_safe; try assumption; lia.
  - rewrite E. cbn [bind]. destruct r as [[[c1 o1] w1]|? [[c1 o1] w1]]; [|eexists; reflexivity].
    destruct Hr as (X & Lo & _). cbn [fst snd] in *. destruct (0 <? _); [eexists; reflexivity|].
    destruct (wr_is_ok (t_enc c1) 0 input) as (enc & -> & _); [lia|rewrite (x_enc _ _ X), (w_enc c W), m8; nia|]. eexists. reflexivity.
Qed.

(** ** Complaints *)
Definition room16 (c0 : tp) (L i : Z) (s : tp * bytes * Z) : Prop :=
  room c0 L 111 (msg9_SIZE (t_n c0)) i s /\ good_complaints (t_n c0) (t_complaints (fst (fst s))).

Lemma complaint16_safe input p i lim k c0 c : tp_wf c0 -> tp_ext c0 c -> good_complaints (t_n c0) (t_complaints c) -> 0 <= i < t_n c0 ->
  0 <= p -> 0 <= k -> p + 111 + (k + 1) < zlen input ->
  exists r, tp_step16_complaint input p i lim k c = Ok r /\ match r with Next c' => tp_ext c0 c' /\ good_complaints (t_n c0) (t_complaints c') | Return _ _ => True end.
Proof.
  intros W X G Hi Hp Hk Hb. pose proof (w_n _ W) as Hn. pose proof (x_n _ _ X) as En.
  enough (K : is_ok (tp_step16_complaint input p i lim k c)).
  { destruct K as (r & E). exists r. split; [exact E|]. pose proof (ext_step16_complaint _ _ _ _ _ _ _ E) as X1. rewrite <- En in G.
    apply complaint_inv in E; try lia; [|exact G]. rename E into G1. destruct r; [|exact I]. cbn [ctl_state] in *. rewrite En in G1. split; [eapply ext_trans; eassumption|exact G1]. }
  unfold tp_step16_complaint. destruct (k + 1 <? lim); cbn [negb]; [|eexists; reflexivity]. rewrite hdr_val.
  destruct (getz_some input (p + 111 + (k + 1)) ltac:(lia)) as (d & ->). cbn [bind]. cbv zeta. pose proof (bz_range d) as Hd.
  destruct ((t_n c <? bz d) || (bz d <? 1)) eqn:Er; [destruct (add_cheater _ _ _ _ _); eexists; reflexivity|].
  apply orb_false_iff in Er. destruct Er as (Er1 & Er2). apply Z.ltb_ge in Er1, Er2.
  destruct (existsb _ _) eqn:Ex; [destruct (add_cheater _ _ _ _ _); eexists; reflexivity|].
  rewrite pair16_val in * by lia. destruct (Z.ltb_spec (zlen (t_complaints c)) (t_cmax c)) as [|Hfull]; [eexists; reflexivity|]. exfalso.
  rewrite (x_cmax _ _ X), (w_cmax _ W) in Hfull.
  assert (B : zlen (t_complaints c ++ [(i + 1) * 256 + bz d]) <= t_n c0 * t_n c0).
  { destruct G as (G1 & G2). apply complaints_bound; [lia| |].
    - apply Forall_app. split; [assumption|]. constructor; [|constructor]. unfold complaint_ok. destruct (pair_parts (i + 1) (bz d)) as (-> & ->); lia.
    - apply NoDup_snoc; [assumption|]. rewrite <- existsb_eqb_In, Ex. discriminate. }
  rewrite zlen_app in B. change (zlen [_]) with 1 in B. lia.
Qed.

Lemma body16_safe e input c0 L i s : tp_wf c0 -> zlen input = msg9_SIZE (t_n c0) * t_n c0 -> L = 111 + zlen input -> announced_inside (t_n c0) input -> 0 <= i < t_n c0 ->
  room16 c0 L i s -> exists r, tp_step16_body C e input i s = Ok r /\ match r with Next s' => room16 c0 L (i + 1) s' | Return _ _ => True end.
Proof.
  intros W Li EL HA Hi ((X & Lo & Hw) & G). destruct s as [[c out] w]. cbn [fst snd] in *. pose proof (wf_ext _ _ W X) as Wc.
  pose proof (x_n _ _ X) as En. pose proof (w_n _ W) as Hn.
  enough (K : exists r, tp_step16_body C e input i (c, out, w) = Ok r /\ match r with Next s' => room c0 L 111 (msg9_SIZE (t_n c0)) (i + 1) s' | Return _ _ => True end).
  { destruct K as (r & E & R). exists r. split; [exact E|]. destruct r as [s'|]; [|exact I]. split; [exact R|].
    apply body16_inv in E; cbn [fst]; try lia; [|rewrite En; exact G]. cbn [ctl_state fst] in E. rewrite En in E. apply E. }
  unfold tp_step16_body. rewrite En. pose proof (msg9_val (t_n c0)) as V. set (z := msg9_SIZE (t_n c0)) in *. rewrite hdr_val.
  destruct (getz_some (t_pks c) i) as (pk & ->); [rewrite (w_pks c Wc); lia|]. cbn [bind].
  assert (Hp : 0 <= i * z /\ i * z + z <= zlen input) by nia.
  match goal with |- context [tp_recv C c input ?o ?l ?a ?b ?d ?pk ?j ?nw] => destruct (tp_recv_safe c input o l a b d pk j nw) as (ret & c1 & E) end; [lia|lia|lia|rewrite (w_last c Wc); lia|].
  rewrite E. cbn [bind]. pose proof (ext_trans _ _ _ X (ext_recv _ _ _ _ _ _ _ _ _ _ _ _ _ E)) as X1.
  assert (G1 : good_complaints (t_n c0) (t_complaints c1)) by (apply tp_recv_inv in E; destruct E as (? & ? & ? & _ & _ & _ & ->); exact G).
  destruct (ret =? 0); cbn [negb]; [|apply blame_safe; try assumption; lia].
  unfold off_len. rewrite rd_ok by lia. cbn [bind]. destruct (getz_some input (i * z + 111) ltac:(lia)) as (d0 & Ed). rewrite Ed. cbn [bind].
  pose proof (HA i d0 Hi) as Hd. rewrite <- En in Hd. unfold z in Ed. rewrite En in Hd. specialize (Hd Ed). fold z in Hd.
  destruct (_ <? bz d0); [eexists; split; [reflexivity|exact I]|]. pose proof (bz_range d0).
  match goal with |- context [loopM (tp_step16_complaint input ?p i ?lim) _ _] =>
    destruct (loopM_ok (tp_step16_complaint input p i lim) (fun c => tp_ext c0 c /\ good_complaints (t_n c0) (t_complaints c)) (zrange 0 (Z.to_nat (bz d0))) c1) as (r & El & Hr) end.
  - auto.
  - intros k s1 Hk (Xs & Gs). apply zrange_In in Hk. apply complaint16_safe; try assumption; lia.
  - rewrite El. cbn [bind]. destruct r as [c2|code c2]; [|eexists; split; [reflexivity|exact I]]. destruct Hr as (X2 & _). rewrite (x_n _ _ X2). fold z.
    rewrite rd_ok by lia. cbn [bind].
    match goal with |- context [wr out w ?m] => destruct (copy_safe c0 L 111 z i c2 out w m) as (out' & Ew & R) end; try assumption; try nia.
    { unfold zlen. rewrite firstn_length, skipn_length. unfold zlen in Li, Hp. lia. }
    rewrite Ew. cbn [bind]. eexists. split; [reflexivity|exact R].
Qed.
Lemma step16_safe e c input out : tp_wf c -> announced_inside (t_n c) input -> is_ok (tp_step16 C e c input out).
Proof.
  intros W HA. pose proof (w_n _ W) as Hn. pose proof (msg9_val (t_n c)) as V. unfold tp_step16, msg10_SIZE. rewrite hdr_val.
  destruct (Z.eqb_spec (msg9_SIZE (t_n c) * t_n c) (zlen input)) as [Ei|]; cbn [negb]; [|eexists; reflexivity].
  destruct (Z.eqb_spec (zlen out) (111 + t_n c * msg9_SIZE (t_n c))) as [El|]; cbn [negb]; [|eexists; reflexivity].
  set (c0 := tp_complaints_set c []). assert (W0 : tp_wf c0) by (apply (wf_ext c); [exact W|apply ext_complaints]).
  destruct (loopM_seq_ok (tp_step16_body C e input) (room16 c0 (zlen out)) 0 (Z.to_nat (t_n c)) (c0, out, 111)) as (r & E & Hr).
  - split; [apply room0; [reflexivity|lia]|]. split; constructor.
  - intros i s Hi R. apply body16_safe; try assumption; cbn [c0 t_n tp_complaints_set]; lia.
  - rewrite E. cbn [bind]. destruct r as [[[c1 o1] w1]|? [[c1 o1] w1]]; [|eexists; reflexivity].
    destruct Hr as ((X & Lo & _) & _). cbn [fst snd] in *. destruct (_ <=? _); [destruct (add_cheater _ _ _ _ _); eexists; reflexivity|].
    destruct (0 <? _); [eexists; reflexivity|]. assert (0 <= t_n c * msg9_SIZE (t_n c)) by nia.
    destruct (send_safe o1 0 (zlen o1) 10 0 255 (t_sk c1) (t_sid c1) (e_s e 0)) as (o & -> & _); [lia|lia|rewrite (x_sid _ _ X); exact (w_sid c W)|].
    eexists. reflexivity.
Qed.

(** ** Complaint resolution *)
Lemma fold_sum l : fold_left Z.add l 0 = fold_right Z.add 0 l.
Proof. apply fold_symmetric; intros; lia. Qed.
Lemma input_size7 c : t_step c = 7 -> 2 <= t_n c <= 128 -> good_complaints (t_n c) (t_complaints c) ->
  tp_input_size c = Ok (reveal_off (t_complaints c) (t_n c + 1)).
Proof.
  intros Hs Hn (Hok & Hnd). unfold tp_input_size, tp_input_sizes. rewrite Hs.
  destruct (count_val 256 (t_n c) (t_complaints c) ltac:(lia) ltac:(lia) Hok) as (ctr & -> & Lc & G). cbn [bind]. change (0 =? 1) with false. cbn iota. f_equal.
  rewrite fold_sum. unfold reveal_off. f_equal. replace (Z.to_nat (t_n c + 1 - 1)) with (Z.to_nat (t_n c)) by lia.
  assert (E : ctr = map (fun a => accusations a (t_complaints c)) (zrange 1 (Z.to_nat (t_n c)))).
  { apply getz_ext; [rewrite zlen_map, zlen_zrange; lia|]. intros i Hi. rewrite Lc in Hi.
    specialize (G (i + 1) ltac:(lia)). replace (i + 1 - 1) with i in G by lia. rewrite G.
    erewrite (getz_map (fun a => accusations a (t_complaints c))); [|apply getz_zrange; lia]. f_equal. rewrite Z.mod_small; [f_equal; lia|].
    pose proof (accusations_bound (t_n c) (i + 1) _ ltac:(lia) Hok Hnd). lia. }
  rewrite E, map_map. apply map_ext. intros a. unfold reveal_size. change hdr_SIZE with 111. change (1 + noise_key_SIZE) with 33.
  pose proof (zlen_nonneg (filter (fun x => accused_of x =? a) (t_complaints c))) as Hz. fold (accusations a (t_complaints c)) in Hz.
  destruct (Z.ltb_spec 0 (accusations a (t_complaints c))); destruct (Z.eqb_spec (accusations a (t_complaints c)) 0); lia.
Qed.

Definition live (n : Z) (cs : list Z) : Prop := Forall (fun x => complaint_ok n x \/ x = 65535) cs.

Lemma key18_safe e input p i k c0 c cs : tp_wf c0 -> tp_ext c0 c -> live (t_n c0) cs -> 0 <= i < t_n c0 ->
  0 <= p -> 0 <= k -> p + 111 + 33 * (k + 1) <= zlen input -> getz input (p + off_from) = Ok (zb (i + 1)) ->
  exists r, tp_step18_key C e input p i k (c, cs) = Ok r /\ match r with Next (c', cs') => tp_ext c0 c' /\ live (t_n c0) cs' | Return _ _ => True end.
Proof.
  intros W X Hl Hi Hp Hk Hb Hf. pose proof (w_n _ W) as Hn. pose proof (x_n _ _ X) as En. pose proof (wf_ext _ _ W X) as Wc.
  enough (K : exists r, tp_step18_key C e input p i k (c, cs) = Ok r /\ match r with Next (c', cs') => live (t_n c0) cs' | Return _ _ => True end).
  { destruct K as (r & E & Hr). exists r. split; [exact E|]. apply ext_step18_key in E. cbn [fst] in E. destruct r as [[c' cs']|]; [|exact I]. cbn [ctl_state fst] in E.
    split; [eapply ext_trans; eassumption|exact Hr]. }
  unfold tp_step18_key. unfold noise_key_SIZE. change (1 + 32) with 33. rewrite hdr_val.
  destruct (getz_some input (p + 111 + 33 * k) ltac:(lia)) as (b & ->). cbn [bind]. rewrite Hf. cbn [bind]. cbv zeta. rewrite !bz_zb_small by lia. pose proof (bz_range b) as Rb.
  destruct (find_pair _ cs 0) as [j|] eqn:F; [|destruct (add_cheater _ _ _ _ _); eexists; (split; [reflexivity|]); [exact Hl|exact I]].
  apply find_pair_some in F. destruct F as (l1 & l2 & Ecs & _ & Ej).
  assert (Hx : complaint_ok (t_n c0) (bz b * 256 + (i + 1))).
  { assert (Hin : In (bz b * 256 + (i + 1)) cs) by (rewrite Ecs; apply in_or_app; right; left; reflexivity).
    destruct (proj1 (Forall_forall _ _) Hl _ Hin) as [H|H]; [exact H|]. exfalso. lia. }
  destruct Hx as (Hx & _). destruct (pair_parts (bz b) (i + 1) ltac:(lia)) as (E1 & _). rewrite E1 in Hx.
  rewrite Ecs, (updz_mid l1 _ l2) by lia. cbn [bind].
  assert (Hl' : live (t_n c0) (l1 ++ 65535 :: l2)).
  { unfold live in *. rewrite Ecs in Hl. apply Forall_app in Hl. destruct Hl as (A & B). inversion B; subst. apply Forall_app. split; [assumption|]. constructor; auto. }
  rewrite m8. replace (i + 1 - 1) with i by lia. rewrite En.
  set (m := (i * t_n c0 + (bz b - 1)) * 256). assert (Hm : 0 <= m /\ m + 256 <= zlen (t_enc c)) by (rewrite (w_enc c Wc), m8, En; unfold m; nia).
  unfold off_ts. rewrite rd_ok by lia. cbn [bind].
  destruct (getz_some (t_pks c) i) as (pk & ->); [rewrite (w_pks c Wc); lia|]. cbn [bind].
  match goal with |- context [recv_msg S ?buf ?o ?l ?a ?f ?t ?pk ?sid ?ep ?la ?nw] => destruct (recv_safe buf o l a f t pk sid ep la nw) as (ret & l' & ->) end; [lia|lia|lia|].
  cbn [bind]. assert (FIN : forall (err : Z) (oth : Z) (c2 : tp), exists r, match add_cheater c2 18 err (i + 1) oth with None => Ok (Return 4 (c2, l1 ++ 65535 :: l2)) | Some c => Ok (Next (c, l1 ++ 65535 :: l2)) end = Ok r /\
      match r with Next (c', cs') => live (t_n c0) cs' | Return _ _ => True end).
  { intros. destruct (add_cheater _ _ _ _ _); eexists; (split; [reflexivity|]); [exact Hl'|exact I]. }
  destruct (ret =? 0); cbn [negb]; [|apply FIN].
  change hs3_SIZE with 64. change share_SIZE with 33. change mac_SIZE with 16. change hmac_SIZE with 32. rewrite !rd_ok by lia. cbn [bind].
  destruct (bytes_eqb _ _); cbn [negb]; [|apply FIN]. destruct (nz_aead_decrypt _ _ _) as [pt|]; [|apply FIN].
  destruct (s_index _ =? bz b); cbn [negb].
  - destruct (getz_some (t_com c) i) as (row & Er); [rewrite (w_com c Wc); lia|]. rewrite Er. cbn [bind].
    assert (Lr : zlen row = t_t c) by (apply (proj1 (Forall_forall _ _) (w_rows c Wc)); eapply getz_In; exact Er). pose proof (w_t c Wc).
    unfold dkg_verify_commitment. destruct (_ =? _); [cbn [bind]; apply FIN|]. destruct (getz_some row 0 ltac:(lia)) as (C0 & ->). cbn [bind].
    destruct (verify_loop _ _ _ _ _); [|cbn [bind]; apply FIN]. destruct (bytes_eqb _ _); cbn [bind]; apply FIN.
  - destruct (add_cheater _ _ _ _ _) as [c2|] eqn:A; [|eexists; split; [reflexivity|exact I]]. apply add_cheater_inv in A. destruct A as (_ & ->).
    cbn [t_cheaters tp_cheaters_set]. rewrite (getz_mid (t_cheaters c)) by (rewrite zlen_app; change (zlen [_]) with 1; lia). cbn [bind].
    rewrite (updz_mid (t_cheaters c) _ []) by (rewrite zlen_app; change (zlen [_]) with 1; lia). cbn [bind]. eexists. split; [reflexivity|exact Hl'].
Qed.

Lemma body18_safe e input ctr i cs0 c0 c cs p : tp_wf c0 -> good_complaints (t_n c0) cs0 -> tp_ext c0 c -> live (t_n c0) cs -> 0 <= i < t_n c0 ->
  getz ctr i = Ok (accusations (i + 1) cs0) -> p = reveal_off cs0 (i + 1) -> 0 <= p -> reveal_off cs0 (i + 1 + 1) <= zlen input ->
  exists r, tp_step18_body C e input ctr i (c, cs, p) = Ok r /\
    match r with Next (c', cs', p') => tp_ext c0 c' /\ live (t_n c0) cs' /\ p' = reveal_off cs0 (i + 1 + 1) /\ 0 <= p' | Return _ _ => True end.
Proof.
  intros W (Hok & Hnd) X Hl Hi Hctr Ep Hp Hend. pose proof (w_n _ W) as Hn. pose proof (x_n _ _ X) as En. pose proof (wf_ext _ _ W X) as Wc.
  rewrite reveal_off_S, <- Ep in * by lia. unfold reveal_size in *. pose proof (accusations_bound (t_n c0) (i + 1) _ ltac:(lia) Hok Hnd) as Hacc.
  unfold tp_step18_body. rewrite Hctr. cbn [bind]. set (k := accusations (i + 1) cs0) in *. clearbody k.
  destruct (Z.eqb_spec k 0) as [Ek|Hk]; [eexists; split; [reflexivity|]; split; [assumption|]; split; [assumption|]; lia|].
  unfold noise_key_SIZE. change (1 + 32) with 33. rewrite hdr_val.
  destruct (getz_some (t_pks c) i) as (pk & ->); [rewrite (w_pks c Wc); lia|]. cbn [bind].
  match goal with |- context [tp_recv C c input ?o ?l ?a ?b ?d ?pk ?j ?nw] => destruct (tp_recv_safe c input o l a b d pk j nw) as (ret & c1 & E) end; [lia|lia|lia|rewrite (w_last c Wc); lia|].
  rewrite E. cbn [bind]. pose proof (ext_trans _ _ _ X (ext_recv _ _ _ _ _ _ _ _ _ _ _ _ _ E)) as X1.
  destruct (Z.eqb_spec ret 0) as [->|Hr]; cbn [negb].
  - apply tp_recv_inv in E. destruct E as (last & last' & l & R1 & R2 & R3 & Ec1).
    destruct (recv_rd C input p (111 + 33 * k) 11 (i + 1) 0 pk (t_sid c) (t_eps c) last (e_r e i) 0 last' R2 eq_refl Hp ltac:(lia)) as (m & Hm).
    destruct (recv_accepted _ _ _ _ _ _ _ _ _ _ _ _ _ _ Hm ltac:(lia) R2) as (_ & _ & body & Hb).
    destruct (signed_ts _ _ _ _ _ _ _ _ _ _ _ _ Hm (w_sid c Wc) Hb) as (_ & Hf).
    destruct (loopM_ok (tp_step18_key C e input p i) (fun s => tp_ext c0 (fst s) /\ live (t_n c0) (snd s)) (zrange 0 (Z.to_nat k)) (c1, cs)) as (r & El & Hr).
    + auto.
    + intros j [c2 cs2] Hj (X2 & L2). cbn [fst snd] in *. apply zrange_In in Hj.
      destruct (key18_safe e input p i j c0 c2 cs2) as (r & Er & Hr); try assumption; try lia. exists r. split; [exact Er|]. destruct r as [[? ?]|]; exact Hr.
    + rewrite El. cbn [bind]. destruct r as [[c2 cs2]|? [c2 cs2]]; (eexists; split; [reflexivity|]); [|exact I]. destruct Hr as (X2 & L2). cbn [fst snd] in *.
      split; [exact X2|]. split; [exact L2|]. lia.
  - destruct (add_cheater _ _ _ _ _) eqn:A; (eexists; split; [reflexivity|]); [|exact I]. apply ext_add in A.
    split; [eapply ext_trans; eassumption|]. split; [exact Hl|]. lia.
Qed.

Lemma reveal_off_mono cs a b : 1 <= a <= b -> reveal_off cs a <= reveal_off cs b.
Proof.
  intros H. replace b with (a + Z.of_nat (Z.to_nat (b - a))) by lia. generalize (Z.to_nat (b - a)) as k. induction k as [|k IH].
  - replace (a + Z.of_nat 0) with a by lia. lia.
  - replace (a + Z.of_nat (Datatypes.S k)) with (a + Z.of_nat k + 1) by lia. rewrite reveal_off_S by lia. unfold reveal_size.
    pose proof (zlen_nonneg (filter (fun x => accused_of x =? a + Z.of_nat k) cs)) as Hz. fold (accusations (a + Z.of_nat k) cs) in Hz. destruct (_ =? 0); lia.
Qed.

Lemma step18_safe e c input out : tp_wf c -> t_step c = 7 -> good_complaints (t_n c) (t_complaints c) -> is_ok (tp_step18 C e c input out).
Proof.
  intros W Hs G. pose proof (w_n _ W) as Hn. unfold tp_step18. rewrite (input_size7 c Hs Hn G). cbn [bind].
  destruct (Z.eqb_spec (zlen input) (reveal_off (t_complaints c) (t_n c + 1))) as [Ei|]; cbn [negb]; [|eexists; reflexivity].
  destruct (_ =? 0); cbn [negb]; [|eexists; reflexivity]. destruct G as (Hok & Hnd).
  destruct (count_val (2 ^ 32) (t_n c) (t_complaints c) ltac:(lia) ltac:(lia) Hok) as (ctr & -> & _ & GV). cbn [bind].
  assert (G2 : forall i, 0 <= i < t_n c -> getz ctr i = Ok (accusations (i + 1) (t_complaints c))).
  { intros i Hi. specialize (GV (i + 1) ltac:(lia)). replace (i + 1 - 1) with i in GV by lia. rewrite GV. f_equal. apply Z.mod_small.
    pose proof (accusations_bound (t_n c) (i + 1) _ ltac:(lia) Hok Hnd). lia. }
  destruct (loopM_seq_ok (tp_step18_body C e input ctr)
    (fun i s => let '(c', cs', p') := s in tp_ext c c' /\ live (t_n c) cs' /\ p' = reveal_off (t_complaints c) (i + 1) /\ 0 <= p') 0 (Z.to_nat (t_n c)) (c, t_complaints c, 0)) as (r & E & Hr).
  - split; [apply ext_refl|]. split; [|split; [reflexivity|lia]]. eapply Forall_impl; [|exact Hok]. intros; auto.
  - intros i [[c1 cs1] p1] Hi (X1 & L1 & E1 & P1).
    destruct (body18_safe e input ctr i (t_complaints c) c c1 cs1 p1) as (r & Er & Hr); try assumption; try lia; [split; assumption|apply G2; lia| |].
    + rewrite Ei. apply reveal_off_mono. lia.
    + exists r. split; [exact Er|]. destruct r as [[[? ?] ?]|]; exact Hr.
  - rewrite E. cbn [bind]. destruct r as [[[c1 cs1] p1]|? [[c1 cs1] p1]]; [|eexists; reflexivity].
    destruct (loopM_ok tp_step18_unanswered (fun _ => True) cs1 c1 I) as (r & E1 & _).
    + intros x c2 _ _. unfold tp_step18_unanswered. destruct (_ =? _); [eexists; split; [reflexivity|exact I]|]. destruct (add_cheater _ _ _ _ _); eexists; (split; [reflexivity|exact I]).
    + rewrite E1. cbn [bind]. destruct r; eexists; reflexivity.
Qed.

(** ** The last two steps *)
Lemma step20_safe e c input out : tp_wf c -> is_ok (tp_step20 C e c input out).
Proof.
  intros W. pose proof (w_n _ W) as Hn. unfold tp_step20. change msg19_SIZE with 143. change msg20_SIZE with 113. rewrite hdr_val.
  destruct (Z.eqb_spec (143 * t_n c) (zlen input)) as [Ei|]; cbn [negb]; [|eexists; reflexivity].
  destruct (Z.eqb_spec (zlen out) 113) as [El|]; cbn [negb]; [|eexists; reflexivity]. cbv zeta.
  destruct (wr_is_ok out 111 str_OK) as (o0 & -> & L0); [lia|change (zlen str_OK) with 2; lia|]. cbn [bind].
  match goal with |- context [loopM ?f _ _] =>
  destruct (loopM_seq_ok f (fun _ s => tp_ext c (fst s) /\ zlen (snd s) = 113) 0 (Z.to_nat (t_n c)) (c, o0)) as (r & E & Hr) end.
  - split; [apply ext_refl|cbn [snd]; lia].
  - intros i [c1 o1] Hi (X & Lo). cbn [fst snd] in *. pose proof (wf_ext _ _ W X) as Wc. pose proof (x_n _ _ X) as En.
    unfold tp_step20_body. change msg19_SIZE with 143. rewrite hdr_val. destruct (getz_some (t_pks c1) i) as (pk & ->); [rewrite (w_pks c1 Wc); lia|]. cbn [bind].
    match goal with |- context [tp_recv C c1 input ?o ?l ?a ?b ?d ?pk ?j ?nw] => destruct (tp_recv_safe c1 input o l a b d pk j nw) as (ret & c2 & E) end; [lia|lia|lia|rewrite (w_last c1 Wc); lia|].
    rewrite E. cbn [bind]. pose proof (ext_trans _ _ _ X (ext_recv _ _ _ _ _ _ _ _ _ _ _ _ _ E)) as X2.
    destruct (wr_is_ok o1 111 str_NO) as (o2 & E2 & L2); [lia|change (zlen str_NO) with 2; lia|].
    destruct (ret =? 0); cbn [negb].
    + rewrite rd_ok by lia. cbn [bind]. destruct (bytes_eqb _ _); cbn [negb]; [eexists; split; [reflexivity|]; cbn [fst snd]; auto|].
      destruct (add_cheater _ _ _ _ _) eqn:A; [|eexists; split; [reflexivity|exact I]]. rewrite E2. cbn [bind]. apply ext_add in A.
      eexists. split; [reflexivity|]. cbn [fst snd]. split; [eapply ext_trans; eassumption|lia].
    + destruct (add_cheater _ _ _ _ _) eqn:A; [|eexists; split; [reflexivity|exact I]]. rewrite E2. cbn [bind]. apply ext_add in A.
      eexists. split; [reflexivity|]. cbn [fst snd]. split; [eapply ext_trans; eassumption|lia].
  - rewrite E. cbn [bind]. destruct r as [[c1 o1]|? [c1 o1]]; [|eexists; reflexivity]. destruct Hr as (X & Lo). cbn [fst snd] in *.
    destruct (send_safe o1 0 (zlen o1) 21 0 255 (t_sk c1) (t_sid c1) (e_s e 0)) as (o & -> & _); [lia|lia|rewrite (x_sid _ _ X); exact (w_sid c W)|].
    cbn [bind]. destruct (_ =? 0); eexists; reflexivity.
Qed.
Lemma step22_safe e c input out : tp_wf c -> is_ok (tp_step22 C e c input out).
Proof.
  intros W. pose proof (w_n _ W) as Hn. unfold tp_step22. change msg21_SIZE with 113.
  destruct (Z.eqb_spec (113 * t_n c) (zlen input)) as [Ei|]; cbn [negb]; [|eexists; reflexivity].
  destruct (_ =? 0); cbn [negb]; [|eexists; reflexivity].
  destruct (loopM_seq_ok (tp_step22_body C e input) (fun _ c' => tp_ext c c') 0 (Z.to_nat (t_n c)) c) as (r & E & Hr).
  - apply ext_refl.
  - intros i c1 Hi X. pose proof (wf_ext _ _ W X) as Wc. pose proof (x_n _ _ X) as En. unfold tp_step22_body. change msg21_SIZE with 113. rewrite hdr_val.
    destruct (getz_some (t_pks c1) i) as (pk & ->); [rewrite (w_pks c1 Wc); lia|]. cbn [bind].
    match goal with |- context [tp_recv C c1 input ?o ?l ?a ?b ?d ?pk ?j ?nw] => destruct (tp_recv_safe c1 input o l a b d pk j nw) as (ret & c2 & E) end; [lia|lia|lia|rewrite (w_last c1 Wc); lia|].
    rewrite E. cbn [bind]. pose proof (ext_trans _ _ _ X (ext_recv _ _ _ _ _ _ _ _ _ _ _ _ _ E)) as X2. destruct (ret =? 0); cbn [negb].
    + rewrite rd_ok by lia. cbn [bind]. eexists. split; [reflexivity|exact X2].
    + destruct (add_cheater _ _ _ _ _) eqn:A; (eexists; split; [reflexivity|]); [|exact I]. apply ext_add in A. eapply ext_trans; eassumption.
  - rewrite E. cbn [bind]. destruct r; eexists; reflexivity.
Qed.

(** ** All steps *)
Theorem tp_safe e c input out : tp_wf c ->
  (t_step c = 2 \/ t_step c = 3 -> e_log e = true) ->
  (t_step c = 6 -> announced_inside (t_n c) input) ->
  (t_step c = 7 -> good_complaints (t_n c) (t_complaints c)) ->
  is_ok (tp_next C e c input out).
Proof.
  intros W H23 H6 H7.
  assert (F : forall r, is_ok r -> is_ok (tp_finish_step r)).
  { intros r (x & ->). unfold tp_finish_step. cbn [bind]. destruct x as [[? ?] ?]. eexists. reflexivity. }
  destruct (Z.eq_dec (t_step c) 0) as [E|N0]; [rewrite tp_next_0 by assumption; apply F, step1_safe; assumption|].
  destruct (Z.eq_dec (t_step c) 1) as [E|N1]; [rewrite tp_next_1 by assumption; apply F, step4_safe; assumption|].
  destruct (Z.eq_dec (t_step c) 2) as [E|N2]; [rewrite tp_next_2 by assumption; apply F, step68_safe; auto|].
  destruct (Z.eq_dec (t_step c) 3) as [E|N3]; [rewrite tp_next_3 by assumption; apply F, step68_safe; auto|].
  destruct (Z.eq_dec (t_step c) 4) as [E|N4]; [rewrite tp_next_4 by assumption; apply F, step12_safe; assumption|].
  destruct (Z.eq_dec (t_step c) 5) as [E|N5]; [rewrite tp_next_5 by assumption; apply F, step14_safe; assumption|].
  destruct (Z.eq_dec (t_step c) 6) as [E|N6].
  { rewrite tp_next_6 by assumption. destruct (step16_safe e c input out W (H6 E)) as ([[ret c1] o1] & ->). eexists. reflexivity. }
  destruct (Z.eq_dec (t_step c) 7) as [E|N7]; [rewrite tp_next_7 by assumption; apply F, step18_safe; auto|].
  destruct (Z.eq_dec (t_step c) 8) as [E|N8]; [rewrite tp_next_8 by assumption; apply F, step20_safe; assumption|].
  destruct (Z.eq_dec (t_step c) 9) as [E|N9]; [rewrite tp_next_9 by assumption; apply F, step22_safe; assumption|].
  rewrite tp_next_other by lia. eexists. reflexivity.
Qed.

(** at any point of a history *)
Theorem tp_safe_history e c0 calls outs input out : tp_wf c0 -> t_complaints c0 = [] -> tp_run C c0 calls = Ok outs ->
  (t_step (final c0 outs) = 2 \/ t_step (final c0 outs) = 3 -> e_log e = true) ->
  (t_step (final c0 outs) = 6 -> announced_inside (t_n (final c0 outs)) input) ->
  exists r, tp_next C e (final c0 outs) input out = Ok r.
Proof.
  intros W Hc H H23 H6. apply tp_safe; try assumption; [eapply tp_run_wf; eassumption|]. intros _.
  assert (G : good_complaints (t_n c0) (t_complaints c0)) by (rewrite Hc; split; constructor).
  destruct (run_records C calls c0 outs W G H) as (-> & G2 & _). exact G2.
Qed.
End SAFE.

(** ** Without logging *)
Section LOGOFF.
Variable C : crypto.
Lemma body68_quiet r s input k st x : tp_step68_body C (mkEnv false r s) input k st = Ok x -> t_cheaters (fst (fst (ctl_state x))) = t_cheaters (fst (fst st)).
Proof.
  unfold tp_step68_body. cbn [e_log e_r]. destruct st as [[c o] w]. intros H. apply bind_ok in H. destruct H as (pk & _ & H). apply bind_ok in H. destruct H as ((ret & c1) & E & H).
  assert (Ec : t_cheaters c1 = t_cheaters c) by (apply tp_recv_inv in E; destruct E as (? & ? & ? & _ & _ & _ & ->); reflexivity).
  destruct (negb _).
  - destruct (add_cheater _ _ _ _ _); [discriminate|]. injection H as <-. exact Ec.
  - apply bind_ok in H. destruct H as (? & _ & H). apply bind_ok in H. destruct H as (? & _ & H). injection H as <-. exact Ec.
Qed.
Lemma loop68_quiet r s input l : forall st x, loopM (tp_step68_body C (mkEnv false r s) input) l st = Ok x -> t_cheaters (fst (fst (ctl_state x))) = t_cheaters (fst (fst st)).
Proof.
  induction l as [|i l IH]; intros st x E; cbn [loopM] in E; [injection E as <-; reflexivity|]. apply bind_ok in E. destruct E as (y & E1 & E2). apply body68_quiet in E1.
  destruct y as [s1|code s1]; cbn [ctl_state] in E1; [apply IH in E2; congruence|]. injection E2 as <-. exact E1.
Qed.
Lemma step68_quiet r s c input out ret c' out' : tp_step68 C (mkEnv false r s) c input out = Ok (ret, c', out') -> t_cheaters c' = t_cheaters c.
Proof.
  unfold tp_step68. intros H. destruct (negb _); [injection H as _ <- _; reflexivity|]. destruct (negb _); [injection H as _ <- _; reflexivity|].
  apply bind_ok in H. destruct H as (z & H & H2). apply loop68_quiet in H. destruct z as [[[c1 o1] w1]|code [[c1 o1] w1]]; cbn [ctl_state fst] in H; injection H2 as _ <- _; exact H.
Qed.
(** Steps 2 and 3 without logging: as with logging if nobody was recorded; undefined otherwise. *)
Theorem tp_unlogged r s c input out ret c' out' : t_step c = 2 \/ t_step c = 3 -> tp_next C (mkEnv true r s) c input out = Ok (ret, c', out') ->
  (t_cheaters c' = t_cheaters c -> tp_next C (mkEnv false r s) c input out = Ok (ret, c', out')) /\
  (t_cheaters c' <> t_cheaters c -> tp_next C (mkEnv false r s) c input out = UB).
Proof.
  intros Hs H. split; [apply tp_log_on; exact H|]. intros Hc. destruct (tp_next C (mkEnv false r s) c input out) as [[[ret2 c2] o2]|] eqn:E; [|reflexivity]. exfalso. apply Hc.
  pose proof (tp_log_off _ _ _ _ _ _ _ E) as E2. rewrite H in E2. injection E2 as -> -> ->.
  assert (HH : tp_next C (mkEnv false r s) c input out = tp_finish_step (tp_step68 C (mkEnv false r s) c input out)) by (destruct Hs; [apply tp_next_2|apply tp_next_3]; assumption).
  rewrite HH in E. apply finish_inv in E. destruct E as (c1 & E & ->). apply step68_quiet in E. exact E.
Qed.
End LOGOFF.
