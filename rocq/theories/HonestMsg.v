(** Tools for the honest run: messages as functions of their contents, sequences of equally long
    messages, lists and buffers that a loop fills from the front. *)
From Coq Require Import ZArith Lia List Bool.
From Coq.Strings Require Import Byte.
From Verif Require Import Bytes Res Mem Sodium WireModel WireSpec WireProofs TpCrypto TpModel PeerModel TpFrame TpSpec TpMsg.
Import ListNotations.
Open Scope list_scope.
Open Scope Z_scope.

(** ** loops *)
Lemma loopM_fun {X} (f : Z -> X -> res (ctl X)) (St : Z -> X) m : forall a,
  (forall k, a <= k < a + Z.of_nat m -> f k (St k) = Ok (Next (St (k + 1)))) ->
  loopM f (zrange a m) (St a) = Ok (Next (St (a + Z.of_nat m))).
Proof.
  induction m as [|m IH]; intros a H.
  - rewrite Z.add_0_r. reflexivity.
  - rewrite zrange_S. cbn [loopM]. rewrite H by lia. cbn [bind]. rewrite IH; [f_equal; f_equal; f_equal; lia|]. intros k Hk. apply H. lia.
Qed.
Lemma loopM_fun0 {X} (f : Z -> X -> res (ctl X)) (St : Z -> X) n : 0 <= n ->
  (forall k, 0 <= k < n -> f k (St k) = Ok (Next (St (k + 1)))) ->
  loopM f (zrange 0 (Z.to_nat n)) (St 0) = Ok (Next (St n)).
Proof.
  intros Hn H. rewrite (loopM_fun f St) by (intros k Hk; apply H; lia). repeat f_equal. lia.
Qed.

(** ** lists filled from the front *)
Definition fill {A} (g : Z -> A) (k : Z) (old : list A) : list A := map g (zrange 0 (Z.to_nat k)) ++ skipn (Z.to_nat k) old.
Definition zmap {A} (g : Z -> A) (n : Z) : list A := map g (zrange 0 (Z.to_nat n)).

Lemma zmap_S {A} (g : Z -> A) k : 0 <= k -> zmap g (k + 1) = zmap g k ++ [g k].
Proof.
  intros H. unfold zmap, zrange. replace (Z.to_nat (k + 1)) with (Z.to_nat k + 1)%nat by lia. rewrite seq_app, !map_app. cbn [seq map]. f_equal. f_equal. f_equal. lia.
Qed.
Lemma zmap_0 {A} (g : Z -> A) : zmap g 0 = [].
Proof. reflexivity. Qed.
Lemma zlen_zmap {A} (g : Z -> A) k : 0 <= k -> zlen (zmap g k) = k.
Proof. intros H. unfold zmap. rewrite zlen_map, zlen_zrange. lia. Qed.
Lemma getz_zmap {A} (g : Z -> A) k i : 0 <= i < k -> getz (zmap g k) i = Ok (g i).
Proof. intros H. unfold zmap. rewrite (getz_map g _ _ i); [reflexivity|]. rewrite getz_zrange by lia. f_equal. Qed.
Lemma zmap_ext {A} (f g : Z -> A) k : (forall i, 0 <= i < k -> f i = g i) -> zmap f k = zmap g k.
Proof. intros H. apply map_ext_in. intros i Hi. apply zrange_In in Hi. apply H. lia. Qed.
Lemma zmap_split {A} (f : Z -> A) a b : 0 <= a -> 0 <= b -> zmap f (a + b) = zmap f a ++ zmap (fun j => f (a + j)) b.
Proof.
  intros Ha Hb. unfold zmap, zrange. replace (Z.to_nat (a + b)) with (Z.to_nat a + Z.to_nat b)%nat by lia. rewrite seq_app, !map_app. f_equal.
  rewrite !map_map. cbn [plus]. rewrite <- (Nat.add_0_r (Z.to_nat a)) at 1.
  assert (Q : forall m s, seq (Z.to_nat a + s) m = map (fun i => (Z.to_nat a + i)%nat) (seq s m)).
  { induction m as [|m IH]; intros s; [reflexivity|]. cbn [seq map]. f_equal. rewrite <- IH. f_equal. lia. }
  rewrite Q, map_map. apply map_ext. intros i. f_equal. lia.
Qed.
Lemma map_zmap {A B} (h : A -> B) f k : map h (zmap f k) = zmap (fun i => h (f i)) k.
Proof. unfold zmap. rewrite map_map. reflexivity. Qed.
Lemma Forall_zmap {A} (P : A -> Prop) f k : (forall i, 0 <= i < k -> P (f i)) -> Forall P (zmap f k).
Proof. intros H. apply Forall_forall. intros x Hx. apply in_map_iff in Hx. destruct Hx as (i & <- & Hi). apply zrange_In in Hi. apply H. lia. Qed.

Lemma fill_0 {A} (g : Z -> A) old : fill g 0 old = old.
Proof. reflexivity. Qed.
Lemma fill_full {A} (g : Z -> A) n old : zlen old = n -> fill g n old = zmap g n.
Proof. intros H. unfold fill, zmap. rewrite skipn_all2; [apply app_nil_r|]. unfold zlen in H. lia. Qed.
Lemma zlen_fill {A} (g : Z -> A) k old : 0 <= k <= zlen old -> zlen (fill g k old) = zlen old.
Proof. intros H. unfold fill. rewrite zlen_app, zlen_map, zlen_zrange. unfold zlen in *. rewrite skipn_length. lia. Qed.
Lemma fill_open {A} (g : Z -> A) k old : 0 <= k < zlen old ->
  exists x post, getz old k = Ok x /\ fill g k old = zmap g k ++ x :: post /\ fill g (k + 1) old = zmap g k ++ g k :: post.
Proof.
  intros H. destruct (getz_some old k H) as (x & E). exists x, (skipn (Z.to_nat (k + 1)) old). split; [exact E|]. apply getz_inv in E. destruct E as (_ & E). split.
  - unfold fill, zmap. f_equal. replace (Z.to_nat (k + 1)) with (Datatypes.S (Z.to_nat k)) by lia. clear H. revert E. generalize (Z.to_nat k) as j. intros j. revert old.
    induction j as [|j IH]; intros [|y old] E; try discriminate E; [injection E as ->; reflexivity|]. exact (IH old E).
  - unfold fill. change (map g (zrange 0 (Z.to_nat (k + 1)))) with (zmap g (k + 1)). rewrite zmap_S, <- app_assoc by lia. reflexivity.
Qed.
Lemma fill_get {A} (g : Z -> A) k old : 0 <= k < zlen old -> getz (fill g k old) k = getz old k.
Proof. intros H. destruct (fill_open g k old H) as (x & post & E1 & E2 & _). rewrite E1, E2. apply getz_mid. apply zlen_zmap. lia. Qed.
Lemma fill_upd {A} (g : Z -> A) k old : 0 <= k < zlen old -> updz (fill g k old) k (g k) = Ok (fill g (k + 1) old).
Proof. intros H. destruct (fill_open g k old H) as (x & post & E1 & E2 & E3). rewrite E2, E3. apply updz_mid. apply zlen_zmap. lia. Qed.

(** ** sequences of messages of the same length *)
Definition blocks (f : Z -> bytes) (k : Z) : bytes := concat (zmap f k).

Lemma blocks_0 f : blocks f 0 = [].
Proof. reflexivity. Qed.
Lemma blocks_S f k : 0 <= k -> blocks f (k + 1) = blocks f k ++ f k.
Proof. intros H. unfold blocks. rewrite zmap_S, concat_app by assumption. cbn [concat]. rewrite app_nil_r. reflexivity. Qed.
Lemma blocks_split f a b : 0 <= a -> 0 <= b -> blocks f (a + b) = blocks f a ++ blocks (fun j => f (a + j)) b.
Proof. intros Ha Hb. unfold blocks. rewrite zmap_split, concat_app by assumption. reflexivity. Qed.
Lemma blocks_ext f g k : (forall i, 0 <= i < k -> f i = g i) -> blocks f k = blocks g k.
Proof. intros H. unfold blocks. f_equal. apply zmap_ext. exact H. Qed.
Lemma zlen_blocks f sz k : 0 <= k -> (forall i, 0 <= i < k -> zlen (f i) = sz) -> zlen (blocks f k) = k * sz.
Proof.
  intros Hk H. unfold blocks. rewrite (zlen_concat _ sz) by (apply Forall_zmap; exact H). rewrite zlen_zmap by assumption. lia.
Qed.
Lemma rd_blocks_range f sz k a b : 0 <= a -> 0 <= b -> a + b <= k -> (forall i, 0 <= i < k -> zlen (f i) = sz) ->
  rd (blocks f k) (a * sz) (b * sz) = Ok (blocks (fun j => f (a + j)) b).
Proof.
  intros Ha Hb Hk H. replace k with (a + (b + (k - (a + b)))) by lia. rewrite blocks_split, (blocks_split _ b) by lia. apply rd_mid.
  - apply zlen_blocks; [lia|]. intros i Hi. apply H. lia.
  - apply zlen_blocks; [lia|]. intros i Hi. apply H. lia.
Qed.
Lemma rd_blocks f sz k i : 0 <= i < k -> (forall i, 0 <= i < k -> zlen (f i) = sz) -> rd (blocks f k) (i * sz) sz = Ok (f i).
Proof.
  intros Hi H. pose proof (rd_blocks_range f sz k i 1 ltac:(lia) ltac:(lia) ltac:(lia) H) as E. rewrite Z.mul_1_l in E. rewrite E. change 1 with (0 + 1) at 1. rewrite blocks_S by lia.
  rewrite blocks_0, Z.add_0_r. reflexivity.
Qed.
Lemma blocks_nest (f : Z -> Z -> bytes) n : 0 < n -> forall m, 0 <= m ->
  blocks (fun j => blocks (f j) n) m = blocks (fun k => f (k / n) (k mod n)) (m * n).
Proof.
  intros Hn m Hm. rewrite <- (Z2Nat.id m) by assumption. induction (Z.to_nat m) as [|p IH]; [reflexivity|].
  replace (Z.of_nat (Datatypes.S p)) with (Z.of_nat p + 1) by lia. rewrite blocks_S by lia. rewrite IH. rewrite Z.mul_add_distr_r, Z.mul_1_l, blocks_split by lia.
  f_equal. apply blocks_ext. intros i Hi. f_equal.
  - rewrite Z.add_comm, Z.div_add, Z.div_small by lia. lia.
  - rewrite Z.add_comm, Z.mod_add, Z.mod_small by lia. reflexivity.
Qed.

(** ** buffers filled from the front *)
Definition bfill (sz : Z) (f : Z -> bytes) (k : Z) (old : bytes) : bytes := blocks f k ++ skipn (Z.to_nat (k * sz)) old.
Lemma bfill_0 sz f old : bfill sz f 0 old = old.
Proof. unfold bfill. rewrite Z.mul_0_l. reflexivity. Qed.
Lemma bfill_full sz f n old : zlen old = n * sz -> bfill sz f n old = blocks f n.
Proof. intros H. unfold bfill. rewrite skipn_all2; [apply app_nil_r|]. unfold zlen in H. lia. Qed.
Lemma bfill_open sz f n k old : 0 <= k < n -> 0 <= sz -> zlen old = n * sz -> (forall i, 0 <= i < n -> zlen (f i) = sz) ->
  exists junk post, zlen junk = sz /\ bfill sz f k old = blocks f k ++ junk ++ post /\ bfill sz f (k + 1) old = blocks f k ++ f k ++ post /\ zlen (blocks f k) = k * sz.
Proof.
  intros Hk Hs Ho H. exists (firstn (Z.to_nat sz) (skipn (Z.to_nat (k * sz)) old)), (skipn (Z.to_nat ((k + 1) * sz)) old).
  assert (Q : (k + 1) * sz <= n * sz) by nia. assert (Q2 : 0 <= k * sz) by nia. split; [|split; [|split]].
  - unfold zlen in *. rewrite firstn_length, skipn_length. nia.
  - unfold bfill. f_equal. rewrite <- (firstn_skipn (Z.to_nat sz) (skipn (Z.to_nat (k * sz)) old)) at 1. f_equal. rewrite skipn_skipn. f_equal. nia.
  - unfold bfill. rewrite blocks_S, <- app_assoc by lia. reflexivity.
  - apply zlen_blocks; [lia|]. intros i Hi. apply H. lia.
Qed.

(** ** messages *)
Section MSG.
Variable S : sigs.
Hypothesis HS : sigs_ok S.
Variable sid : bytes.
Hypothesis Hsid : zlen sid = 32.

Definition mk_msg (sk : bytes) (msgno from to ts : Z) (body : bytes) : bytes :=
  let h := header msgno (111 + zlen body) from to ts sid in message (sig_sign S sk h) h body.

Lemma sig_zlen k m : zlen (sig_sign S k m) = 64.
Proof. unfold zlen. rewrite (ok_sig_len S HS). reflexivity. Qed.
Lemma pk_zlen k : zlen (sig_pk S k) = 32.
Proof. unfold zlen. rewrite (ok_sig_pk_len S HS). reflexivity. Qed.
Lemma zlen_mk sk msgno from to ts body : zlen (mk_msg sk msgno from to ts body) = 111 + zlen body.
Proof. unfold mk_msg, message. rewrite !zlen_app, sig_zlen, zlen_header by assumption. lia. Qed.
Lemma signed_mk sk msgno from to ts body : is_u64 ts -> signed S (sig_pk S sk) sid msgno from to ts body (mk_msg sk msgno from to ts body).
Proof. intros H. eexists. split; [apply sig_zlen|]. split; [exact H|]. split; [reflexivity|]. apply (ok_sig_complete S HS). Qed.

Lemma send_mk pre junk body post off len msgno from to sk now : zlen pre = off -> zlen junk = 111 -> len = 111 + zlen body -> is_u64 now ->
  send_msg S (pre ++ junk ++ body ++ post) off len msgno from to sk sid now = Ok (pre ++ mk_msg sk msgno from to now body ++ post).
Proof.
  intros H1 H2 H3 H4. pose proof (zlen_nonneg pre). pose proof (zlen_nonneg body). pose proof (zlen_nonneg post).
  pose proof (send_spec S (pre ++ junk ++ body ++ post) off len msgno from to sk sid now sig_zlen) as E. cbn zeta in E. rewrite E; [|lia|rewrite !zlen_app; lia|assumption|assumption|lia].
  clear E. subst len. f_equal. unfold mk_msg, message. cbn zeta. rewrite <- !app_assoc.
  assert (F : firstn (Z.to_nat off) (pre ++ junk ++ body ++ post) = pre).
  { rewrite firstn_app. unfold zlen in *. replace (Z.to_nat off) with (length pre) by lia. rewrite Nat.sub_diag, firstn_all. cbn [firstn]. apply app_nil_r. }
  rewrite F. do 3 f_equal. rewrite app_assoc, skipn_app. rewrite skipn_all2 by (rewrite app_length; unfold zlen in *; lia).
  replace (Z.to_nat (off + 111) - length (pre ++ junk))%nat with 0%nat by (rewrite app_length; unfold zlen in *; lia). reflexivity.
Qed.
(** the same for a buffer whose body part is still to be written *)
Lemma put_mk pre junk post off len msgno from to sk now body : zlen pre = off -> zlen junk = len -> len = 111 + zlen body -> is_u64 now ->
  (do out <- wr (pre ++ junk ++ post) (off + 111) body ;; send_msg S out off len msgno from to sk sid now) =
  Ok (pre ++ mk_msg sk msgno from to now body ++ post).
Proof.
  intros H1 H2 H3 H4. pose proof (zlen_nonneg body). rewrite <- (firstn_skipn 111 junk), <- !app_assoc, (app_assoc pre).
  assert (L1 : zlen (firstn 111 junk) = 111) by (unfold zlen in *; rewrite firstn_length; lia).
  assert (L2 : zlen (skipn 111 junk) = zlen body) by (unfold zlen in *; rewrite skipn_length; lia).
  rewrite wr_mid; [|rewrite zlen_app; lia|exact L2]. cbn [bind]. rewrite <- app_assoc. apply send_mk; assumption.
Qed.

Lemma recv_mk buf off len msgno from to sk ts body eps last now :
  rd buf off len = Ok (mk_msg sk msgno from to ts body) -> len < 2 ^ 32 -> is_byte msgno -> is_byte from -> is_byte to -> is_u64 ts ->
  fresh eps last ts now -> recv_msg S buf off len msgno from to (sig_pk S sk) sid eps last now = Ok (0, ts).
Proof. intros. eapply recv_signed; try eassumption. apply signed_mk. assumption. Qed.

(** the body of a message in a buffer *)
Lemma body_mk buf off len msgno from to sk ts body : rd buf off len = Ok (mk_msg sk msgno from to ts body) ->
  rd buf (off + 111) (zlen body) = Ok body.
Proof.
  intros H. pose proof (rd_inv _ _ _ _ H) as (_ & _ & _ & L & _). rewrite zlen_mk in L. pose proof (zlen_nonneg body).
  rewrite <- (rd_rd _ _ _ _ 111 (zlen body) H) by lia. unfold mk_msg, message. cbn zeta. set (h := header _ _ _ _ _ _). set (g := sig_sign S sk h).
  rewrite app_assoc. transitivity (rd ((g ++ h) ++ body ++ []) 111 (zlen body)); [rewrite app_nil_r; reflexivity|].
  apply rd_mid; [|reflexivity]. unfold g, h. rewrite zlen_app, sig_zlen, zlen_header by assumption. reflexivity.
Qed.
Lemma part_mk buf off len msgno from to sk ts b1 b2 b3 o k : rd buf off len = Ok (mk_msg sk msgno from to ts (b1 ++ b2 ++ b3)) ->
  o = off + 111 + zlen b1 -> k = zlen b2 -> rd buf o k = Ok b2.
Proof.
  intros H -> ->. apply body_mk in H. rewrite !zlen_app in H. pose proof (zlen_nonneg b1). pose proof (zlen_nonneg b2). pose proof (zlen_nonneg b3).
  rewrite <- (rd_rd _ _ _ _ (zlen b1) (zlen b2) H) by lia. apply rd_mid; reflexivity.
Qed.
End MSG.
