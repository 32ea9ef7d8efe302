(** Bounds-checked access to byte buffers, loops with early return, and 64-bit arithmetic:
    the vocabulary in which /repo/src/tp-dkg.c is modelled.  A C pointer into a buffer is an
    integer offset; an access outside of the buffer is [UB]. *)
From Coq Require Import ZArith Lia List Bool.
From Coq.Strings Require Import Byte.
From Verif Require Import Bytes Res.
Import ListNotations.
Open Scope list_scope.
Open Scope Z_scope.

(** length of a buffer as an integer *)
Definition zlen {A} (l : list A) : Z := Z.of_nat (length l).

(** read [len] elements at offset [off] *)
Definition rd {A} (l : list A) (off len : Z) : res (list A) :=
  if (off <? 0) || (len <? 0) then UB else of_opt (sub l (Z.to_nat off) (Z.to_nat len)).

(** memcpy(l + off, d, length d) *)
Definition wr {A} (l : list A) (off : Z) (d : list A) : res (list A) :=
  if (0 <=? off) && (off + zlen d <=? zlen l)
  then Ok (firstn (Z.to_nat off) l ++ d ++ skipn (Z.to_nat (off + zlen d)) l)
  else UB.

(** size_t / uint64_t arithmetic *)
Definition u64 (x : Z) : Z := x mod 2 ^ 64.
Definition u32 (x : Z) : Z := x mod 2 ^ 32.
Definition u16 (x : Z) : Z := x mod 2 ^ 16.
Definition u8 (x : Z) : Z := x mod 2 ^ 8.

(** A loop body either continues with a new state or makes the enclosing function return. *)
Inductive ctl (S : Type) : Type :=
| Next (s : S)
| Return (code : Z) (s : S).
Arguments Next {S} s.
Arguments Return {S} code s.

(** a for loop over a precomputed list of indices, with early return *)
Fixpoint loopM {I S} (f : I -> S -> res (ctl S)) (l : list I) (s : S) : res (ctl S) :=
  match l with
  | [] => Ok (Next s)
  | i :: l' =>
      do c <- f i s ;;
      match c with
      | Next s' => loopM f l' s'
      | Return r s' => Ok (Return r s')
      end
  end.

(** * Lemmas *)
Lemma skipn_skipn {A} (x y : nat) (l : list A) : skipn x (skipn y l) = skipn (x + y) l.
Proof.
  revert l. induction y as [|y IH]; intros l.
  - rewrite Nat.add_0_r. reflexivity.
  - rewrite Nat.add_succ_r. destruct l as [|a l]; cbn [skipn]; [destruct x; reflexivity|apply IH].
Qed.

Lemma zlen_nonneg {A} (l : list A) : 0 <= zlen l.
Proof. unfold zlen. lia. Qed.

Lemma zlen_app {A} (a b : list A) : zlen (a ++ b) = zlen a + zlen b.
Proof. unfold zlen. rewrite app_length. lia. Qed.

Lemma zlen_cons {A} (x : A) (b : list A) : zlen (x :: b) = 1 + zlen b.
Proof. unfold zlen. cbn [length]. lia. Qed.

Lemma zlen_nil {A} : zlen (@nil A) = 0.
Proof. reflexivity. Qed.

Lemma zlen_map {A B} (f : A -> B) l : zlen (map f l) = zlen l.
Proof. unfold zlen. rewrite map_length. reflexivity. Qed.

Lemma zlen_be k z : zlen (be_bytes k z) = Z.of_nat k.
Proof. unfold zlen. rewrite be_bytes_length. reflexivity. Qed.

Lemma zlen_le k z : zlen (le_bytes k z) = Z.of_nat k.
Proof. unfold zlen. rewrite le_bytes_length. reflexivity. Qed.

Lemma zlen_0 {A} (l : list A) : zlen l = 0 -> l = [].
Proof. destruct l; [reflexivity|]. rewrite zlen_cons. pose proof (zlen_nonneg l). lia. Qed.

Lemma rd_ok {A} (l : list A) off len : 0 <= off -> 0 <= len -> off + len <= zlen l ->
  rd l off len = Ok (firstn (Z.to_nat len) (skipn (Z.to_nat off) l)).
Proof.
  unfold zlen. intros Ho Hl H. unfold rd.
  destruct (Z.ltb_spec off 0); [lia|]. destruct (Z.ltb_spec len 0); [lia|]. cbn [orb].
  rewrite sub_in_range by lia. reflexivity.
Qed.

Lemma rd_inv {A} (l : list A) off len r : rd l off len = Ok r ->
  0 <= off /\ 0 <= len /\ off + len <= zlen l /\ zlen r = len /\
  r = firstn (Z.to_nat len) (skipn (Z.to_nat off) l).
Proof.
  unfold rd, zlen. destruct (Z.ltb_spec off 0); [discriminate|].
  destruct (Z.ltb_spec len 0); [discriminate|]. cbn [orb].
  destruct (sub l (Z.to_nat off) (Z.to_nat len)) as [x|] eqn:E; [|discriminate].
  cbn [of_opt]. intros Ex. injection Ex as <-. apply sub_some in E. destruct E as (E1 & E2 & E3).
  repeat split; try lia; assumption.
Qed.

Lemma rd_oob {A} (l : list A) off len : zlen l < off + len -> rd l off len = UB.
Proof.
  unfold rd, zlen. intros H. destruct (Z.ltb_spec off 0); [reflexivity|].
  destruct (Z.ltb_spec len 0); [reflexivity|]. cbn [orb]. rewrite sub_out by lia. reflexivity.
Qed.

Lemma rd_mid {A} (a b c : list A) off len : zlen a = off -> zlen b = len -> rd (a ++ b ++ c) off len = Ok b.
Proof.
  unfold rd, zlen. intros <- <-. destruct (Z.ltb_spec (Z.of_nat (length a)) 0); [lia|].
  destruct (Z.ltb_spec (Z.of_nat (length b)) 0); [lia|]. cbn [orb].
  rewrite sub_app_mid; [reflexivity|lia|lia].
Qed.

Lemma rd_first {A} (b c : list A) len : zlen b = len -> rd (b ++ c) 0 len = Ok b.
Proof. intros H. apply (rd_mid [] b c); [reflexivity|assumption]. Qed.

Lemma rd_all {A} (b : list A) len : zlen b = len -> rd b 0 len = Ok b.
Proof. intros H. rewrite <- (app_nil_r b) at 1. apply rd_first. assumption. Qed.

(** reading inside a read slice *)
Lemma rd_rd {A} (l : list A) off len r o k : rd l off len = Ok r -> 0 <= o -> 0 <= k -> o + k <= len ->
  rd r o k = rd l (off + o) k.
Proof.
  intros H Ho Hk Hok. apply rd_inv in H. destruct H as (H1 & H2 & H3 & H4 & ->).
  rewrite !rd_ok; try lia. f_equal.
  rewrite skipn_firstn_comm, firstn_firstn, skipn_skipn.
  replace (Z.to_nat o + Z.to_nat off)%nat with (Z.to_nat (off + o)) by lia.
  f_equal. lia.
Qed.

Lemma rd_split {A} (l : list A) off len r : rd l off len = Ok r ->
  l = firstn (Z.to_nat off) l ++ r ++ skipn (Z.to_nat (off + len)) l.
Proof.
  intros H. apply rd_inv in H. destruct H as (H1 & H2 & H3 & H4 & ->).
  rewrite <- (firstn_skipn (Z.to_nat off) l) at 1. f_equal.
  rewrite <- (firstn_skipn (Z.to_nat len) (skipn (Z.to_nat off) l)) at 1. f_equal.
  rewrite skipn_skipn. f_equal. lia.
Qed.

(** adjacent slices *)
Lemma rd_join {A} (l : list A) off a b x y : rd l off a = Ok x -> rd l (off + a) b = Ok y -> rd l off (a + b) = Ok (x ++ y).
Proof.
  intros H1 H2. apply rd_inv in H1. apply rd_inv in H2. destruct H1 as (A1 & A2 & A3 & A4 & ->), H2 as (B1 & B2 & B3 & B4 & ->).
  rewrite rd_ok by lia. f_equal. replace (Z.to_nat (off + a)) with (Z.to_nat a + Z.to_nat off)%nat by lia.
  rewrite <- skipn_skipn. generalize (skipn (Z.to_nat off) l). intros m.
  replace (Z.to_nat (a + b)) with (Z.to_nat a + Z.to_nat b)%nat by lia. generalize (Z.to_nat a), (Z.to_nat b). clear.
  intros a b. revert m. induction a as [|a IH]; intros m; [reflexivity|]. destruct m as [|x m]; cbn [Nat.add firstn skipn app].
  - destruct b; reflexivity.
  - rewrite IH. reflexivity.
Qed.

Lemma wr_ok {A} (l : list A) off d : 0 <= off -> off + zlen d <= zlen l ->
  wr l off d = Ok (firstn (Z.to_nat off) l ++ d ++ skipn (Z.to_nat (off + zlen d)) l).
Proof.
  intros H1 H2. unfold wr. destruct (Z.leb_spec 0 off); [|lia].
  destruct (Z.leb_spec (off + zlen d) (zlen l)); [reflexivity|lia].
Qed.

Lemma wr_inv {A} (l : list A) off d l' : wr l off d = Ok l' ->
  0 <= off /\ off + zlen d <= zlen l /\
  l' = firstn (Z.to_nat off) l ++ d ++ skipn (Z.to_nat (off + zlen d)) l.
Proof.
  unfold wr. destruct (Z.leb_spec 0 off); [|discriminate].
  destruct (Z.leb_spec (off + zlen d) (zlen l)); [|discriminate]. cbn [andb].
  intros E. injection E as <-. auto.
Qed.

Lemma wr_oob {A} (l : list A) off d : zlen l < off + zlen d -> wr l off d = UB.
Proof.
  intros H. unfold wr. destruct (Z.leb_spec (off + zlen d) (zlen l)); [lia|].
  rewrite andb_false_r. reflexivity.
Qed.

Lemma wr_mid {A} (a b c d : list A) off : zlen a = off -> zlen b = zlen d -> wr (a ++ b ++ c) off d = Ok (a ++ d ++ c).
Proof.
  intros Ha Hb. pose proof (zlen_nonneg a). pose proof (zlen_nonneg c).
  rewrite wr_ok; [|lia|rewrite !zlen_app; lia]. f_equal. unfold zlen in *.
  replace (Z.to_nat off) with (length a) by lia.
  replace (Z.to_nat (off + Z.of_nat (length d))) with (length a + length b)%nat by lia.
  rewrite firstn_app, Nat.sub_diag, firstn_all, firstn_O, app_nil_r. f_equal. f_equal.
  rewrite skipn_app, skipn_all2 by lia. cbn [app].
  replace (length a + length b - length a)%nat with (length b) by lia.
  rewrite skipn_app, skipn_all, Nat.sub_diag. reflexivity.
Qed.

Lemma wr_first {A} (b c d : list A) : zlen b = zlen d -> wr (b ++ c) 0 d = Ok (d ++ c).
Proof. intros H. apply (wr_mid [] b c d); [reflexivity|assumption]. Qed.

Lemma wr_zlen {A} (l : list A) off d l' : wr l off d = Ok l' -> zlen l' = zlen l.
Proof.
  intros H. apply wr_inv in H. destruct H as (H1 & H2 & ->). unfold zlen in *.
  rewrite !app_length, firstn_length, skipn_length. lia.
Qed.

Lemma wr_is_ok {A} (l : list A) off d : 0 <= off -> off + zlen d <= zlen l -> exists l', wr l off d = Ok l' /\ zlen l' = zlen l.
Proof.
  intros H1 H2. pose proof (wr_ok l off d H1 H2) as E. eexists. split; [exact E|]. eapply wr_zlen; exact E.
Qed.

Lemma wr_nil {A} (l : list A) off : 0 <= off <= zlen l -> wr l off [] = Ok l.
Proof.
  intros H. rewrite wr_ok; [|lia|rewrite zlen_nil; lia]. rewrite zlen_nil, Z.add_0_r. cbn [app].
  rewrite firstn_skipn. reflexivity.
Qed.

Lemma rd_wr_same {A} (l : list A) off d l' : wr l off d = Ok l' -> rd l' off (zlen d) = Ok d.
Proof.
  intros H. apply wr_inv in H. destruct H as (H1 & H2 & ->). apply rd_mid; [|reflexivity].
  unfold zlen in *. rewrite firstn_length. lia.
Qed.

Lemma rd_wr_before {A} (l : list A) off d l' o k : wr l off d = Ok l' -> o + k <= off ->
  rd l' o k = rd l o k.
Proof.
  intros H Hok. apply wr_inv in H. destruct H as (H1 & H2 & ->). pose proof (zlen_nonneg d).
  unfold rd. destruct (Z.ltb_spec o 0); [reflexivity|]. destruct (Z.ltb_spec k 0); [reflexivity|]. cbn [orb].
  unfold zlen in *. rewrite !sub_in_range; [|lia|rewrite !app_length, firstn_length, skipn_length; lia].
  cbn [of_opt]. f_equal.
  rewrite skipn_app, firstn_app, skipn_length, firstn_length.
  replace (Z.to_nat k - _)%nat with O by lia. rewrite firstn_O, app_nil_r.
  rewrite skipn_firstn_comm, firstn_firstn. f_equal. lia.
Qed.

Lemma rd_wr_after {A} (l : list A) off d l' o k : wr l off d = Ok l' -> off + zlen d <= o ->
  rd l' o k = rd l o k.
Proof.
  intros H Hok. pose proof (wr_zlen _ _ _ _ H) as Hlen. apply wr_inv in H. destruct H as (H1 & H2 & E).
  pose proof (zlen_nonneg d).
  unfold rd. destruct (Z.ltb_spec o 0); [reflexivity|]. destruct (Z.ltb_spec k 0); [reflexivity|]. cbn [orb].
  unfold zlen in *.
  destruct (Z.leb_spec (o + k) (Z.of_nat (length l))) as [Hle|Hgt].
  2:{ rewrite !sub_out by lia. reflexivity. }
  rewrite !sub_in_range by lia. cbn [of_opt]. f_equal. subst l'.
  rewrite skipn_app, skipn_all2, firstn_length by (rewrite firstn_length; lia). cbn [app].
  rewrite skipn_app, skipn_all2 by lia. cbn [app]. rewrite skipn_skipn. f_equal. f_equal. lia.
Qed.

Lemma getz_ok {A} (l : list A) i x : nth_error l (Z.to_nat i) = Some x -> 0 <= i -> getz l i = Ok x.
Proof. intros H Hi. unfold getz. destruct (Z.ltb_spec i 0); [lia|]. rewrite H. reflexivity. Qed.

Lemma getz_inv {A} (l : list A) i x : getz l i = Ok x -> 0 <= i < zlen l /\ nth_error l (Z.to_nat i) = Some x.
Proof.
  unfold getz, zlen. destruct (Z.ltb_spec i 0); [discriminate|].
  destruct (nth_error l (Z.to_nat i)) eqn:E; [|discriminate]. cbn. intros Ex. injection Ex as <-.
  split; [|reflexivity]. split; [lia|]. assert (Z.to_nat i < length l)%nat by (apply nth_error_Some; congruence). lia.
Qed.

Lemma getz_some {A} (l : list A) i : 0 <= i < zlen l -> exists x, getz l i = Ok x.
Proof.
  unfold zlen. intros H. unfold getz. destruct (Z.ltb_spec i 0); [lia|].
  destruct (nth_error l (Z.to_nat i)) eqn:E; [eexists; reflexivity|].
  apply nth_error_None in E. lia.
Qed.

Lemma getz_In {A} (l : list A) i x : getz l i = Ok x -> In x l.
Proof. intros H. apply getz_inv in H. destruct H as (_ & H). eapply nth_error_In; exact H. Qed.

Lemma getz_oob {A} (l : list A) i : zlen l <= i -> getz l i = UB.
Proof.
  unfold zlen. intros H. unfold getz. destruct (Z.ltb_spec i 0); [reflexivity|].
  rewrite (proj2 (nth_error_None _ _)) by lia. reflexivity.
Qed.

Lemma getz_app_l {A} (a b : list A) i : i < zlen a -> getz (a ++ b) i = getz a i.
Proof.
  unfold getz, zlen. intros H. destruct (Z.ltb_spec i 0); [reflexivity|]. rewrite nth_error_app1 by lia. reflexivity.
Qed.

Lemma getz_mid {A} (a : list A) x b i : zlen a = i -> getz (a ++ x :: b) i = Ok x.
Proof.
  unfold zlen. intros <-. apply getz_ok; [|lia]. rewrite Nat2Z.id, nth_error_app2, Nat.sub_diag by lia. reflexivity.
Qed.

Lemma getz_map {A B} (f : A -> B) l i x : getz l i = Ok x -> getz (map f l) i = Ok (f x).
Proof. intros H. apply getz_inv in H. destruct H as (H1 & H2). apply getz_ok; [|lia]. apply map_nth_error. assumption. Qed.

Lemma getz_map_inv {A B} (f : A -> B) l i y : getz (map f l) i = Ok y -> exists x, getz l i = Ok x /\ f x = y.
Proof.
  intros H. apply getz_inv in H. destruct H as (H1 & H2). rewrite zlen_map in H1.
  destruct (getz_some l i H1) as (x & Hx). exists x. split; [assumption|].
  apply (getz_map f) in Hx. apply getz_inv in Hx. destruct Hx as (_ & Hx). congruence.
Qed.

Lemma getz_zrange a k i : 0 <= i < Z.of_nat k -> getz (zrange a k) i = Ok (a + i).
Proof.
  intros H. apply getz_ok; [|lia]. rewrite zrange_nth by lia. f_equal. lia.
Qed.

Lemma zlen_zrange a k : zlen (zrange a k) = Z.of_nat k.
Proof. unfold zlen. rewrite zrange_length. reflexivity. Qed.

Lemma getz_ext {A} (a b : list A) : zlen a = zlen b ->
  (forall i, 0 <= i < zlen a -> getz a i = getz b i) -> a = b.
Proof.
  revert b. induction a as [|x a IH]; intros b Hl H.
  - symmetry. apply zlen_0. rewrite <- Hl. reflexivity.
  - destruct b as [|y b]; [exfalso; rewrite zlen_cons, zlen_nil in Hl; pose proof (zlen_nonneg a); lia|].
    rewrite !zlen_cons in Hl. pose proof (zlen_nonneg a).
    assert (E0 := H 0). rewrite zlen_cons in E0. specialize (E0 ltac:(lia)). cbn in E0. injection E0 as ->. f_equal.
    apply IH; [lia|]. intros i Hi. assert (Ei := H (i + 1)). rewrite zlen_cons in Ei. specialize (Ei ltac:(lia)).
    unfold getz in *. destruct (Z.ltb_spec i 0); [lia|]. destruct (Z.ltb_spec (i + 1) 0); [lia|].
    replace (Z.to_nat (i + 1)) with (S (Z.to_nat i)) in Ei by lia. exact Ei.
Qed.

Lemma updz_inv {A} (l : list A) i v l' : updz l i v = Ok l' ->
  0 <= i < zlen l /\ zlen l' = zlen l /\ (forall j, getz l' j = if j =? i then Ok v else getz l j).
Proof.
  unfold updz, zlen. destruct (Z.ltb_spec i 0); [discriminate|].
  destruct (upd l (Z.to_nat i) v) as [r|] eqn:E; [|discriminate]. cbn. intros Ex. injection Ex as <-.
  pose proof (upd_length _ _ _ _ E) as Hl. split; [|split].
  - split; [lia|]. destruct (Nat.ltb_spec (Z.to_nat i) (length l)); [lia|].
    rewrite upd_none in E by lia. discriminate.
  - lia.
  - intros j. unfold getz. destruct (Z.ltb_spec j 0).
    + destruct (Z.eqb_spec j i); [lia|reflexivity].
    + rewrite (nth_error_upd _ _ _ _ (Z.to_nat j) E).
      destruct (Nat.eqb_spec (Z.to_nat j) (Z.to_nat i)); destruct (Z.eqb_spec j i); try lia; reflexivity.
Qed.

Lemma updz_some {A} (l : list A) i v : 0 <= i < zlen l -> exists l', updz l i v = Ok l'.
Proof.
  unfold updz, zlen. intros H. destruct (Z.ltb_spec i 0); [lia|].
  destruct (upd_some l (Z.to_nat i) v ltac:(lia)) as (l' & ->). eexists; reflexivity.
Qed.

Lemma updz_mid {A} (a : list A) x b i v : zlen a = i -> updz (a ++ x :: b) i v = Ok (a ++ v :: b).
Proof.
  unfold zlen, updz. intros <-. destruct (Z.ltb_spec (Z.of_nat (length a)) 0); [lia|].
  rewrite Nat2Z.id, upd_app_mid. reflexivity.
Qed.

Lemma updz_oob {A} (l : list A) i v : zlen l <= i -> updz l i v = UB.
Proof.
  unfold zlen, updz. intros H. destruct (Z.ltb_spec i 0); [reflexivity|]. rewrite upd_none by lia. reflexivity.
Qed.

Lemma updz_app {A} (a b : list A) i v : i < zlen a -> updz (a ++ b) i v = do a' <- updz a i v ;; Ok (a' ++ b).
Proof.
  intros H. destruct (Z.ltb_spec i 0) as [Hn|Hn].
  - unfold updz. destruct (Z.ltb_spec i 0); [reflexivity|lia].
  - destruct (getz_some a i ltac:(lia)) as (x & Hx). apply getz_inv in Hx. destruct Hx as (_ & Hx).
    apply nth_error_split in Hx. destruct Hx as (l1 & l2 & -> & Hl).
    rewrite <- app_assoc. cbn [app]. rewrite !updz_mid by (unfold zlen; lia). cbn [bind].
    rewrite <- app_assoc. reflexivity.
Qed.

(** ** Loops *)
(** invariant on continued and returned states *)
Lemma loopM_inv {I S} (f : I -> S -> res (ctl S)) (P : S -> Prop) (Q : Z -> S -> Prop) l s c :
  P s ->
  (forall i s1 c1, In i l -> P s1 -> f i s1 = Ok c1 ->
     match c1 with Next s2 => P s2 | Return r s2 => Q r s2 end) ->
  loopM f l s = Ok c ->
  match c with Next s2 => P s2 | Return r s2 => Q r s2 end.
Proof.
  revert s. induction l as [|i l IH]; intros s Hs Hstep E; cbn [loopM] in E.
  - injection E as <-. assumption.
  - apply bind_ok in E. destruct E as (c1 & E1 & E2).
    pose proof (Hstep i s c1 (or_introl eq_refl) Hs E1) as H1. destruct c1 as [s1|r s1].
    + apply (IH s1); [assumption| |assumption]. intros j s2 c2 Hj. apply Hstep. right; assumption.
    + injection E2 as <-. assumption.
Qed.

(** the loop has a defined result when every iteration has *)
Lemma loopM_ok {I S} (f : I -> S -> res (ctl S)) (P : S -> Prop) l s :
  P s ->
  (forall i s1, In i l -> P s1 -> exists c, f i s1 = Ok c /\ match c with Next s2 => P s2 | Return _ _ => True end) ->
  exists c, loopM f l s = Ok c /\ match c with Next s2 => P s2 | Return _ _ => True end.
Proof.
  revert s. induction l as [|i l IH]; intros s Hs Hstep; cbn [loopM].
  - exists (Next s). auto.
  - destruct (Hstep i s (or_introl eq_refl) Hs) as (c & E & Hc). rewrite E. cbn [bind].
    destruct c as [s2|r s2].
    + apply IH; [assumption|]. intros j s1 Hj. apply Hstep. right; assumption.
    + exists (Return r s2). auto.
Qed.

(** indexed version: P i holds before iteration i *)
Lemma loopM_seq {S} (f : Z -> S -> res (ctl S)) (P : Z -> S -> Prop) a k s :
  P a s ->
  (forall i s1, a <= i < a + Z.of_nat k -> P i s1 -> exists s2, f i s1 = Ok (Next s2) /\ P (i + 1) s2) ->
  exists s', loopM f (zrange a k) s = Ok (Next s') /\ P (a + Z.of_nat k) s'.
Proof.
  revert a s. induction k as [|k IH]; intros a s Hs Hstep.
  - exists s. cbn. split; [reflexivity|]. rewrite Z.add_0_r. assumption.
  - rewrite zrange_S. cbn [loopM]. destruct (Hstep a s ltac:(lia) Hs) as (s2 & E & H2). rewrite E. cbn [bind].
    destruct (IH (a + 1) s2 H2) as (s' & E' & H').
    { intros i s1 Hi. apply Hstep. lia. }
    exists s'. split; [assumption|]. replace (a + Z.of_nat (Datatypes.S k)) with (a + 1 + Z.of_nat k) by lia. assumption.
Qed.

Lemma loopM_seq_inv {S} (f : Z -> S -> res (ctl S)) (P : Z -> S -> Prop) (Q : Z -> S -> Prop) a k s c :
  P a s ->
  (forall i s1 c1, a <= i < a + Z.of_nat k -> P i s1 -> f i s1 = Ok c1 ->
     match c1 with Next s2 => P (i + 1) s2 | Return r s2 => Q r s2 end) ->
  loopM f (zrange a k) s = Ok c ->
  match c with Next s2 => P (a + Z.of_nat k) s2 | Return r s2 => Q r s2 end.
Proof.
  revert a s. induction k as [|k IH]; intros a s Hs Hstep E.
  - cbn in E. injection E as <-. rewrite Z.add_0_r. assumption.
  - rewrite zrange_S in E. cbn [loopM] in E. apply bind_ok in E. destruct E as (c1 & E1 & E2).
    pose proof (Hstep a s c1 ltac:(lia) Hs E1) as H1. destruct c1 as [s1|r s1].
    + replace (a + Z.of_nat (Datatypes.S k)) with (a + 1 + Z.of_nat k) by lia.
      apply (IH (a + 1) s1); [assumption| |assumption]. intros i s2 c2 Hi. apply Hstep. lia.
    + injection E2 as <-. assumption.
Qed.

(** like [loopM_ok], the invariant may mention the index *)
Lemma loopM_seq_ok {S} (f : Z -> S -> res (ctl S)) (P : Z -> S -> Prop) a k s :
  P a s ->
  (forall i s1, a <= i < a + Z.of_nat k -> P i s1 ->
     exists c, f i s1 = Ok c /\ match c with Next s2 => P (i + 1) s2 | Return _ _ => True end) ->
  exists c, loopM f (zrange a k) s = Ok c /\ match c with Next s2 => P (a + Z.of_nat k) s2 | Return _ _ => True end.
Proof.
  revert a s. induction k as [|k IH]; intros a s Hs Hstep.
  - exists (Next s). cbn. rewrite Z.add_0_r. auto.
  - rewrite zrange_S. cbn [loopM]. destruct (Hstep a s ltac:(lia) Hs) as (c & E & H2). rewrite E. cbn [bind].
    destruct c as [s2|r s2].
    + destruct (IH (a + 1) s2 H2) as (c' & E' & H').
      { intros i s1 Hi. apply Hstep. lia. }
      exists c'. split; [assumption|]. replace (a + Z.of_nat (Datatypes.S k)) with (a + 1 + Z.of_nat k) by lia. assumption.
    + exists (Return r s2). auto.
Qed.

Lemma loopM_app {I S} (f : I -> S -> res (ctl S)) l1 l2 s :
  loopM f (l1 ++ l2) s =
  do c <- loopM f l1 s ;; match c with Next s' => loopM f l2 s' | Return r s' => Ok (Return r s') end.
Proof.
  revert s. induction l1 as [|i l1 IH]; intros s; cbn [app loopM bind]; [reflexivity|].
  destruct (f i s) as [[s'|r s']|]; cbn [bind]; [apply IH|reflexivity|reflexivity].
Qed.

(** concatenation of equally long messages *)
Lemma zlen_concat {A} (ms : list (list A)) k : Forall (fun m => zlen m = k) ms -> zlen (concat ms) = k * zlen ms.
Proof.
  induction 1 as [|m ms Hm H IH]; cbn [concat].
  - change (0 = k * 0). lia.
  - rewrite zlen_app, zlen_cons, Hm, IH. lia.
Qed.

Lemma rd_concat {A} (ms : list (list A)) k i m :
  Forall (fun m => zlen m = k) ms -> getz ms i = Ok m -> rd (concat ms) (i * k) k = Ok m.
Proof.
  intros H E. apply getz_inv in E. destruct E as (Hi & E). apply nth_error_split in E.
  destruct E as (l1 & l2 & -> & El). apply Forall_app in H. destruct H as (H1 & H2).
  inversion H2 as [|? ? Hm H3]; subst. rewrite concat_app. cbn [concat]. apply rd_mid; [|reflexivity].
  rewrite (zlen_concat l1 (zlen m)) by assumption.
  replace i with (zlen l1) by (unfold zlen in *; lia). lia.
Qed.

Lemma u64_small x : 0 <= x < 2 ^ 64 -> u64 x = x.
Proof. apply Z.mod_small. Qed.
Lemma u64_range x : 0 <= u64 x < 2 ^ 64.
Proof. apply Z.mod_pos_bound. reflexivity. Qed.
