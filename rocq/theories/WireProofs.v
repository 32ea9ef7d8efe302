(** Proofs about the message layer (WireModel.v). *)
From Coq Require Import ZArith Znumtheory Lia List Bool Sorting.Sorted.
From Coq.Strings Require Import Byte.
From Verif Require Import Bytes Res Mem Sodium WireModel WireSpec WireHistory.
Import ListNotations.
Open Scope list_scope.
Open Scope Z_scope.

Global Opaque le_bytes be_bytes of_le of_be.

(** ** Byte order *)
Transparent le_bytes be_bytes of_le of_be.
Lemma le4_bytes x : le_bytes 4 x = [zb x; zb (x / 2 ^ 8); zb (x / 2 ^ 16); zb (x / 2 ^ 24)].
Proof.
  cbn [le_bytes]. rewrite !Z.div_div by lia. reflexivity.
Qed.
Lemma be4_bytes x : be_bytes 4 x = [zb (x / 2 ^ 24); zb (x / 2 ^ 16); zb (x / 2 ^ 8); zb x].
Proof. unfold be_bytes. rewrite le4_bytes. reflexivity. Qed.
Opaque le_bytes be_bytes of_le of_be.

Lemma zb_mod x : zb (x mod 256) = zb x.
Proof. apply bz_inj. rewrite !bz_zb, Z.mod_mod by lia. reflexivity. Qed.

Lemma zb_congr x y : x mod 256 = y mod 256 -> zb x = zb y.
Proof. intros H. apply bz_inj. rewrite !bz_zb. assumption. Qed.

Lemma swap4 a b c d : 0 <= a < 256 -> 0 <= b < 256 -> 0 <= c < 256 -> 0 <= d < 256 ->
  let y := a * 2 ^ 24 + b * 2 ^ 16 + c * 2 ^ 8 + d in
  y mod 256 = d /\ (y / 2 ^ 8) mod 256 = c /\ (y / 2 ^ 16) mod 256 = b /\ (y / 2 ^ 24) mod 256 = a.
Proof.
  intros Ha Hb Hc Hd y. unfold y. repeat split.
  - replace (a * 2 ^ 24 + b * 2 ^ 16 + c * 2 ^ 8 + d) with (d + (a * 2 ^ 16 + b * 2 ^ 8 + c) * 256) by lia.
    rewrite Z_mod_plus_full. apply Z.mod_small. assumption.
  - replace (a * 2 ^ 24 + b * 2 ^ 16 + c * 2 ^ 8 + d) with (d + (c + (a * 2 ^ 8 + b) * 256) * 2 ^ 8) by lia.
    rewrite Z.div_add by lia. rewrite Z.div_small by lia. rewrite Z.add_0_l, Z_mod_plus_full. apply Z.mod_small. assumption.
  - replace (a * 2 ^ 24 + b * 2 ^ 16 + c * 2 ^ 8 + d) with ((c * 2 ^ 8 + d) + (b + a * 256) * 2 ^ 16) by lia.
    rewrite Z.div_add by lia. rewrite Z.div_small by lia. rewrite Z.add_0_l, Z_mod_plus_full. apply Z.mod_small. assumption.
  - replace (a * 2 ^ 24 + b * 2 ^ 16 + c * 2 ^ 8 + d) with ((b * 2 ^ 16 + c * 2 ^ 8 + d) + a * 2 ^ 24) by lia.
    rewrite Z.div_add by lia. rewrite Z.div_small by lia. rewrite Z.add_0_l. apply Z.mod_small. assumption.
Qed.

Lemma htonl_range x : 0 <= htonl x < 2 ^ 32.
Proof.
  unfold htonl. pose proof (Z.mod_pos_bound x 256). pose proof (Z.mod_pos_bound (x / 2 ^ 8) 256).
  pose proof (Z.mod_pos_bound (x / 2 ^ 16) 256). pose proof (Z.mod_pos_bound (x / 2 ^ 24) 256). lia.
Qed.

(** what htonl leaves in memory is the big endian encoding *)
Lemma le_htonl x : le_bytes 4 (htonl x) = be_bytes 4 x.
Proof.
  rewrite le4_bytes, be4_bytes.
  destruct (swap4 (x mod 256) (x / 2 ^ 8 mod 256) (x / 2 ^ 16 mod 256) (x / 2 ^ 24 mod 256)) as (H1 & H2 & H3 & H4);
    try (apply Z.mod_pos_bound; lia).
  fold (htonl x) in H1, H2, H3, H4.
  rewrite (zb_congr _ _ H1), (zb_congr _ _ H2), (zb_congr _ _ H3), (zb_congr _ _ H4). reflexivity.
Qed.

Lemma htonl_mod x : htonl (u32 x) = htonl x.
Proof.
  unfold htonl, u32.
  assert (E0 : (x mod 2 ^ 32) mod 256 = x mod 256).
  { rewrite <- (Zmod_div_mod 256 (2 ^ 32)); [reflexivity|lia|lia|]. exists (2 ^ 24). reflexivity. }
  assert (E : forall k, 0 <= k <= 24 -> (x mod 2 ^ 32) / 2 ^ k mod 256 = x / 2 ^ k mod 256).
  { intros k Hk. rewrite <- !Z.shiftr_div_pow2, <- !Z.land_ones by lia.
    change 256 with (2 ^ 8). rewrite <- !Z.land_ones by lia.
    apply Z.bits_inj'. intros i Hi. rewrite !Z.land_spec, !Z.shiftr_spec, !Z.land_spec by lia.
    destruct (Z.ltb_spec i 8).
    - rewrite (Z.ones_spec_low 32) by lia. rewrite andb_true_r. reflexivity.
    - rewrite (Z.ones_spec_high 8) by lia. rewrite !andb_false_r. reflexivity. }
  rewrite E0, !E by lia. reflexivity.
Qed.

Lemma of_le_htonl_be l : zlen l = 4 -> ntohl (of_le l) = of_be l.
Proof.
  intros Hl. assert (Hn : length l = 4%nat) by (unfold zlen in Hl; lia).
  assert (E : le_bytes 4 (ntohl (of_le l)) = be_bytes 4 (of_le l)) by apply le_htonl.
  apply (le_bytes_inj 4).
  - apply htonl_range.
  - pose proof (of_be_range l) as H. rewrite Hn in H. exact H.
  - rewrite E. pose proof (be_bytes_of_be (rev l)) as H. rewrite rev_length, Hn in H.
    assert (Hr : of_be (rev l) = of_le l).
    { Transparent of_be. unfold of_be. rewrite rev_involutive. reflexivity. Opaque of_be. }
    rewrite Hr in H. rewrite H.
    pose proof (be_bytes_of_be l) as H2. rewrite Hn in H2. apply (f_equal (@rev byte)) in H2.
    Transparent be_bytes. unfold be_bytes in H2. rewrite rev_involutive in H2. symmetry. exact H2. Opaque be_bytes.
Qed.

Lemma of_le_app a b : of_le (a ++ b) = of_le a + 256 ^ zlen a * of_le b.
Proof.
  Transparent of_le. induction a as [|x a IH]; cbn [app of_le].
  - change (256 ^ zlen (@nil byte)) with 1. lia.
  - rewrite IH, zlen_cons. pose proof (zlen_nonneg a). rewrite Z.pow_add_r by lia. lia. Opaque of_le.
Qed.

Lemma le_bytes_app k m x : 0 <= x -> le_bytes (k + m) x = le_bytes k x ++ le_bytes m (x / 256 ^ Z.of_nat k).
Proof.
  intros Hx. Transparent le_bytes. revert x Hx. induction k as [|k IH]; intros x Hx; cbn [Nat.add le_bytes app].
  - cbn. rewrite Z.div_1_r. reflexivity.
  - f_equal. rewrite IH by (apply Z.div_pos; lia). f_equal. f_equal.
    rewrite Nat2Z.inj_succ, Z.pow_succ_r, <- Z.div_div by lia. reflexivity. Opaque le_bytes.
Qed.

Lemma be_bytes_app k m x : 0 <= x -> be_bytes (k + m) x = be_bytes m (x / 256 ^ Z.of_nat k) ++ be_bytes k x.
Proof.
  intros Hx. Transparent be_bytes. unfold be_bytes. rewrite le_bytes_app, rev_app_distr by assumption. reflexivity. Opaque be_bytes.
Qed.

Lemma le_htonll x : is_u64 x -> le_bytes 8 (htonll x) = be_bytes 8 x.
Proof.
  intros Hx. unfold htonll. pose proof (htonl_range (u32 x)) as Hr. pose proof (htonl_range (u32 (x / 2 ^ 32))) as Hr2.
  assert (E0 : u64 (htonl (u32 x) * 2 ^ 32) = htonl (u32 x) * 2 ^ 32) by (apply u64_small; lia).
  rewrite E0, u64_small by lia.
  change 8%nat with (4 + 4)%nat at 1. rewrite le_bytes_app by lia.
  change (256 ^ Z.of_nat 4) with (2 ^ 32).
  rewrite Z.add_comm, Z.div_add, (Z.div_small (htonl _)), Z.add_0_l by lia.
  change 8%nat with (4 + 4)%nat. rewrite be_bytes_app by (unfold is_u64 in Hx; lia).
  change (256 ^ Z.of_nat 4) with (2 ^ 32). f_equal.
  - rewrite <- (le_htonl (x / 2 ^ 32)). rewrite <- (htonl_mod (x / 2 ^ 32)).
    apply of_le_inj; [rewrite !le_bytes_length; reflexivity|].
    rewrite !of_le_le_bytes. change (256 ^ Z.of_nat 4) with (2 ^ 32).
    rewrite Z_mod_plus_full. reflexivity.
  - rewrite htonl_mod. apply le_htonl.
Qed.

Lemma of_be_app a b : of_be (a ++ b) = of_be b + 256 ^ zlen b * of_be a.
Proof.
  Transparent of_be. unfold of_be. rewrite rev_app_distr, of_le_app. f_equal. f_equal. unfold zlen. rewrite rev_length. reflexivity. Opaque of_be.
Qed.

Lemma ntohll_of_le l : zlen l = 8 -> ntohll (of_le l) = of_be l.
Proof.
  intros Hl. rewrite <- (firstn_skipn 4 l). set (a := firstn 4 l). set (b := skipn 4 l).
  assert (Ha : zlen a = 4) by (unfold a, zlen in *; rewrite firstn_length; lia).
  assert (Hb : zlen b = 4) by (unfold b, zlen in *; rewrite skipn_length; lia).
  rewrite of_le_app, of_be_app, Ha, Hb. change (256 ^ 4) with (2 ^ 32).
  pose proof (of_le_range a) as Ra. pose proof (of_le_range b) as Rb. fold (zlen a) in Ra. fold (zlen b) in Rb.
  rewrite Ha in Ra. rewrite Hb in Rb. change (256 ^ 4) with (2 ^ 32) in Ra, Rb.
  unfold ntohll, u32. rewrite (Z.mul_comm (2 ^ 32)), Z_mod_plus_full, Z.div_add, (Z.div_small (of_le a)), Z.add_0_l by lia.
  rewrite !Z.mod_small by lia. rewrite !of_le_htonl_be by assumption.
  pose proof (of_be_range a) as Sa. pose proof (of_be_range b) as Sb. fold (zlen a) in Sa. fold (zlen b) in Sb.
  rewrite Ha in Sa. rewrite Hb in Sb. change (256 ^ 4) with (2 ^ 32) in Sa, Sb.
  rewrite (u64_small (of_be a * 2 ^ 32)), u64_small by lia. lia.
Qed.

(** ** check_ts *)
Lemma check_ts_ok eps last ts now : fst (check_ts eps last ts now) = 0 <-> fresh eps last ts now.
Proof.
  unfold check_ts, fresh, u64. destruct (last =? 0) eqn:E0.
  - destruct (Z.ltb_spec ts ((now - eps) mod 2 ^ 64)); [cbn [fst]; lia|].
    destruct (Z.ltb_spec ((now + eps) mod 2 ^ 64) ts); cbn [fst]; lia.
  - destruct (Z.ltb_spec ts last); [cbn [fst]; lia|].
    destruct (Z.ltb_spec ((last + eps) mod 2 ^ 64) ts); cbn [fst]; lia.
Qed.

Lemma check_ts_snd eps last ts now :
  snd (check_ts eps last ts now) = if fst (check_ts eps last ts now) =? 0 then ts else last.
Proof.
  unfold check_ts. destruct (last =? 0).
  - destruct (ts <? _); [reflexivity|]. destruct (_ <? ts); reflexivity.
  - destruct (ts <? _); [reflexivity|]. destruct (_ <? ts); reflexivity.
Qed.

Definition freshb (eps last ts now : Z) : bool := fst (check_ts eps last ts now) =? 0.
Lemma freshb_spec eps last ts now : freshb eps last ts now = true <-> fresh eps last ts now.
Proof. unfold freshb. rewrite Z.eqb_eq. apply check_ts_ok. Qed.

(** ** Parsing *)
Lemma zlen_header msgno len from to ts sid : zlen sid = 32 -> zlen (header msgno len from to ts sid) = 47.
Proof. intros H. unfold header. rewrite !zlen_app, !zlen_be, H. reflexivity. Qed.

Lemma zlen_encode f : fields_ok f -> zlen (encode f) = 111 + zlen (f_body f).
Proof.
  intros (H1 & _ & _ & _ & _ & _ & H2). unfold encode, message. rewrite !zlen_app, H1, zlen_header by assumption. lia.
Qed.

(** every byte string of at least 111 bytes is the encoding of its fields *)
Definition parse (m : bytes) : fields := {|
  f_sig := firstn 64 m;
  f_msgno := bz (nth 64 m x00);
  f_len := of_be (firstn 4 (skipn 65 m));
  f_from := bz (nth 69 m x00);
  f_to := bz (nth 70 m x00);
  f_ts := of_be (firstn 8 (skipn 71 m));
  f_sid := firstn 32 (skipn 79 m);
  f_body := skipn 111 m
|}.

Lemma skipn_nth {A} k (m : list A) d : (k < length m)%nat -> skipn k m = nth k m d :: skipn (S k) m.
Proof.
  revert m. induction k as [|k IH]; intros [|x m] H; cbn [length] in H; try lia; [reflexivity|].
  cbn [skipn nth]. apply IH. lia.
Qed.

Lemma skipn_split {A} k j (m : list A) : skipn k m = firstn j (skipn k m) ++ skipn (j + k) m.
Proof. rewrite <- skipn_skipn, firstn_skipn. reflexivity. Qed.

Lemma be_of_be k l : zlen l = Z.of_nat k -> be_bytes k (of_be l) = l.
Proof. intros H. unfold zlen in H. replace k with (length l) by lia. apply be_bytes_of_be. Qed.

Lemma parse_encode m : 111 <= zlen m -> encode (parse m) = m /\ fields_ok (parse m).
Proof.
  intros H. assert (Hl : (111 <= length m)%nat) by (unfold zlen in H; lia).
  assert (H4 : zlen (firstn 4 (skipn 65 m)) = 4) by (unfold zlen; rewrite firstn_length, skipn_length; lia).
  assert (H8 : zlen (firstn 8 (skipn 71 m)) = 8) by (unfold zlen; rewrite firstn_length, skipn_length; lia).
  assert (H32 : zlen (firstn 32 (skipn 79 m)) = 32) by (unfold zlen; rewrite firstn_length, skipn_length; lia).
  split.
  - unfold encode, message, header. cbn [parse f_sig f_msgno f_len f_from f_to f_ts f_sid f_body].
    rewrite !zb_bz, !be_of_be by assumption.
    rewrite <- (firstn_skipn 64 m) at 9. f_equal. rewrite <- !app_assoc. cbn [app].
    rewrite (skipn_nth 64 m x00) by lia. f_equal.
    etransitivity; [|symmetry; apply (skipn_split 65 4 m)]. f_equal. change (4 + 65)%nat with 69%nat. rewrite (skipn_nth 69 m x00) by lia. f_equal.
    rewrite (skipn_nth 70 m x00) by lia. f_equal.
    etransitivity; [|symmetry; apply (skipn_split 71 8 m)]. f_equal. symmetry. apply (skipn_split 79 32 m).
  - unfold fields_ok, is_byte, is_u64. cbn [parse f_sig f_msgno f_len f_from f_to f_ts f_sid f_body].
    pose proof (of_be_range (firstn 4 (skipn 65 m))) as R4. pose proof (of_be_range (firstn 8 (skipn 71 m))) as R8.
    fold (zlen (firstn 4 (skipn 65 m))) in R4. fold (zlen (firstn 8 (skipn 71 m))) in R8. rewrite H4 in R4. rewrite H8 in R8.
    repeat split; try apply bz_range; try assumption; try apply R4; try apply R8.
    unfold zlen. rewrite firstn_length. lia.
Qed.

Lemma of_be_be k x : 0 <= x < 256 ^ Z.of_nat k -> of_be (be_bytes k x) = x.
Proof. intros H. rewrite of_be_be_bytes. apply Z.mod_small. assumption. Qed.

Lemma bz_zb_small x : is_byte x -> bz (zb x) = x.
Proof. intros H. rewrite bz_zb. apply Z.mod_small. exact H. Qed.

Lemma encode_inj f g : fields_ok f -> fields_ok g -> encode f = encode g -> f = g.
Proof.
  intros Hf Hg E. destruct f as [s1 n1 l1 a1 b1 t1 i1 d1], g as [s2 n2 l2 a2 b2 t2 i2 d2].
  unfold fields_ok, encode, message, header in *. cbn [f_sig f_msgno f_len f_from f_to f_ts f_sid f_body] in *.
  destruct Hf as (F1 & F2 & F3 & F4 & F5 & F6 & F7). destruct Hg as (G1 & G2 & G3 & G4 & G5 & G6 & G7).
  assert (app_inj : forall (a b c d : bytes), zlen a = zlen c -> a ++ b = c ++ d -> a = c /\ b = d).
  { intros a b c d Hl Heq.
    assert (length a = length c) by (unfold zlen in Hl; lia). clear -Heq H.
    revert c H Heq. induction a as [|x a IH]; intros [|y c] H Heq; cbn in *; try lia; [auto|].
    injection Heq as -> Heq. destruct (IH c ltac:(lia) Heq) as (-> & ->). auto. }
  rewrite <- !app_assoc in E.
  apply app_inj in E; [|lia]. destruct E as (-> & E).
  apply app_inj in E; [|reflexivity]. destruct E as (E1 & E).
  apply app_inj in E; [|rewrite !zlen_be; reflexivity]. destruct E as (E2 & E).
  apply app_inj in E; [|reflexivity]. destruct E as (E3 & E).
  apply app_inj in E; [|reflexivity]. destruct E as (E4 & E).
  apply app_inj in E; [|rewrite !zlen_be; reflexivity]. destruct E as (E5 & E).
  apply app_inj in E; [|lia]. destruct E as (-> & ->).
  assert (zbi : forall x y, is_byte x -> is_byte y -> [zb x] = [zb y] -> x = y).
  { intros x y Hx Hy Exy. injection Exy as Exy. apply (f_equal bz) in Exy. rewrite !bz_zb_small in Exy by assumption. assumption. }
  f_equal.
  - apply zbi; assumption.
  - apply (be_bytes_inj 4); assumption.
  - apply zbi; assumption.
  - apply zbi; assumption.
  - apply (be_bytes_inj 8); assumption.
Qed.

(** ** recv_msg on an encoded message *)
Section Recv.
  Variable S : sigs.

  Definition sigb (f : fields) (pk : bytes) : bool :=
    sig_verify S pk (header (f_msgno f) (f_len f) (f_from f) (f_to f) (f_ts f) (f_sid f)) (f_sig f).

  Lemma recv_fields pre f post len msgno from to pk sid eps last now :
    fields_ok f -> len = zlen (encode f) ->
    recv_msg S (pre ++ encode f ++ post) (zlen pre) len msgno from to pk sid eps last now =
    Ok (if negb (f_len f =? len) then (1, last) else
        if negb (f_msgno f =? msgno) then (2, last) else
        if negb (f_from f =? from) then (3, last) else
        if negb (f_to f =? to) then (4, last) else
        if negb (bytes_eqb (f_sid f) sid) then (7, last) else
        if negb (freshb eps last (f_ts f) now) then (5, last) else
        if negb (sigb f pk) then (6, f_ts f) else (0, f_ts f)).
  Proof.
    intros Hf Hlen. pose proof (zlen_encode f Hf) as Hz. pose proof (zlen_nonneg (f_body f)) as Hb.
    destruct f as [s n l a b t i d]. unfold sigb. unfold fields_ok in Hf.
    cbn [f_sig f_msgno f_len f_from f_to f_ts f_sid f_body] in *.
    destruct Hf as (F1 & F2 & F3 & F4 & F5 & F6 & F7).
    set (hd := header n l a b t i).
    assert (Hhd : zlen hd = 47) by (apply zlen_header; assumption).
    assert (B : pre ++ encode {| f_sig := s; f_msgno := n; f_len := l; f_from := a; f_to := b; f_ts := t; f_sid := i; f_body := d |} ++ post
                = pre ++ s ++ [zb n] ++ be_bytes 4 l ++ [zb a] ++ [zb b] ++ be_bytes 8 t ++ i ++ d ++ post).
    { unfold encode, message, header. cbn [f_sig f_msgno f_len f_from f_to f_ts f_sid f_body]. rewrite <- !app_assoc. reflexivity. }
    rewrite B. unfold recv_msg.
    assert (R1 : rd (pre ++ s ++ [zb n] ++ be_bytes 4 l ++ [zb a] ++ [zb b] ++ be_bytes 8 t ++ i ++ d ++ post) (zlen pre + off_len) 4 = Ok (be_bytes 4 l)).
    { rewrite (app_assoc pre), (app_assoc (pre ++ s)). apply rd_mid; [|rewrite zlen_be; reflexivity].
      rewrite !zlen_app, F1. unfold off_len. change (zlen [zb n]) with 1. lia. }
    assert (R2 : getz (pre ++ s ++ [zb n] ++ be_bytes 4 l ++ [zb a] ++ [zb b] ++ be_bytes 8 t ++ i ++ d ++ post) (zlen pre + off_msgno) = Ok (zb n)).
    { rewrite (app_assoc pre). apply getz_mid. rewrite zlen_app, F1. reflexivity. }
    assert (R3 : getz (pre ++ s ++ [zb n] ++ be_bytes 4 l ++ [zb a] ++ [zb b] ++ be_bytes 8 t ++ i ++ d ++ post) (zlen pre + off_from) = Ok (zb a)).
    { rewrite (app_assoc pre), (app_assoc (pre ++ s)), (app_assoc ((pre ++ s) ++ [zb n])). apply getz_mid.
      rewrite !zlen_app, F1, zlen_be. unfold off_from. change (zlen [zb n]) with 1. lia. }
    assert (R4 : getz (pre ++ s ++ [zb n] ++ be_bytes 4 l ++ [zb a] ++ [zb b] ++ be_bytes 8 t ++ i ++ d ++ post) (zlen pre + off_to) = Ok (zb b)).
    { rewrite (app_assoc pre), (app_assoc (pre ++ s)), (app_assoc ((pre ++ s) ++ [zb n])), (app_assoc (((pre ++ s) ++ [zb n]) ++ be_bytes 4 l)). apply getz_mid.
      rewrite !zlen_app, F1, zlen_be. unfold off_to. change (zlen [zb n]) with 1. change (zlen [zb a]) with 1. lia. }
    assert (R5 : rd (pre ++ s ++ [zb n] ++ be_bytes 4 l ++ [zb a] ++ [zb b] ++ be_bytes 8 t ++ i ++ d ++ post) (zlen pre + off_ts) 8 = Ok (be_bytes 8 t)).
    { rewrite (app_assoc pre), (app_assoc (pre ++ s)), (app_assoc ((pre ++ s) ++ [zb n])), (app_assoc (((pre ++ s) ++ [zb n]) ++ be_bytes 4 l)).
      rewrite (app_assoc ((((pre ++ s) ++ [zb n]) ++ be_bytes 4 l) ++ [zb a])). apply rd_mid; [|rewrite zlen_be; reflexivity].
      rewrite !zlen_app, F1, zlen_be. unfold off_ts. change (zlen [zb n]) with 1. change (zlen [zb a]) with 1. change (zlen [zb b]) with 1. lia. }
    assert (R6 : rd (pre ++ s ++ [zb n] ++ be_bytes 4 l ++ [zb a] ++ [zb b] ++ be_bytes 8 t ++ i ++ d ++ post) (zlen pre + off_sid) sid_SIZE = Ok i).
    { rewrite (app_assoc pre), (app_assoc (pre ++ s)), (app_assoc ((pre ++ s) ++ [zb n])), (app_assoc (((pre ++ s) ++ [zb n]) ++ be_bytes 4 l)).
      rewrite (app_assoc ((((pre ++ s) ++ [zb n]) ++ be_bytes 4 l) ++ [zb a])).
      rewrite (app_assoc (((((pre ++ s) ++ [zb n]) ++ be_bytes 4 l) ++ [zb a]) ++ [zb b])). apply rd_mid; [|assumption].
      rewrite !zlen_app, F1, !zlen_be. unfold off_sid. change (zlen [zb n]) with 1. change (zlen [zb a]) with 1. change (zlen [zb b]) with 1. lia. }
    assert (R7 : rd (pre ++ s ++ [zb n] ++ be_bytes 4 l ++ [zb a] ++ [zb b] ++ be_bytes 8 t ++ i ++ d ++ post) (zlen pre + sign_BYTES) (len - sign_BYTES) = Ok (hd ++ d)).
    { replace (pre ++ s ++ [zb n] ++ be_bytes 4 l ++ [zb a] ++ [zb b] ++ be_bytes 8 t ++ i ++ d ++ post) with ((pre ++ s) ++ (hd ++ d) ++ post).
      - apply rd_mid; [rewrite zlen_app, F1; reflexivity|]. rewrite zlen_app, Hhd. unfold sign_BYTES. lia.
      - unfold hd, header. rewrite <- !app_assoc. reflexivity. }
    assert (R8 : rd (pre ++ s ++ [zb n] ++ be_bytes 4 l ++ [zb a] ++ [zb b] ++ be_bytes 8 t ++ i ++ d ++ post) (zlen pre) sign_BYTES = Ok s).
    { apply rd_mid; [reflexivity|assumption]. }
    assert (R9 : rd (pre ++ s ++ [zb n] ++ be_bytes 4 l ++ [zb a] ++ [zb b] ++ be_bytes 8 t ++ i ++ d ++ post) (zlen pre + off_msgno) (hdr_SIZE - sign_BYTES) = Ok hd).
    { replace (pre ++ s ++ [zb n] ++ be_bytes 4 l ++ [zb a] ++ [zb b] ++ be_bytes 8 t ++ i ++ d ++ post) with ((pre ++ s) ++ hd ++ (d ++ post)).
      - apply rd_mid; [rewrite zlen_app, F1; reflexivity|]. rewrite Hhd. reflexivity.
      - unfold hd, header. rewrite <- !app_assoc. reflexivity. }
    rewrite R1. cbn [bind]. rewrite of_le_htonl_be, of_be_be by (try assumption; apply zlen_be).
    destruct (l =? len); [|reflexivity]. cbn [negb].
    rewrite R2. cbn [bind]. rewrite bz_zb_small by assumption. destruct (n =? msgno); [|reflexivity]. cbn [negb].
    rewrite R3. cbn [bind]. rewrite bz_zb_small by assumption. destruct (a =? from); [|reflexivity]. cbn [negb].
    rewrite R4. cbn [bind]. rewrite bz_zb_small by assumption. destruct (b =? to); [|reflexivity]. cbn [negb].
    rewrite R6. cbn [bind]. destruct (bytes_eqb i sid); [|reflexivity]. cbn [negb].
    rewrite R5. cbn [bind]. rewrite ntohll_of_le, of_be_be by (try assumption; apply zlen_be).
    pose proof (check_ts_snd eps last t now) as Hsnd. unfold freshb.
    destruct (check_ts eps last t now) as [ret last'] eqn:Ec. cbn [fst snd] in *.
    destruct (ret =? 0); cbn [negb]; subst last'; [|reflexivity].
    rewrite R7. cbn [bind]. rewrite R8. cbn [bind]. rewrite R9. cbn [bind].
    fold hd. destruct (sig_verify S pk hd s); reflexivity.
  Qed.

  (** the same for an arbitrary position in an arbitrary buffer *)
  Lemma recv_at buf off len m msgno from to pk sid eps last now :
    rd buf off len = Ok m -> 111 <= len ->
    recv_msg S buf off len msgno from to pk sid eps last now =
    Ok (let f := parse m in
        if negb (f_len f =? len) then (1, last) else
        if negb (f_msgno f =? msgno) then (2, last) else
        if negb (f_from f =? from) then (3, last) else
        if negb (f_to f =? to) then (4, last) else
        if negb (bytes_eqb (f_sid f) sid) then (7, last) else
        if negb (freshb eps last (f_ts f) now) then (5, last) else
        if negb (sigb f pk) then (6, f_ts f) else (0, f_ts f)).
  Proof.
    intros Hrd Hlen. pose proof (rd_inv _ _ _ _ Hrd) as (H1 & H2 & H3 & H4 & _).
    pose proof (rd_split _ _ _ _ Hrd) as E. destruct (parse_encode m ltac:(lia)) as (Ep & Hp).
    assert (Hpre : zlen (firstn (Z.to_nat off) buf) = off).
    { unfold zlen in *. rewrite firstn_length. lia. }
    rewrite E. generalize dependent (firstn (Z.to_nat off) buf). generalize (skipn (Z.to_nat (off + len)) buf).
    intros post pre _ <-. cbn zeta. pose proof (recv_fields pre (parse m) post len msgno from to pk sid eps last now Hp) as R.
    rewrite Ep in R. apply R. lia.
  Qed.

  Definition ret_code (f : fields) len msgno from to pk sid eps last now : Z :=
    if negb (f_len f =? len) then 1 else
    if negb (f_msgno f =? msgno) then 2 else
    if negb (f_from f =? from) then 3 else
    if negb (f_to f =? to) then 4 else
    if negb (bytes_eqb (f_sid f) sid) then 7 else
    if negb (freshb eps last (f_ts f) now) then 5 else
    if negb (sigb f pk) then 6 else 0.

  Lemma recv_is_ok buf off len msgno from to pk sid eps last now :
    0 <= off -> 111 <= len -> off + len <= zlen buf ->
    exists r last', recv_msg S buf off len msgno from to pk sid eps last now = Ok (r, last').
  Proof.
    intros H1 H2 H3. rewrite (recv_at buf off len _ msgno from to pk sid eps last now (rd_ok buf off len H1 ltac:(lia) H3) H2).
    cbn zeta. match goal with |- exists r l, Ok ?x = _ => destruct x as [r l]; exists r, l; reflexivity end.
  Qed.
End Recv.

(** ** C25 *)
Lemma ret_code_spec S f len msgno from to pk sid eps last now :
  let r := ret_code S f len msgno from to pk sid eps last now in
  let cs := checks S f len msgno from to pk sid eps last now in
  (r = 0 <-> all_hold cs) /\ (r <> 0 -> first_failing cs r).
Proof.
  cbn zeta. unfold ret_code, checks, sigb, all_hold, first_failing.
  set (p6 := sig_verify _ _ _ _ = true).
  destruct (Z.eqb_spec (f_len f) len) as [E1|E1]; cbn [negb].
  2:{ split; [split; [discriminate|]; intros H; inversion H; contradiction|intros _].
      exists [], (f_len f = len). eexists. repeat split; [constructor|assumption]. }
  destruct (Z.eqb_spec (f_msgno f) msgno) as [E2|E2]; cbn [negb].
  2:{ split; [split; [discriminate|]; intros H; inversion H as [|? ? _ H2]; inversion H2; contradiction|intros _].
      exists [(1, f_len f = len)]. do 2 eexists. split; [reflexivity|]. split; [repeat constructor; assumption|assumption]. }
  destruct (Z.eqb_spec (f_from f) from) as [E3|E3]; cbn [negb].
  2:{ split; [split; [discriminate|]; intros H|intros _].
      - exfalso. apply E3. apply (proj1 (Forall_forall _ _) H (3, f_from f = from)). right; right; left; reflexivity.
      - exists [(1, f_len f = len); (2, f_msgno f = msgno)]. do 2 eexists. split; [reflexivity|]. split; [repeat constructor; assumption|assumption]. }
  destruct (Z.eqb_spec (f_to f) to) as [E4|E4]; cbn [negb].
  2:{ split; [split; [discriminate|]; intros H|intros _].
      - exfalso. apply E4. apply (proj1 (Forall_forall _ _) H (4, f_to f = to)). right; right; right; left; reflexivity.
      - exists [(1, f_len f = len); (2, f_msgno f = msgno); (3, f_from f = from)]. do 2 eexists.
        split; [reflexivity|]. split; [repeat constructor; assumption|assumption]. }
  destruct (bytes_eqb (f_sid f) sid) eqn:E5; cbn [negb].
  2:{ apply bytes_eqb_neq in E5. split; [split; [discriminate|]; intros H|intros _].
      - exfalso. apply E5. apply (proj1 (Forall_forall _ _) H (7, f_sid f = sid)). do 4 right; left; reflexivity.
      - exists [(1, f_len f = len); (2, f_msgno f = msgno); (3, f_from f = from); (4, f_to f = to)]. do 2 eexists.
        split; [reflexivity|]. split; [repeat constructor; assumption|assumption]. }
  apply bytes_eqb_eq in E5.
  destruct (freshb eps last (f_ts f) now) eqn:E6; cbn [negb].
  2:{ assert (E6' : ~ fresh eps last (f_ts f) now) by (rewrite <- freshb_spec, E6; discriminate).
      split; [split; [discriminate|]; intros H|intros _].
      - exfalso. apply E6'. apply (proj1 (Forall_forall _ _) H (5, fresh eps last (f_ts f) now)). do 5 right; left; reflexivity.
      - exists [(1, f_len f = len); (2, f_msgno f = msgno); (3, f_from f = from); (4, f_to f = to); (7, f_sid f = sid)]. do 2 eexists.
        split; [reflexivity|]. split; [repeat constructor; assumption|assumption]. }
  apply freshb_spec in E6. destruct (sig_verify _ _ _ _) eqn:E7; cbn [negb].
  - split; [|congruence]. split; [intros _|reflexivity]. repeat constructor; assumption.
  - assert (E7' : ~ p6) by (unfold p6; discriminate). split; [split; [discriminate|]; intros H|intros _].
    + exfalso. apply E7'. apply (proj1 (Forall_forall _ _) H (6, p6)). do 6 right; left; reflexivity.
    + exists [(1, f_len f = len); (2, f_msgno f = msgno); (3, f_from f = from); (4, f_to f = to); (7, f_sid f = sid); (5, fresh eps last (f_ts f) now)].
      do 2 eexists. split; [reflexivity|]. split; [repeat constructor; assumption|assumption].
Qed.

Lemma recv_code S buf off len m msgno from to pk sid eps last now :
  rd buf off len = Ok m -> 111 <= len ->
  let r := ret_code S (parse m) len msgno from to pk sid eps last now in
  recv_msg S buf off len msgno from to pk sid eps last now =
  Ok (r, if (r =? 0) || (r =? 6) then f_ts (parse m) else last).
Proof.
  intros H1 H2. cbn zeta. rewrite (recv_at S buf off len m _ _ _ _ _ _ _ _ H1 H2). cbn zeta. unfold ret_code.
  repeat match goal with |- context [if negb ?b then _ else _] => destruct b; cbn [negb]; [|reflexivity] end. reflexivity.
Qed.

Theorem recv_checks S buf off len m msgno from to pk sid eps last now :
  rd buf off len = Ok m -> 111 <= len ->
  exists f r last', fields_ok f /\ encode f = m /\
    recv_msg S buf off len msgno from to pk sid eps last now = Ok (r, last') /\
    (r = 0 <-> all_hold (checks S f len msgno from to pk sid eps last now)) /\
    (r <> 0 -> first_failing (checks S f len msgno from to pk sid eps last now) r) /\
    (r = 0 -> last' = f_ts f).
Proof.
  intros H1 H2. pose proof (rd_inv _ _ _ _ H1) as (_ & _ & _ & Hm & _).
  destruct (parse_encode m ltac:(lia)) as (Ep & Hp).
  pose proof (recv_code S buf off len m msgno from to pk sid eps last now H1 H2) as R. cbn zeta in R.
  destruct (ret_code_spec S (parse m) len msgno from to pk sid eps last now) as (C1 & C2).
  exists (parse m). do 2 eexists. split; [assumption|]. split; [assumption|]. split; [exact R|].
  split; [exact C1|]. split; [exact C2|]. intros ->. reflexivity.
Qed.

(** ** C24 *)
Lemma send_spec S buf off len msgno from to sk sid now :
  (forall k m, zlen (sig_sign S k m) = 64) ->
  0 <= off -> off + 111 <= zlen buf -> zlen sid = 32 -> is_u64 now -> 0 <= len ->
  let hd := header msgno len from to now sid in
  send_msg S buf off len msgno from to sk sid now =
  Ok (firstn (Z.to_nat off) buf ++ sig_sign S sk hd ++ hd ++ skipn (Z.to_nat (off + 111)) buf).
Proof.
  intros Hsig Hoff Hbuf Hsid Hnow Hlen hd.
  pose proof (rd_ok buf off 111 Hoff ltac:(lia) Hbuf) as Hrd. set (m := firstn _ (skipn _ buf)) in Hrd.
  pose proof (rd_split _ _ _ _ Hrd) as E. pose proof (rd_inv _ _ _ _ Hrd) as (_ & _ & _ & Hm & _).
  destruct (parse_encode m ltac:(lia)) as (Ep & Hp).
  assert (Hpre : zlen (firstn (Z.to_nat off) buf) = off) by (unfold zlen in *; rewrite firstn_length; lia).
  set (post := skipn (Z.to_nat (off + 111)) buf) in *. set (pre := firstn (Z.to_nat off) buf) in *.
  rewrite E. clear E Hrd. clearbody pre post m. rewrite <- Ep in Hm. rewrite <- Ep. destruct (parse m) as [s n l a b t i d]. clear Ep.
  unfold fields_ok in Hp. cbn [f_sig f_msgno f_len f_from f_to f_ts f_sid f_body] in Hp.
  destruct Hp as (F1 & F2 & F3 & F4 & F5 & F6 & F7).
  assert (Hd : d = []).
  { apply zlen_0. pose proof (zlen_encode (mkFields s n l a b t i d)) as Z. unfold fields_ok in Z.
    cbn [f_sig f_msgno f_len f_from f_to f_ts f_sid f_body] in Z. specialize (Z (conj F1 (conj F2 (conj F3 (conj F4 (conj F5 (conj F6 F7))))))). lia. }
  subst d. unfold encode, message. cbn [f_sig f_msgno f_len f_from f_to f_ts f_sid f_body].
  unfold hd, header. rewrite app_nil_r, <- !app_assoc. unfold send_msg.
  assert (L1 : forall x, zlen [zb x] = 1) by reflexivity.
  assert (W1 : forall n l a b t i, zlen l = 4 -> wr (pre ++ s ++ [zb n] ++ l ++ [zb a] ++ [zb b] ++ t ++ i ++ post) (off + off_len) (le_bytes 4 (htonl (u32 len))) = Ok (pre ++ s ++ [zb n] ++ be_bytes 4 len ++ [zb a] ++ [zb b] ++ t ++ i ++ post)).
  { intros n0 l0 a0 b0 t0 i0 Hl0. rewrite htonl_mod, le_htonl.
    replace (pre ++ s ++ [zb n0] ++ l0 ++ [zb a0] ++ [zb b0] ++ t0 ++ i0 ++ post) with ((pre ++ s ++ [zb n0]) ++ l0 ++ ([zb a0] ++ [zb b0] ++ t0 ++ i0 ++ post)) by (rewrite <- !app_assoc; reflexivity).
    rewrite wr_mid; [rewrite <- !app_assoc; reflexivity| |rewrite zlen_be; assumption].
    rewrite !zlen_app, L1, F1, Hpre. unfold off_len. lia. }
  assert (W2 : forall n l a b t i, wr (pre ++ s ++ [zb n] ++ l ++ [zb a] ++ [zb b] ++ t ++ i ++ post) (off + off_msgno) [zb msgno] = Ok (pre ++ s ++ [zb msgno] ++ l ++ [zb a] ++ [zb b] ++ t ++ i ++ post)).
  { intros n0 l0 a0 b0 t0 i0.
    replace (pre ++ s ++ [zb n0] ++ l0 ++ [zb a0] ++ [zb b0] ++ t0 ++ i0 ++ post) with ((pre ++ s) ++ [zb n0] ++ (l0 ++ [zb a0] ++ [zb b0] ++ t0 ++ i0 ++ post)) by (rewrite <- !app_assoc; reflexivity).
    rewrite wr_mid; [rewrite <- !app_assoc; reflexivity| |reflexivity].
    rewrite !zlen_app, F1, Hpre. unfold off_msgno. lia. }
  assert (W3 : forall n l a b t i, zlen l = 4 -> wr (pre ++ s ++ [zb n] ++ l ++ [zb a] ++ [zb b] ++ t ++ i ++ post) (off + off_from) [zb from] = Ok (pre ++ s ++ [zb n] ++ l ++ [zb from] ++ [zb b] ++ t ++ i ++ post)).
  { intros n0 l0 a0 b0 t0 i0 Hl0.
    replace (pre ++ s ++ [zb n0] ++ l0 ++ [zb a0] ++ [zb b0] ++ t0 ++ i0 ++ post) with ((pre ++ s ++ [zb n0] ++ l0) ++ [zb a0] ++ ([zb b0] ++ t0 ++ i0 ++ post)) by (rewrite <- !app_assoc; reflexivity).
    rewrite wr_mid; [rewrite <- !app_assoc; reflexivity| |reflexivity].
    rewrite !zlen_app, L1, F1, Hl0, Hpre. unfold off_from. lia. }
  assert (W4 : forall n l a b t i, zlen l = 4 -> wr (pre ++ s ++ [zb n] ++ l ++ [zb a] ++ [zb b] ++ t ++ i ++ post) (off + off_to) [zb to] = Ok (pre ++ s ++ [zb n] ++ l ++ [zb a] ++ [zb to] ++ t ++ i ++ post)).
  { intros n0 l0 a0 b0 t0 i0 Hl0.
    replace (pre ++ s ++ [zb n0] ++ l0 ++ [zb a0] ++ [zb b0] ++ t0 ++ i0 ++ post) with ((pre ++ s ++ [zb n0] ++ l0 ++ [zb a0]) ++ [zb b0] ++ (t0 ++ i0 ++ post)) by (rewrite <- !app_assoc; reflexivity).
    rewrite wr_mid; [rewrite <- !app_assoc; reflexivity| |reflexivity].
    rewrite !zlen_app, !L1, F1, Hl0, Hpre. unfold off_to. lia. }
  assert (W5 : forall n l a b t i, zlen l = 4 -> zlen t = 8 -> wr (pre ++ s ++ [zb n] ++ l ++ [zb a] ++ [zb b] ++ t ++ i ++ post) (off + off_ts) (le_bytes 8 (htonll now)) = Ok (pre ++ s ++ [zb n] ++ l ++ [zb a] ++ [zb b] ++ be_bytes 8 now ++ i ++ post)).
  { intros n0 l0 a0 b0 t0 i0 Hl0 Ht0. rewrite le_htonll by assumption.
    replace (pre ++ s ++ [zb n0] ++ l0 ++ [zb a0] ++ [zb b0] ++ t0 ++ i0 ++ post) with ((pre ++ s ++ [zb n0] ++ l0 ++ [zb a0] ++ [zb b0]) ++ t0 ++ (i0 ++ post)) by (rewrite <- !app_assoc; reflexivity).
    rewrite wr_mid; [rewrite <- !app_assoc; reflexivity| |rewrite zlen_be; assumption].
    rewrite !zlen_app, !L1, F1, Hl0, Hpre. unfold off_ts. lia. }
  assert (W6 : forall n l a b t i, zlen l = 4 -> zlen t = 8 -> zlen i = 32 -> wr (pre ++ s ++ [zb n] ++ l ++ [zb a] ++ [zb b] ++ t ++ i ++ post) (off + off_sid) sid = Ok (pre ++ s ++ [zb n] ++ l ++ [zb a] ++ [zb b] ++ t ++ sid ++ post)).
  { intros n0 l0 a0 b0 t0 i0 Hl0 Ht0 Hi0.
    replace (pre ++ s ++ [zb n0] ++ l0 ++ [zb a0] ++ [zb b0] ++ t0 ++ i0 ++ post) with ((pre ++ s ++ [zb n0] ++ l0 ++ [zb a0] ++ [zb b0] ++ t0) ++ i0 ++ post) by (rewrite <- !app_assoc; reflexivity).
    rewrite wr_mid; [rewrite <- !app_assoc; reflexivity| |lia].
    rewrite !zlen_app, !L1, F1, Hl0, Ht0, Hpre. unfold off_sid. lia. }
  rewrite W1 by apply zlen_be. cbn [bind]. rewrite W2. cbn [bind]. rewrite W3 by apply zlen_be. cbn [bind].
  rewrite W4 by apply zlen_be. cbn [bind]. rewrite W5 by apply zlen_be. cbn [bind]. rewrite W6 by (try assumption; apply zlen_be). cbn [bind].
  replace (pre ++ s ++ [zb msgno] ++ be_bytes 4 len ++ [zb from] ++ [zb to] ++ be_bytes 8 now ++ sid ++ post)
    with (pre ++ s ++ header msgno len from to now sid ++ post) by (unfold header; rewrite <- !app_assoc; reflexivity).
  rewrite (app_assoc pre). rewrite (rd_mid (pre ++ s)); [|rewrite zlen_app, F1, Hpre; reflexivity|rewrite zlen_header by assumption; reflexivity].
  cbn [bind]. rewrite <- app_assoc. rewrite wr_mid; [unfold header; rewrite <- !app_assoc; reflexivity|assumption|rewrite Hsig; assumption].
Qed.

Theorem sent_accepted S buf off len msgno from to sk sid now :
  sigs_ok S -> 0 <= off -> 111 <= len < 2 ^ 32 -> off + len <= zlen buf ->
  is_byte msgno -> is_byte from -> is_byte to -> zlen sid = 32 -> is_u64 now ->
  exists buf' sig body, send_msg S buf off len msgno from to sk sid now = Ok buf' /\
    rd buf (off + 111) (len - 111) = Ok body /\
    rd buf' off len = Ok (message sig (header msgno len from to now sid) body) /\
    (forall o k, o + k <= off \/ off + len <= o -> rd buf' o k = rd buf o k) /\
    forall window recorded now', fresh window recorded now now' ->
      recv_msg S buf' off len msgno from to (sig_pk S sk) sid window recorded now' = Ok (0, now).
Proof.
  intros HS Hoff Hlen Hbuf Hn Hf Ht Hsid Hnow.
  assert (Hsig : forall k m, zlen (sig_sign S k m) = 64) by (intros k m; unfold zlen; rewrite (ok_sig_len S HS); reflexivity).
  pose proof (send_spec S buf off len msgno from to sk sid now Hsig Hoff ltac:(lia) Hsid Hnow ltac:(lia)) as E. cbn zeta in E.
  set (hd := header msgno len from to now sid) in *. set (sig := sig_sign S sk hd) in *.
  assert (Hhd : zlen hd = 47) by (apply zlen_header; assumption).
  assert (Hw : wr buf off (sig ++ hd) = Ok (firstn (Z.to_nat off) buf ++ sig ++ hd ++ skipn (Z.to_nat (off + 111)) buf)).
  { assert (H111 : zlen (sig ++ hd) = 111) by (rewrite zlen_app, Hhd; unfold sig; rewrite Hsig; reflexivity).
    rewrite wr_ok by lia. rewrite H111, <- app_assoc. reflexivity. }
  assert (Hbody : exists body, rd buf (off + 111) (len - 111) = Ok body /\ zlen body = len - 111).
  { eexists. split; [apply rd_ok; lia|]. unfold zlen in *. rewrite firstn_length, skipn_length. lia. }
  destruct Hbody as (body & Hb1 & Hb2).
  assert (H111 : zlen (sig ++ hd) = 111) by (rewrite zlen_app, Hhd; unfold sig; rewrite Hsig; reflexivity).
  assert (Hbuf2 : firstn (Z.to_nat off) buf ++ sig ++ hd ++ skipn (Z.to_nat (off + 111)) buf =
                  firstn (Z.to_nat off) buf ++ message sig hd body ++ skipn (Z.to_nat (off + len)) buf).
  { unfold message. rewrite <- !app_assoc. do 3 f_equal.
    pose proof (rd_inv _ _ _ _ Hb1) as (_ & _ & _ & _ & ->).
    rewrite <- (firstn_skipn (Z.to_nat (len - 111)) (skipn (Z.to_nat (off + 111)) buf)) at 1. f_equal.
    rewrite skipn_skipn. f_equal. lia. }
  assert (Hm : zlen (message sig hd body) = len) by (unfold message; rewrite app_assoc, zlen_app, H111, Hb2; lia).
  assert (Hpre : zlen (firstn (Z.to_nat off) buf) = off) by (unfold zlen in *; rewrite firstn_length; lia).
  eexists. exists sig, body. split; [exact E|]. split; [exact Hb1|]. split; [|split].
  - rewrite Hbuf2. apply rd_mid; assumption.
  - intros o k [H|H]; [eapply rd_wr_before; eassumption|eapply rd_wr_after; [exact Hw|lia]].
  - intros window recorded now' Hfr. rewrite Hbuf2.
    pose proof (recv_fields S (firstn (Z.to_nat off) buf) (mkFields sig msgno len from to now sid body)
      (skipn (Z.to_nat (off + len)) buf) len msgno from to (sig_pk S sk) sid window recorded now') as R.
    rewrite Hpre in R. unfold encode in R. cbn [f_sig f_msgno f_len f_from f_to f_ts f_sid f_body] in R. fold hd in R.
    rewrite R; clear R.
    + rewrite !Z.eqb_refl, bytes_eqb_refl. rewrite (proj2 (freshb_spec _ _ _ _) Hfr). cbn [negb]. unfold sigb.
      cbn [f_sig f_msgno f_len f_from f_to f_ts f_sid f_body]. fold hd. unfold sig. rewrite (ok_sig_complete S HS). reflexivity.
    + unfold fields_ok. cbn [f_sig f_msgno f_len f_from f_to f_ts f_sid f_body]. repeat split; try assumption; try apply Hn; try apply Hf; try apply Ht; try apply Hnow; try lia.
      unfold sig. apply Hsig.
    + symmetry. exact Hm.
Qed.

(** ** C26 *)
Theorem body_not_covered S sig hd body body' pre post len msgno from to pk sid eps last now :
  zlen sig = 64 -> zlen hd = 47 -> zlen body' = zlen body -> len = 111 + zlen body ->
  recv_msg S (pre ++ message sig hd body' ++ post) (zlen pre) len msgno from to pk sid eps last now =
  recv_msg S (pre ++ message sig hd body ++ post) (zlen pre) len msgno from to pk sid eps last now.
Proof.
  intros H1 H2 H3 H4. pose proof (zlen_nonneg body).
  assert (Hz : forall b, zlen b = zlen body -> zlen (message sig hd b) = len) by (intros b Hb; unfold message; rewrite !zlen_app; lia).
  assert (Hp : forall b, parse (message sig hd b) = mkFields (f_sig (parse (message sig hd []))) (f_msgno (parse (message sig hd [])))
     (f_len (parse (message sig hd []))) (f_from (parse (message sig hd []))) (f_to (parse (message sig hd []))) (f_ts (parse (message sig hd [])))
     (f_sid (parse (message sig hd []))) b).
  { intros b. apply encode_inj.
    - apply parse_encode. unfold message. rewrite !zlen_app. pose proof (zlen_nonneg b). lia.
    - destruct (parse_encode (message sig hd [])) as (_ & Hf); [unfold message; rewrite !zlen_app, zlen_nil; lia|]. exact Hf.
    - destruct (parse_encode (message sig hd [])) as (He & Hf); [unfold message; rewrite !zlen_app, zlen_nil; lia|].
      rewrite (proj1 (parse_encode (message sig hd b) ltac:(unfold message; rewrite !zlen_app; pose proof (zlen_nonneg b); lia))).
      assert (Hb0 : f_body (parse (message sig hd [])) = []).
      { apply zlen_0. pose proof (zlen_encode _ Hf) as Z. rewrite He in Z. unfold message in Z. rewrite !zlen_app, zlen_nil in Z. unfold message. lia. }
      unfold encode in He |- *. cbn [f_sig f_msgno f_len f_from f_to f_ts f_sid f_body]. rewrite Hb0 in He.
      unfold message in He |- *. rewrite !app_nil_r in He. rewrite (app_assoc sig), <- He at 1. rewrite <- app_assoc, !app_nil_r. reflexivity. }
  rewrite (recv_at S _ (zlen pre) len (message sig hd body')) by (try lia; apply rd_mid; auto).
  rewrite (recv_at S _ (zlen pre) len (message sig hd body)) by (try lia; apply rd_mid; auto).
  rewrite (Hp body), (Hp body'). cbn zeta. unfold sigb. cbn [f_sig f_msgno f_len f_from f_to f_ts f_sid f_body]. reflexivity.
Qed.

(** ** C28 *)
Theorem recorded_after S buf off len m msgno from to pk sid eps last now r last' :
  rd buf off len = Ok m -> 111 <= len ->
  recv_msg S buf off len msgno from to pk sid eps last now = Ok (r, last') ->
  last' = if (r =? 0) || (r =? 6) then of_be (firstn 8 (skipn 71 m)) else last.
Proof.
  intros H1 H2 H3. pose proof (recv_code S buf off len m msgno from to pk sid eps last now H1 H2) as R.
  cbn zeta in R. rewrite R in H3. injection H3 as <- <-. reflexivity.
Qed.

(** ** C27 *)
Lemma recv_history_cons S eps last a l outs :
  arrival_ok a -> recv_history S eps last (a :: l) = Ok outs ->
  exists r ts last' rest, outs = (r, ts) :: rest /\ recv_history S eps last' l = Ok rest /\ is_u64 ts /\
    last' = (if (r =? 0) || (r =? 6) then ts else last) /\
    (r = 0 \/ r = 6 -> fresh eps last ts (a_now a)).
Proof.
  intros (A1 & A2 & A3) H. cbn [recv_history] in H.
  pose proof (rd_ok (a_buf a) (a_off a) (a_len a) A1 ltac:(lia) A3) as Hrd.
  set (m := firstn _ (skipn _ (a_buf a))) in Hrd.
  pose proof (recv_code S _ _ _ m (a_msgno a) (a_from a) (a_to a) (a_pk a) (a_sid a) eps last (a_now a) Hrd A2) as R. cbn zeta in R.
  rewrite R in H. cbn [bind] in H. clear R.
  rewrite <- (rd_rd _ _ _ m 71 8 Hrd) in H by lia.
  assert (Hm : rd m 71 8 = Ok (firstn 8 (skipn 71 m))).
  { apply rd_inv in Hrd. destruct Hrd as (_ & _ & _ & Hz & _). rewrite rd_ok by lia. reflexivity. }
  rewrite Hm in H. cbn [bind] in H. fold (f_ts (parse m)) in H.
  destruct (recv_history _ _ _ l) as [rest|] eqn:Er; [|discriminate]. cbn [bind] in H. injection H as <-.
  do 4 eexists. split; [reflexivity|]. split; [exact Er|]. split; [|split; [reflexivity|]].
  - destruct (parse_encode m) as (_ & Hf); [apply rd_inv in Hrd; lia|]. apply Hf.
  - intros Hr. apply freshb_spec. unfold ret_code in Hr.
    repeat match type of Hr with (if negb ?b then _ else _) = _ \/ _ => destruct b eqn:?; cbn [negb] in Hr; [|lia] end; assumption.
Qed.

Lemma fresh_ge eps last ts now : 0 <= last -> is_u64 ts -> fresh eps last ts now -> last <= ts.
Proof. unfold fresh, is_u64. intros H1 H2 H3. destruct (Z.eqb_spec last 0); lia. Qed.

Lemma history_ge S eps l : forall last outs, 0 <= last -> Forall arrival_ok l -> recv_history S eps last l = Ok outs ->
  Forall (fun ts => last <= ts) (accepted outs).
Proof.
  induction l as [|a l IH]; intros last outs Hlast Hl H.
  - injection H as <-. constructor.
  - inversion Hl as [|? ? Ha Hl' E1]; subst.
    destruct (recv_history_cons S eps last a l outs Ha H) as (r & ts & last' & rest & -> & Hr & Hts & El & Hf).
    assert (last <= last').
    { subst last'. destruct ((r =? 0) || (r =? 6)) eqn:Eb; [|lia]. apply (fresh_ge eps last ts (a_now a)); auto. apply Hf.
      apply orb_true_iff in Eb. rewrite !Z.eqb_eq in Eb. assumption. }
    specialize (IH last' rest ltac:(lia) Hl' Hr).
    assert (IH' : Forall (fun x => last <= x) (accepted rest)).
    { eapply Forall_impl; [|exact IH]. cbn beta. intros; lia. }
    unfold accepted in *. cbn [filter fst]. destruct (Z.eqb_spec r 0) as [->|_]; [|assumption].
    cbn [map snd]. constructor; [|assumption]. cbn [Z.eqb orb] in El. subst last'. lia.
Qed.

Theorem history_sorted S eps l : forall last outs, 0 <= last -> Forall arrival_ok l -> recv_history S eps last l = Ok outs ->
  StronglySorted Z.le (accepted outs).
Proof.
  induction l as [|a l IH]; intros last outs Hlast Hl H.
  - injection H as <-. constructor.
  - inversion Hl as [|? ? Ha Hl' E1]; subst.
    destruct (recv_history_cons S eps last a l outs Ha H) as (r & ts & last' & rest & -> & Hr & Hts & El & Hf).
    assert (0 <= last').
    { subst last'. destruct ((r =? 0) || (r =? 6)); [apply Hts|assumption]. }
    specialize (IH last' rest ltac:(lia) Hl' Hr).
    pose proof (history_ge S eps l last' rest ltac:(lia) Hl' Hr) as Hge.
    unfold accepted in *. cbn [filter fst]. destruct (Z.eqb_spec r 0) as [->|_]; [|assumption].
    cbn [map snd]. cbn [Z.eqb orb] in El. subst last'. constructor; assumption.
Qed.

Lemma fresh_window eps last ts now : 0 <= eps -> 0 < last -> fresh eps last ts now -> ts - last <= eps.
Proof.
  unfold fresh. intros H0 H1 H2. destruct (Z.eqb_spec last 0); [lia|].
  pose proof (Z.mod_le (last + eps) (2 ^ 64) ltac:(lia) ltac:(lia)). lia.
Qed.

Lemma history_window_aux S eps l : 0 <= eps -> forall last outs, Forall arrival_ok l -> recv_history S eps last l = Ok outs ->
  Forall (fun o => fst o <> 6) outs -> Forall (fun ts => 0 < ts) (accepted outs) -> 0 <= last ->
  forall b l2, accepted outs = b :: l2 -> 0 < last -> b - last <= eps.
Proof.
  intros Heps. induction l as [|a l IH]; intros last outs Hl H H6 Hpos Hlast b l2 E Hl0.
  - injection H as <-. discriminate.
  - inversion Hl as [|? ? Ha Hl' E1]; subst.
    destruct (recv_history_cons S eps last a l outs Ha H) as (r & ts & last' & rest & -> & Hr & Hts & El & Hf).
    inversion H6 as [|? ? Hr6 H6' E2]; subst. cbn [fst] in Hr6. unfold accepted in *. cbn [filter fst] in *.
    destruct (Z.eqb_spec r 0) as [->|Hr0].
    + cbn [map snd] in *. injection E as -> <-. apply (fresh_window eps last b (a_now a)); auto.
    + destruct (Z.eqb_spec r 6); [contradiction|]. cbn [orb] in Hr. apply (IH last rest Hl' Hr H6' Hpos Hlast b l2 E Hl0).
Qed.

Theorem history_window S eps l : 0 <= eps -> forall last outs, 0 <= last -> Forall arrival_ok l -> recv_history S eps last l = Ok outs ->
  Forall (fun o => fst o <> 6) outs -> Forall (fun ts => 0 < ts) (accepted outs) ->
  forall l1 a b l2, accepted outs = l1 ++ a :: b :: l2 -> b - a <= eps.
Proof.
  intros Heps. induction l as [|x l IH]; intros last outs Hlast Hl H H6 Hpos l1 a b l2 E.
  - injection H as <-. destruct l1; discriminate.
  - inversion Hl as [|? ? Ha Hl' E1]; subst.
    destruct (recv_history_cons S eps last x l outs Ha H) as (r & ts & last' & rest & -> & Hr & Hts & El & Hf).
    inversion H6 as [|? ? Hr6 H6' E2]; subst. cbn [fst] in Hr6. unfold accepted in *. cbn [filter fst] in *.
    destruct (Z.eqb_spec r 0) as [->|Hr0].
    + cbn [map snd Z.eqb orb] in *. inversion Hpos as [|? ? Hp0 Hpos' E3]; subst.
      destruct l1 as [|y l1].
      * injection E as -> E. eapply (history_window_aux S eps l Heps a rest); try eassumption. apply Hts.
      * injection E as -> E. eapply (IH y rest); try eassumption. apply Hts.
    + destruct (Z.eqb_spec r 6); [contradiction|]. cbn [orb] in Hr. eapply (IH last rest); eassumption.
Qed.

(** ** C40 *)
Lemma transcript_item_be m : zlen m < 2 ^ 32 -> transcript_item m = be_bytes 4 (zlen m) ++ m.
Proof. intros H. unfold transcript_item. rewrite htonl_mod, le_htonl. reflexivity. Qed.

Lemma fold_transcript ms : forall t, fold_left update_transcript ms t = t ++ concat (map transcript_item ms).
Proof.
  induction ms as [|m ms IH]; intros t; cbn [fold_left map concat].
  - rewrite app_nil_r. reflexivity.
  - rewrite IH. unfold update_transcript. rewrite <- app_assoc. reflexivity.
Qed.

Lemma app_inj_len {A} (a b c d : list A) : length a = length c -> a ++ b = c ++ d -> a = c /\ b = d.
Proof.
  revert c. induction a as [|x a IH]; intros [|y c] H E; cbn in *; try lia; [auto|].
  injection E as -> E. destruct (IH c ltac:(lia) E) as (-> & ->). auto.
Qed.

Lemma transcript_inj ms1 : forall ms2, Forall (fun m => zlen m < 2 ^ 32) ms1 -> Forall (fun m => zlen m < 2 ^ 32) ms2 ->
  concat (map transcript_item ms1) = concat (map transcript_item ms2) -> ms1 = ms2.
Proof.
  assert (Hne : forall m l, zlen m < 2 ^ 32 -> transcript_item m ++ l <> []).
  { intros m l H. rewrite transcript_item_be by assumption. intros E. apply (f_equal zlen) in E.
    rewrite !zlen_app, zlen_be, zlen_nil in E. pose proof (zlen_nonneg m). pose proof (zlen_nonneg l). lia. }
  induction ms1 as [|m1 ms1 IH]; intros [|m2 ms2] H1 H2 E; cbn [map concat] in E.
  - reflexivity.
  - inversion H2; subst. symmetry in E. apply Hne in E; [destruct E|assumption].
  - inversion H1; subst. apply Hne in E; [destruct E|assumption].
  - inversion H1 as [|? ? M1 R1]; inversion H2 as [|? ? M2 R2]; subst. rewrite !transcript_item_be in E by assumption.
    rewrite <- !app_assoc in E. apply app_inj_len in E; [|rewrite !be_bytes_length; reflexivity].
    destruct E as (E1 & E). apply be_bytes_inj in E1; [|split; [apply zlen_nonneg|assumption]|split; [apply zlen_nonneg|assumption]].
    apply app_inj_len in E; [|unfold zlen in E1; lia]. destruct E as (-> & E). f_equal. apply IH; assumption.
Qed.

Theorem transcript_unambiguous t ms1 ms2 :
  Forall (fun m => zlen m < 2 ^ 32) ms1 -> Forall (fun m => zlen m < 2 ^ 32) ms2 ->
  fold_left update_transcript ms1 t = fold_left update_transcript ms2 t -> ms1 = ms2.
Proof.
  intros H1 H2. rewrite !fold_transcript. intros E. apply app_inv_head in E. apply transcript_inj; assumption.
Qed.

(** ** C26, what is authenticated *)
Theorem header_authenticated S (signed : bytes -> Prop) buf off len m msgno from to pk sid eps last now last' :
  (forall h s, sig_verify S pk h s = true -> signed h) ->
  rd buf off len = Ok m -> 111 <= len ->
  recv_msg S buf off len msgno from to pk sid eps last now = Ok (0, last') ->
  exists sig body, m = message sig (header msgno len from to last' sid) body /\ zlen sig = 64 /\
    signed (header msgno len from to last' sid).
Proof.
  intros Hunf H1 H2 H3. destruct (recv_checks S buf off len m msgno from to pk sid eps last now H1 H2)
    as (f & r & l' & Hf & He & Hr & Hc & _ & Hl).
  rewrite H3 in Hr. injection Hr as <- <-. rewrite (Hl eq_refl) in *.
  apply proj1 in Hc. specialize (Hc eq_refl). unfold checks, all_hold in Hc.
  repeat match goal with H : Forall _ (_ :: _) |- _ => inversion H; subst; clear H end. cbn [snd] in *.
  exists (f_sig f), (f_body f). split; [subst; reflexivity|]. split; [apply Hf|]. subst. eapply Hunf. eassumption.
Qed.
