(** The external interface: the part of libsodium that /repo calls.
    Nothing here is an axiom: the group, the hash functions and the signature scheme are
    arguments (records of functions), their laws are stated as separate predicates which
    theorems take as hypotheses, and concrete instances at the end of the file show that
    the laws can be satisfied. *)
From Coq Require Import ZArith NArith Lia List Bool Field.
From Coq.Strings Require Import Byte.
From Verif Require Import Prime PrimeL Fq Poly Bytes.
Import ListNotations.
Open Scope Z_scope.

(** ** The ristretto255 group *)
Record ristretto : Type := mkRistretto {
  rG : Type;
  radd : rG -> rG -> rG;
  rneg : rG -> rG;
  rzero : rG;
  rbase : rG;
  renc : rG -> bytes;            (* canonical 32-byte encoding *)
  rdec : bytes -> option rG;     (* decoding, [None] for non-encodings *)
  rmap : bytes -> rG             (* the hash-to-group map on 64 bytes *)
}.

(** multiplication of a group element by a non-negative integer, double and add *)
Fixpoint psmul (R : ristretto) (n : positive) (P : rG R) : rG R :=
  match n with
  | xH => P
  | xO n' => let Q := psmul R n' P in radd R Q Q
  | xI n' => let Q := psmul R n' P in radd R P (radd R Q Q)
  end.

Definition rsmul (R : ristretto) (n : Z) (P : rG R) : rG R :=
  match n with
  | Z0 => rzero R
  | Zpos p => psmul R p P
  | Zneg p => rneg R (psmul R p P)
  end.

Record ristretto_ok (R : ristretto) : Prop := mkRistrettoOk {
  ok_assoc : forall a b c, radd R a (radd R b c) = radd R (radd R a b) c;
  ok_comm : forall a b, radd R a b = radd R b a;
  ok_zero : forall a, radd R (rzero R) a = a;
  ok_neg : forall a, radd R (rneg R a) a = rzero R;
  ok_order : forall a, rsmul R L a = rzero R;
  ok_gen : forall a, exists k, 0 <= k /\ a = rsmul R k (rbase R);
  ok_base : rbase R <> rzero R;
  ok_enc_len : forall a, length (renc R a) = 32%nat;
  ok_dec_enc : forall a, rdec R (renc R a) = Some a;
  ok_enc_dec : forall b a, rdec R b = Some a -> renc R a = b;
  ok_enc_zero : renc R (rzero R) = zeros 32
}.

(** ** Scalars: 32-byte little endian buffers as integers in [0, 2^256) *)
(** crypto_core_ristretto255_scalar_mul *)
Definition scalar_mul (x y : Z) : Z := (x * y) mod L.
(** crypto_core_ristretto255_scalar_add: 256-bit addition (carry dropped), then reduction *)
Definition scalar_add (x y : Z) : Z := ((x + y) mod 2 ^ 256) mod L.
(** crypto_core_ristretto255_scalar_negate *)
Definition scalar_negate (x : Z) : Z := (- x) mod L.
(** crypto_core_ristretto255_scalar_sub: addition of the negation *)
Definition scalar_sub (x y : Z) : Z := scalar_add x (scalar_negate y).
(** crypto_core_ristretto255_scalar_invert: (return code, x^(L-2) mod L);
    the return code is -1 iff the 32 bytes are all zero *)
Definition scalar_invert (x : Z) : Z * Z :=
  ((if x =? 0 then -1 else 0), pow_mod (x mod L) (L - 2) L).
(** the values crypto_core_ristretto255_scalar_random can produce *)
Definition random_scalar (x : Z) : Prop := 0 < x < L.
(** any 32-byte buffer *)
Definition scalar_buf (x : Z) : Prop := 0 <= x < 2 ^ 256.

(** ** Group operations on encodings *)
(** crypto_core_ristretto255_is_valid_point *)
Definition is_valid_point (R : ristretto) (p : bytes) : bool :=
  match rdec R p with Some _ => true | None => false end.

(** crypto_scalarmult_ristretto255(q, n, p): bit 255 of n is cleared; -1 without result for
    an invalid p; -1 with q = 32 zero bytes when the result is the identity.
    Result: (return code, what is written to q). *)
Definition scalarmult (R : ristretto) (n : Z) (p : bytes) : Z * option bytes :=
  match rdec R p with
  | None => (-1, None)
  | Some P =>
      let q := renc R (rsmul R (n mod 2 ^ 255) P) in
      ((if bytes_eqb q (zeros 32) then -1 else 0), Some q)
  end.

(** crypto_scalarmult_ristretto255_base(q, n) *)
Definition scalarmult_base (R : ristretto) (n : Z) : Z * bytes :=
  let q := renc R (rsmul R (n mod 2 ^ 255) (rbase R)) in
  ((if bytes_eqb q (zeros 32) then -1 else 0), q).

(** crypto_core_ristretto255_add(r, p, q): [None] = returns -1 and leaves r alone *)
Definition core_add (R : ristretto) (p q : bytes) : option bytes :=
  match rdec R p, rdec R q with
  | Some P, Some Q => Some (renc R (radd R P Q))
  | _, _ => None
  end.

(** crypto_core_ristretto255_from_hash(p, h); always returns 0 *)
Definition from_hash (R : ristretto) (h : bytes) : bytes := renc R (rmap R h).

(** ** Hash functions *)
Record hashes : Type := mkHashes {
  sha512 : bytes -> bytes;          (* crypto_hash_sha512, also init/update/final *)
  blake2b : nat -> bytes -> bytes   (* crypto_generichash without key, given output length *)
}.

Record hashes_ok (H : hashes) : Prop := mkHashesOk {
  ok_sha512_len : forall m, length (sha512 H m) = 64%nat;
  ok_blake2b_len : forall n m, length (blake2b H n m) = n
}.

(** ** Signatures (crypto_sign_detached / crypto_sign_verify_detached) *)
Record sigs : Type := mkSigs {
  sig_pk : bytes -> bytes;                     (* public key of a secret key *)
  sig_sign : bytes -> bytes -> bytes;          (* secret key, message *)
  sig_verify : bytes -> bytes -> bytes -> bool (* public key, message, signature *)
}.

Record sigs_ok (S : sigs) : Prop := mkSigsOk {
  ok_sig_len : forall sk m, length (sig_sign S sk m) = 64%nat;
  ok_sig_pk_len : forall sk, length (sig_pk S sk) = 32%nat;
  ok_sig_complete : forall sk m, sig_verify S (sig_pk S sk) m (sig_sign S sk m) = true
}.

(** * Consequences *)
Section Group.
  Variable R : ristretto.
  Hypothesis HR : ristretto_ok R.

  Local Infix "+g" := (radd R) (at level 50, left associativity).

  Lemma radd_0_l a : rzero R +g a = a. Proof. apply (ok_zero _ HR). Qed.
  Lemma radd_0_r a : a +g rzero R = a. Proof. rewrite (ok_comm _ HR). apply (ok_zero _ HR). Qed.
  Lemma radd_assoc a b c : a +g (b +g c) = (a +g b) +g c. Proof. apply (ok_assoc _ HR). Qed.
  Lemma radd_comm a b : a +g b = b +g a. Proof. apply (ok_comm _ HR). Qed.
  Lemma radd_cancel_l a b c : a +g b = a +g c -> b = c.
  Proof.
    intros H. rewrite <- (radd_0_l b), <- (radd_0_l c), <- (ok_neg _ HR a).
    rewrite <- !radd_assoc, H. reflexivity.
  Qed.
  Lemma radd_shuffle a b c d : (a +g b) +g (c +g d) = (a +g c) +g (b +g d).
  Proof.
    rewrite <- !radd_assoc. f_equal. rewrite !radd_assoc. f_equal. apply radd_comm.
  Qed.

  Lemma psmul_succ n P : psmul R (Pos.succ n) P = P +g psmul R n P.
  Proof.
    induction n as [n IH|n IH|]; cbn [Pos.succ psmul].
    - rewrite IH. rewrite <- !radd_assoc. f_equal.
      rewrite !radd_assoc. f_equal. apply radd_comm.
    - reflexivity.
    - reflexivity.
  Qed.

  Lemma psmul_add n m P : psmul R (n + m) P = psmul R n P +g psmul R m P.
  Proof.
    revert m. induction n as [|n IH] using Pos.peano_ind; intros m.
    - rewrite Pos.add_1_l. apply psmul_succ.
    - rewrite Pos.add_succ_l, !psmul_succ, IH. apply radd_assoc.
  Qed.

  Lemma rsmul_add n m P : 0 <= n -> 0 <= m -> rsmul R (n + m) P = rsmul R n P +g rsmul R m P.
  Proof.
    intros Hn Hm. destruct n as [|n|n]; [| |lia].
    - cbn [rsmul]. rewrite radd_0_l. reflexivity.
    - destruct m as [|m|m]; [| |lia].
      + rewrite Z.add_0_r. cbn [rsmul]. rewrite radd_0_r. reflexivity.
      + cbn [rsmul]. change (Z.pos n + Z.pos m) with (Z.pos (n + m)). apply psmul_add.
  Qed.

  Lemma rsmul_0 P : rsmul R 0 P = rzero R. Proof. reflexivity. Qed.
  Lemma rsmul_1 P : rsmul R 1 P = P. Proof. reflexivity. Qed.

  Lemma rsmul_zero n : 0 <= n -> rsmul R n (rzero R) = rzero R.
  Proof.
    revert n. apply natlike_ind; [reflexivity|]. intros n Hn IH.
    rewrite <- Z.add_1_r, rsmul_add, IH, rsmul_1 by lia. apply radd_0_l.
  Qed.

  Lemma rsmul_mul n m P : 0 <= n -> 0 <= m -> rsmul R (n * m) P = rsmul R n (rsmul R m P).
  Proof.
    intros Hn Hm. revert n Hn. apply natlike_ind.
    - reflexivity.
    - intros n Hn IH. rewrite Z.mul_succ_l, rsmul_add by nia.
      rewrite <- Z.add_1_r, rsmul_add, rsmul_1, IH by lia. reflexivity.
  Qed.

  Lemma rsmul_add_distr n P Q : 0 <= n -> rsmul R n (P +g Q) = rsmul R n P +g rsmul R n Q.
  Proof.
    revert n. apply natlike_ind.
    - cbn. rewrite radd_0_l. reflexivity.
    - intros n Hn IH. rewrite <- Z.add_1_r, !rsmul_add, !rsmul_1, IH by lia.
      apply radd_shuffle.
  Qed.

  Lemma rsmul_mod n P : 0 <= n -> rsmul R (n mod L) P = rsmul R n P.
  Proof.
    intros Hn. pose proof L_pos as HL.
    rewrite (Z.div_mod n L) at 2 by lia.
    pose proof (Z.mod_pos_bound n L HL). assert (0 <= n / L) by (apply Z.div_pos; lia).
    rewrite rsmul_add by nia. rewrite (Z.mul_comm L), rsmul_mul by lia.
    rewrite (ok_order _ HR), rsmul_zero, radd_0_l by lia. reflexivity.
  Qed.

  (** scalar multiplication by field elements *)
  Definition gmul (a : Fq) (P : rG R) : rG R := rsmul R (fv a) P.

  Lemma gmul_of_Z n P : 0 <= n -> rsmul R n P = gmul (of_Z n) P.
  Proof. intros Hn. unfold gmul. rewrite fv_of_Z, rsmul_mod by assumption. reflexivity. Qed.

  Lemma gmul_add a b P : gmul (a + b)%fq P = gmul a P +g gmul b P.
  Proof.
    unfold gmul, fadd. pose proof (fv_range a). pose proof (fv_range b).
    rewrite fv_of_Z, rsmul_mod, rsmul_add by lia. reflexivity.
  Qed.

  Lemma gmul_mul a b P : gmul (a * b)%fq P = gmul a (gmul b P).
  Proof.
    unfold gmul, fmul. pose proof (fv_range a). pose proof (fv_range b).
    rewrite fv_of_Z, rsmul_mod, rsmul_mul by nia. reflexivity.
  Qed.

  Lemma gmul_add_distr a P Q : gmul a (P +g Q) = gmul a P +g gmul a Q.
  Proof. unfold gmul. pose proof (fv_range a). apply rsmul_add_distr. lia. Qed.

  Lemma gmul_0 P : gmul 0%fq P = rzero R.
  Proof. unfold gmul, fzero. rewrite fv_of_Z, Zmod_0_l. reflexivity. Qed.

  Lemma gmul_1 P : gmul 1%fq P = P.
  Proof.
    unfold gmul, fone. pose proof L_gt_65536. rewrite fv_of_Z, Zmod_1_l by lia. reflexivity.
  Qed.

  Lemma gmul_zero a : gmul a (rzero R) = rzero R.
  Proof. unfold gmul. pose proof (fv_range a). apply rsmul_zero. lia. Qed.

  Lemma gmul_eq_0 a P : gmul a P = rzero R -> a = 0%fq \/ P = rzero R.
  Proof.
    intros H. destruct (Fq_eq_dec a 0%fq) as [|Ha]; [left; assumption|right].
    rewrite <- (gmul_1 P). rewrite <- (finv_l a Ha). rewrite gmul_mul, H. apply gmul_zero.
  Qed.

  Lemma gmul_inj a b P : P <> rzero R -> gmul a P = gmul b P -> a = b.
  Proof.
    intros HP H. assert (E : gmul (a - b)%fq P = rzero R).
    { apply (radd_cancel_l (gmul b P)). rewrite <- gmul_add, radd_0_r, <- H. f_equal. ring. }
    apply gmul_eq_0 in E. destruct E as [E|E]; [|contradiction].
    apply (proj1 (fsub_eq_0 _ _)). assumption.
  Qed.

  Lemma gen_Fq P : exists k, P = gmul k (rbase R).
  Proof.
    destruct (ok_gen _ HR P) as (k & Hk & E). exists (of_Z k). rewrite <- gmul_of_Z; assumption.
  Qed.

  Lemma gmul_between P Q : P <> rzero R -> exists k, Q = gmul k P.
  Proof.
    intros HP. destruct (gen_Fq P) as (a & Ha). destruct (gen_Fq Q) as (b & Hb).
    assert (a <> 0%fq). { intros ->. apply HP. rewrite Ha. apply gmul_0. }
    exists (b * finv a)%fq. rewrite Ha, <- gmul_mul, Hb. f_equal. field. assumption.
  Qed.

  Definition gsum (l : list (rG R)) : rG R := fold_right (radd R) (rzero R) l.

  Lemma gsum_cons a l : gsum (a :: l) = a +g gsum l. Proof. reflexivity. Qed.

  Lemma gsum_gmul {A} (f : A -> Fq) P l :
    gsum (map (fun x => gmul (f x) P) l) = gmul (fsum (map f l)) P.
  Proof.
    induction l as [|a l IH]; cbn [map].
    - rewrite fsum_nil, gmul_0. reflexivity.
    - rewrite gsum_cons, fsum_cons, gmul_add, IH. reflexivity.
  Qed.

  Lemma gsum_map_add {A} (f g : A -> rG R) l :
    gsum (map (fun x => f x +g g x) l) = gsum (map f l) +g gsum (map g l).
  Proof.
    induction l as [|a l IH]; cbn [map].
    - cbn. rewrite radd_0_l. reflexivity.
    - rewrite !gsum_cons, IH. apply radd_shuffle.
  Qed.

  Lemma gsum_app l l' : gsum (l ++ l') = gsum l +g gsum l'.
  Proof.
    induction l as [|a l IH]; cbn [app].
    - cbn. rewrite radd_0_l. reflexivity.
    - rewrite !gsum_cons, IH. apply radd_assoc.
  Qed.

  (** encodings *)
  Lemma renc_inj a b : renc R a = renc R b -> a = b.
  Proof.
    intros H. apply (f_equal (rdec R)) in H. rewrite !(ok_dec_enc _ HR) in H. congruence.
  Qed.

  Lemma renc_zero_iff a : bytes_eqb (renc R a) (zeros 32) = true <-> a = rzero R.
  Proof.
    rewrite bytes_eqb_eq, <- (ok_enc_zero _ HR). split; [apply renc_inj|]. intros ->. reflexivity.
  Qed.

  Lemma rdec_zeros : rdec R (zeros 32) = Some (rzero R).
  Proof. rewrite <- (ok_enc_zero _ HR). apply (ok_dec_enc _ HR). Qed.

  Lemma rdec_length b a : rdec R b = Some a -> length b = 32%nat.
  Proof. intros H. apply (ok_enc_dec _ HR) in H. rewrite <- H. apply (ok_enc_len _ HR). Qed.

  Lemma is_valid_enc a : is_valid_point R (renc R a) = true.
  Proof. unfold is_valid_point. rewrite (ok_dec_enc _ HR). reflexivity. Qed.

  Lemma scalarmult_enc n P : 0 <= n < 2 ^ 255 -> of_Z n <> 0%fq -> P <> rzero R ->
    scalarmult R n (renc R P) = (0, Some (renc R (gmul (of_Z n) P))).
  Proof.
    intros Hn Hn0 HP. unfold scalarmult. rewrite (ok_dec_enc _ HR).
    rewrite Z.mod_small by assumption. rewrite gmul_of_Z by lia.
    destruct (bytes_eqb (renc R (gmul (of_Z n) P)) (zeros 32)) eqn:E; [|reflexivity].
    apply renc_zero_iff in E. apply gmul_eq_0 in E. tauto.
  Qed.

  Lemma scalarmult_enc_gen n P : 0 <= n < 2 ^ 255 ->
    scalarmult R n (renc R P) =
      ((if bytes_eqb (renc R (gmul (of_Z n) P)) (zeros 32) then -1 else 0),
       Some (renc R (gmul (of_Z n) P))).
  Proof.
    intros Hn. unfold scalarmult. rewrite (ok_dec_enc _ HR).
    rewrite Z.mod_small by assumption. rewrite gmul_of_Z by lia. reflexivity.
  Qed.

  Lemma scalarmult_base_eq n : 0 <= n < 2 ^ 255 ->
    scalarmult_base R n =
      ((if bytes_eqb (renc R (gmul (of_Z n) (rbase R))) (zeros 32) then -1 else 0),
       renc R (gmul (of_Z n) (rbase R))).
  Proof.
    intros Hn. unfold scalarmult_base. rewrite Z.mod_small by assumption.
    rewrite gmul_of_Z by lia. reflexivity.
  Qed.

  Lemma core_add_enc P Q : core_add R (renc R P) (renc R Q) = Some (renc R (P +g Q)).
  Proof. unfold core_add. rewrite !(ok_dec_enc _ HR). reflexivity. Qed.

  Lemma core_add_zeros Q : core_add R (zeros 32) (renc R Q) = Some (renc R Q).
  Proof. rewrite <- (ok_enc_zero _ HR), core_add_enc, radd_0_l. reflexivity. Qed.
End Group.

(** scalar operations as field operations *)
Lemma L_lt_2_255 : L < 2 ^ 255.
Proof. pose proof L_lt_2_253. assert (2 ^ 253 < 2 ^ 255) by (vm_compute; reflexivity). lia. Qed.
Lemma L_lt_2_256 : 2 * L < 2 ^ 256.
Proof. pose proof L_lt_2_253. assert (2 * 2 ^ 253 < 2 ^ 256) by (vm_compute; reflexivity). lia. Qed.

Lemma scalar_mul_range x y : 0 <= scalar_mul x y < L.
Proof. apply Z.mod_pos_bound. apply L_pos. Qed.
Lemma scalar_add_range x y : 0 <= scalar_add x y < L.
Proof. apply Z.mod_pos_bound. apply L_pos. Qed.
Lemma scalar_sub_range x y : 0 <= scalar_sub x y < L.
Proof. apply Z.mod_pos_bound. apply L_pos. Qed.
Lemma scalar_invert_range x : 0 <= snd (scalar_invert x) < L.
Proof.
  cbn [scalar_invert snd]. pose proof L_gt_65536. rewrite pow_mod_correct by lia.
  apply Z.mod_pos_bound. lia.
Qed.

Lemma of_Z_scalar_mul x y : of_Z (scalar_mul x y) = (of_Z x * of_Z y)%fq.
Proof. unfold scalar_mul. rewrite of_Z_mod, of_Z_mul. reflexivity. Qed.

Lemma of_Z_scalar_add x y : 0 <= x -> 0 <= y -> x + y < 2 ^ 256 ->
  of_Z (scalar_add x y) = (of_Z x + of_Z y)%fq.
Proof.
  intros Hx Hy H. unfold scalar_add. rewrite of_Z_mod, Z.mod_small by lia. apply of_Z_add.
Qed.

Lemma of_Z_scalar_add_L x y : 0 <= x < L -> 0 <= y < L ->
  of_Z (scalar_add x y) = (of_Z x + of_Z y)%fq.
Proof. intros Hx Hy. pose proof L_lt_2_256. apply of_Z_scalar_add; lia. Qed.

Lemma of_Z_scalar_sub_L x y : 0 <= x < L -> of_Z (scalar_sub x y) = (of_Z x - of_Z y)%fq.
Proof.
  intros Hx. unfold scalar_sub.
  assert (0 <= scalar_negate y < L) by (apply Z.mod_pos_bound; apply L_pos).
  rewrite of_Z_scalar_add_L by assumption. unfold scalar_negate. rewrite of_Z_mod, of_Z_opp. ring.
Qed.

Lemma of_Z_scalar_invert x : of_Z (snd (scalar_invert x)) = finv (of_Z x).
Proof. reflexivity. Qed.

(** * A concrete instance: the additive group Z/L with little endian encodings.
    It is the discrete-logarithm picture of ristretto255 and is used only to show that
    the laws above are satisfiable and to evaluate concrete witnesses. *)
Definition toyR : ristretto := {|
  rG := Fq;
  radd := fadd;
  rneg := fopp;
  rzero := fzero;
  rbase := fone;
  renc := fun a => le_bytes 32 (fv a);
  rdec := fun b => if (length b =? 32)%nat && (of_le b <? L) then Some (of_Z (of_le b)) else None;
  rmap := fun b => of_Z (of_le b)
|}.

Lemma toyR_psmul p (P : Fq) : @eq Fq (psmul toyR p P) (of_Z (Zpos p) * P)%fq.
Proof.
  induction p as [p IH|p IH|]; cbn [psmul].
  - rewrite IH. cbn [radd toyR].
    replace (of_Z (Z.pos p~1)) with (fone + (of_Z (Z.pos p) + of_Z (Z.pos p)))%fq.
    + ring.
    + unfold fone. rewrite <- !of_Z_add. f_equal. lia.
  - rewrite IH. cbn [radd toyR].
    replace (of_Z (Z.pos p~0)) with (of_Z (Z.pos p) + of_Z (Z.pos p))%fq.
    + ring.
    + rewrite <- !of_Z_add. f_equal. lia.
  - change (of_Z 1) with fone. ring.
Qed.

Lemma toyR_rsmul n (P : Fq) : 0 <= n -> @eq Fq (rsmul toyR n P) (of_Z n * P)%fq.
Proof.
  intros Hn. destruct n as [|p|p]; [| |lia].
  - cbn. change (of_Z 0) with fzero. ring.
  - apply toyR_psmul.
Qed.

Lemma pow_256_32 : 256 ^ Z.of_nat 32 = 2 ^ 256.
Proof. vm_compute. reflexivity. Qed.

Theorem toyR_ok : ristretto_ok toyR.
Proof.
  pose proof L_pos as HL. pose proof L_lt_2_256.
  constructor; cbn [radd rneg rzero rbase renc rdec toyR rG].
  - intros; ring.
  - intros; ring.
  - intros; ring.
  - intros; ring.
  - intros a. rewrite toyR_rsmul by lia.
    assert (E : of_Z L = 0%fq) by (apply of_Z_eq_0; apply Z.divide_refl). rewrite E. ring.
  - intros a. exists (fv a). pose proof (fv_range a). split; [lia|].
    rewrite toyR_rsmul by lia. rewrite of_Z_fv. ring.
  - exact fone_neq_fzero.
  - intros a. apply le_bytes_length.
  - intros a. rewrite le_bytes_length, of_le_le_bytes, pow_256_32.
    pose proof (fv_range a). rewrite Z.mod_small by lia.
    destruct (Z.ltb_spec (fv a) L); [|lia]. cbn [Nat.eqb andb]. rewrite of_Z_fv. reflexivity.
  - intros b a. destruct (Nat.eqb_spec (length b) 32) as [Hb|]; [|discriminate].
    destruct (Z.ltb_spec (of_le b) L) as [Hl|]; [|discriminate]. cbn [andb].
    intros E. inversion E; subst. pose proof (of_le_range b). rewrite fv_of_Z_small by lia.
    rewrite <- Hb. apply le_bytes_of_le.
  - unfold fzero. rewrite fv_of_Z, Zmod_0_l. vm_compute. reflexivity.
Qed.

Definition toyH : hashes := {|
  sha512 := fun m => le_bytes 64 (of_le (firstn 64 m) + Z.of_nat (length m) + 1);
  blake2b := fun n m => le_bytes n (of_le (firstn n m) + Z.of_nat (length m) + 1)
|}.

Theorem toyH_ok : hashes_ok toyH.
Proof. constructor; intros; apply le_bytes_length. Qed.

(** toy signatures: the secret key's first 32 bytes are the public key and the signature is
    a keyed checksum; correctness is all that [sigs_ok] asks for *)
Definition toyS : sigs := {|
  sig_pk := fun sk => le_bytes 32 (of_le (firstn 32 sk));
  sig_sign := fun sk m => le_bytes 64 (of_le (le_bytes 32 (of_le (firstn 32 sk))) + of_le (firstn 64 m));
  sig_verify := fun pk m s => bytes_eqb s (le_bytes 64 (of_le pk + of_le (firstn 64 m)))
|}.

Theorem toyS_ok : sigs_ok toyS.
Proof.
  constructor; intros; cbn [toyS sig_pk sig_sign sig_verify].
  - apply le_bytes_length.
  - apply le_bytes_length.
  - apply bytes_eqb_refl.
Qed.
