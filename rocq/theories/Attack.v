(** C83: a server that answers with a known key. *)
From Coq Require Import ZArith Lia List Bool.
From Coq.Strings Require Import Byte.
From Verif Require Import PrimeL Fq Bytes Res Sodium OprfModel OprfSpec OprfProofs AttackModel.
Import ListNotations.
Open Scope list_scope.
Open Scope Z_scope.

Section ATTACK.
Variables (R : ristretto) (H : hashes).
Hypothesis HR : ristretto_ok R.
Hypothesis HH : hashes_ok H.

Lemma guess_eq rwd pwd : (length pwd <= 255)%nat ->
  attack_guess R H true true rwd pwd (Z.of_nat (length pwd)) = Ok (if bytes_eqb rwd (sha512 H (rfc_hashInput pwd (renc R (HashToGroup R H pwd)))) then 0 else -1).
Proof.
  intros Hx. unfold attack_guess. rewrite Z.mod_small by (change (2 ^ 8) with 256; lia). rewrite Nat2Z.id, sub_all. cbn [of_opt bind].
  rewrite (htg_eq R H HH). cbn [bind]. rewrite Z.eqb_refl. cbn [negb]. rewrite finalize_eq by (try (change (2 ^ 16) with 65536; lia); apply (ok_enc_len _ HR)). cbn [bind]. rewrite Z.eqb_refl. cbn [negb of_opt bind].
  destruct (bytes_eqb _ _); reflexivity.
Qed.

Lemma guess_exact rwd pwd : (length pwd <= 255)%nat ->
  let out := attack_guess R H true true rwd pwd (Z.of_nat (length pwd)) in
  (out = Ok 0 <-> rwd = sha512 H (rfc_hashInput pwd (renc R (HashToGroup R H pwd)))) /\ (out = Ok 0 \/ out = Ok (-1)).
Proof.
  intros Hx out. unfold out. rewrite guess_eq by exact Hx. destruct (bytes_eqb _ _) eqn:E.
  - apply bytes_eqb_eq in E. split; [tauto|left; reflexivity].
  - split; [|right; reflexivity]. split; [discriminate|]. intros Q. apply bytes_eqb_eq in Q. congruence.
Qed.

Lemma test_eq x r : (length x <= 255)%nat -> HashToGroup R H x <> rzero R -> random_scalar r ->
  attack_test R H x (Z.of_nat (length x)) r = Ok (Some (sha512 H (rfc_hashInput x (renc R (HashToGroup R H x))))).
Proof.
  intros Hx Hh Hr. assert (S1 : scalar_buf attack_k) by (unfold scalar_buf, attack_k; lia).
  assert (K1 : attack_k mod 2 ^ 255 = 1) by reflexivity. assert (L1 : 1 mod L = 1) by (vm_compute; reflexivity).
  destruct (oprf_roundtrip R H HR HH x attack_k r Hx Hh S1) as (b & z & N & E1 & E2 & E3 & E4 & E5); [rewrite K1, L1; discriminate|exact Hr|].
  unfold attack_test. rewrite E1. cbn [bind]. rewrite Z.eqb_refl. cbn [negb]. unfold attack_tamper. unfold oprf_Evaluate in E2. rewrite E2. rewrite Z.eqb_refl. cbn [negb snd]. rewrite E3, Z.eqb_refl. cbn [negb].
  rewrite E5. cbn [bind]. rewrite Z.eqb_refl. cbn [negb]. rewrite E4, K1. reflexivity.
Qed.

(** the attack *)
Lemma tampered x r : (length x <= 255)%nat -> HashToGroup R H x <> rzero R -> random_scalar r ->
  exists rwd, attack_test R H x (Z.of_nat (length x)) r = Ok (Some rwd) /\
    attack_guess R H true true rwd x (Z.of_nat (length x)) = Ok 0 /\
    forall pwd, (length pwd <= 255)%nat -> attack_guess R H true true rwd pwd (Z.of_nat (length pwd)) = Ok 0 -> 
      pwd = x \/
      (let m1 := rfc_hashInput x (renc R (HashToGroup R H x)) in let m2 := rfc_hashInput pwd (renc R (HashToGroup R H pwd)) in m1 <> m2 /\ sha512 H m1 = sha512 H m2).
Proof.
  intros Hx Hh Hr. eexists. split; [apply test_eq; assumption|]. split; [apply guess_exact; [exact Hx|reflexivity]|].
  intros pwd Hp G. apply guess_exact in G; [|exact Hp].
  destruct (finalize_injective H x (renc R (HashToGroup R H x)) pwd (renc R (HashToGroup R H pwd))) as [(Q & _)|Q];
    try (change (2 ^ 16) with 65536; lia); try apply (ok_enc_len _ HR).
  - rewrite !finalize_eq by (try (change (2 ^ 16) with 65536; lia); apply (ok_enc_len _ HR)). rewrite G. reflexivity.
  - left. congruence.
  - right. exact Q.
Qed.

(** with any other key it does not work *)
Lemma untampered x k pwd : (length x <= 255)%nat -> HashToGroup R H x <> rzero R -> scalar_buf k -> (k mod 2 ^ 255) mod L <> 1 -> (length pwd <= 255)%nat ->
  let N := renc R (rsmul R (k mod 2 ^ 255) (HashToGroup R H x)) in
  attack_guess R H true true (sha512 H (rfc_hashInput x N)) pwd (Z.of_nat (length pwd)) = Ok 0 ->
  let m1 := rfc_hashInput x N in let m2 := rfc_hashInput pwd (renc R (HashToGroup R H pwd)) in m1 <> m2 /\ sha512 H m1 = sha512 H m2.
Proof.
  intros Hx Hh Hk K1 Hp N G. apply guess_exact in G; [|exact Hp]. assert (LN : length N = 32%nat) by apply (ok_enc_len _ HR).
  destruct (finalize_injective H x N pwd (renc R (HashToGroup R H pwd))) as [(Q1 & Q2)|Q];
    try (change (2 ^ 16) with 65536; lia); try apply (ok_enc_len _ HR).
  - rewrite !finalize_eq by (try (change (2 ^ 16) with 65536; lia); try exact LN; apply (ok_enc_len _ HR)). rewrite G. reflexivity.
  - exfalso. subst pwd. unfold N in Q2. apply (renc_inj R HR) in Q2. set (h := HashToGroup R H x) in *. assert (Hm : 0 <= k mod 2 ^ 255) by (apply Z.mod_pos_bound; vm_compute; reflexivity).
    rewrite (gmul_of_Z R HR) in Q2 by exact Hm.
    rewrite <- (gmul_1 R h) in Q2 at 2. apply (gmul_inj R HR) in Q2; [|exact Hh]. apply K1. change 1%fq with (of_Z 1) in Q2.
    rewrite <- of_Z_mod in Q2. apply of_Z_inj in Q2; [exact Q2|apply Z.mod_pos_bound; reflexivity|vm_compute; split; [discriminate|reflexivity]].
  - exact Q.
Qed.
Lemma other_key x r k b z N rwd pwd : (length x <= 255)%nat -> HashToGroup R H x <> rzero R -> random_scalar r -> scalar_buf k ->
  (k mod 2 ^ 255) mod L <> 0 -> (k mod 2 ^ 255) mod L <> 1 -> (length pwd <= 255)%nat ->
  oprf_Blind R H true true x (Z.of_nat (length x)) r = Ok (0, Some r, Some b) -> oprf_Evaluate R k b = (0, Some z) ->
  oprf_Unblind R true r z = (0, Some N) -> oprf_Finalize H true x (Z.of_nat (length x)) N = Ok (0, Some rwd) ->
  attack_guess R H true true rwd pwd (Z.of_nat (length pwd)) = Ok 0 ->
  let m1 := rfc_hashInput x N in let m2 := rfc_hashInput pwd (renc R (HashToGroup R H pwd)) in m1 <> m2 /\ sha512 H m1 = sha512 H m2.
Proof.
  intros Hx Hh Hr Hk K0 K1 Hp B1 B2 B3 B4 G.
  destruct (oprf_roundtrip R H HR HH x k r Hx Hh Hk K0 Hr) as (b' & z' & N' & E1 & E2 & E3 & E4 & E5).
  assert (b' = b) by congruence. subst b'. assert (z' = z) by congruence. subst z'. assert (EN : N = renc R (rsmul R (k mod 2 ^ 255) (HashToGroup R H x))) by congruence.
  assert (Q : rwd = sha512 H (rfc_hashInput x (renc R (rsmul R (k mod 2 ^ 255) (HashToGroup R H x))))) by congruence.
  rewrite Q in G. rewrite EN. exact (untampered x k pwd Hx Hh Hk K1 Hp G).
Qed.
End ATTACK.
