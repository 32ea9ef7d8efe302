(** Concrete cases for C83. *)
From Coq Require Import ZArith Lia List Bool.
From Coq.Strings Require Import Byte.
From Verif Require Import PrimeL Fq Bytes Res Sodium OprfModel OprfSpec OprfProofs AttackModel Attack UseExamples.
Import ListNotations.
Open Scope list_scope.
Open Scope Z_scope.

Lemma C83_example : exists R H x r k b z N rwd, ristretto_ok R /\ hashes_ok H /\
  (length x <= 255)%nat /\ HashToGroup R H x <> rzero R /\ random_scalar r /\ scalar_buf k /\
  (k mod 2 ^ 255) mod L <> 0 /\ (k mod 2 ^ 255) mod L <> 1 /\
  oprf_Blind R H true true x (Z.of_nat (length x)) r = Ok (0, Some r, Some b) /\ oprf_Evaluate R k b = (0, Some z) /\
  oprf_Unblind R true r z = (0, Some N) /\ oprf_Finalize H true x (Z.of_nat (length x)) N = Ok (0, Some rwd) /\
  attack_guess R H true true rwd x (Z.of_nat (length x)) = Ok (-1).
Proof.
  destruct input_ok as (I1 & I2 & I3).
  assert (K : scalar_buf 5) by (unfold scalar_buf; lia).
  assert (K0 : (5 mod 2 ^ 255) mod L <> 0) by (vm_compute; discriminate).
  assert (K1 : (5 mod 2 ^ 255) mod L <> 1) by (vm_compute; discriminate).
  destruct (oprf_roundtrip toyR toyH toyR_ok toyH_ok ex_pwd 5 77 I1 I2 K K0 I3) as (b & z & N & E1 & E2 & E3 & E4 & E5).
  exists toyR, toyH, ex_pwd, 77, 5, b, z, N. eexists.
  split; [exact toyR_ok|]. split; [exact toyH_ok|]. split; [exact I1|]. split; [exact I2|]. split; [exact I3|]. split; [exact K|]. split; [exact K0|]. split; [exact K1|].
  split; [exact E1|]. split; [exact E2|]. split; [exact E3|]. split; [exact E5|].
  rewrite guess_eq by (first [exact toyR_ok|exact toyH_ok|exact I1]). rewrite E4. vm_compute. reflexivity.
Qed.
