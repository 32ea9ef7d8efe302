(** Property theorems C21-C23: multi-party multiplication (src/mpmult.c).
    Vocabulary: ToprfSpec.v (poly, zsum, u8, sharing_params, shares_of). *)
From Coq Require Import ZArith Lia List Bool.
From Verif Require Import PrimeL Bytes Res Sodium ToprfModel ToprfSpec DkgModel MpmultModel.
From Verif Require Import MpmultProofs MpmultExamples.
Import ListNotations.
Open Scope list_scope.
Open Scope Z_scope.

(** C21.  X is both a right and a left inverse of the matrix (indexes_i ^ j), mod L;
    [out] is the output buffer's previous content. *)
Theorem C21_inverted_vandermonde : forall indexes out,
  indexes <> [] -> NoDup indexes -> Forall u8 indexes ->
  let n := length indexes in let X := invertedVDMmatrix indexes out in
  forall i j, (i < n)%nat -> (j < n)%nat ->
  0 <= X i j < L /\
  zsum (map (fun k => nth i indexes 0 ^ Z.of_nat k * X k j) (seq 0 n)) mod L = (if Nat.eqb i j then 1 else 0) /\
  zsum (map (fun k => X i k * nth k indexes 0 ^ Z.of_nat j) (seq 0 n)) mod L = (if Nat.eqb i j then 1 else 0).
Proof. exact inverted_spec. Qed.
Print Assumptions C21_inverted_vandermonde.

Example C21_nonvacuous : exists indexes, indexes <> [] /\ NoDup indexes /\ Forall u8 indexes /\ indexes = [7; 0; 255; 3].
Proof. exact C21_example. Qed.

(** C22.  secA and secB are shared with threshold tA; the dealers (at least 2*tA-1, distinct)
    reshare their local products among n recipients with threshold t; recipient j has received
    the j-th share of every dealer.  Its result is the value at j of one polynomial with t
    coefficients whose constant term is secA*secB. *)
Theorem C22_multiplication_polynomial :
  forall secA secB nA tA n t rA rB bufA bufB ashares bshares dealers dealt junk,
  sharing_params secA nA tA rA bufA -> sharing_params secB nA tA rB bufB ->
  create_shares secA nA tA rA bufA = Ok ashares -> create_shares secB nA tA rB bufB = Ok bshares ->
  NoDup dealers -> 2 * tA - 1 <= Z.of_nat (length dealers) -> 1 <= n <= 254 ->
  Forall2 (fun d shs => exists sa sb r buf, In sa ashares /\ In sb bshares /\ s_index sa = d /\ s_index sb = d /\
     Z.of_nat (length r) = t - 1 /\ Z.of_nat (length buf) = n /\
     mpc_mul_start sa sb n t r buf = Ok (0, shs)) dealers dealt ->
  exists cs, Z.of_nat (length cs) = t /\ poly cs 0 mod L = (secA * secB) mod L /\
    forall j recv, 1 <= j <= n ->
      Forall2 (fun shs s => nth_error shs (Z.to_nat (j - 1)) = Some s) dealt recv ->
      mpc_mul_finish dealers j recv junk = mkShare j (poly cs j mod L).
Proof. exact mult_poly. Qed.
Print Assumptions C22_multiplication_polynomial.

(** C22, any t recipients reconstruct the product. *)
Theorem C22_product_reconstructs :
  forall secA secB nA tA n t rA rB bufA bufB ashares bshares dealers dealt junk,
  sharing_params secA nA tA rA bufA -> sharing_params secB nA tA rB bufB ->
  create_shares secA nA tA rA bufA = Ok ashares -> create_shares secB nA tA rB bufB = Ok bshares ->
  NoDup dealers -> 2 * tA - 1 <= Z.of_nat (length dealers) -> 1 <= n <= 254 ->
  Forall2 (fun d shs => exists sa sb r buf, In sa ashares /\ In sb bshares /\ s_index sa = d /\ s_index sb = d /\
     Z.of_nat (length r) = t - 1 /\ Z.of_nat (length buf) = n /\
     mpc_mul_start sa sb n t r buf = Ok (0, shs)) dealers dealt ->
  forall parties,
  Forall (fun p => 1 <= fst p <= n /\
     Forall2 (fun shs s => nth_error shs (Z.to_nat (fst p - 1)) = Some s) dealt (snd p)) parties ->
  NoDup (map fst parties) -> t <= Z.of_nat (length parties) ->
  dkg_reconstruct (map (fun p => mpc_mul_finish dealers (fst p) (snd p) junk) parties) = (secA * secB) mod L.
Proof. exact mult_reconstruct. Qed.
Print Assumptions C22_product_reconstructs.

Example C22_nonvacuous : exists secA secB nA tA n t rA rB bufA bufB ashares bshares dealers dealt parties,
  sharing_params secA nA tA rA bufA /\ sharing_params secB nA tA rB bufB /\
  create_shares secA nA tA rA bufA = Ok ashares /\ create_shares secB nA tA rB bufB = Ok bshares /\
  NoDup dealers /\ 2 * tA - 1 <= Z.of_nat (length dealers) /\ 1 <= n <= 254 /\
  Forall2 (fun d shs => exists sa sb r buf, In sa ashares /\ In sb bshares /\ s_index sa = d /\ s_index sb = d /\
     Z.of_nat (length r) = t - 1 /\ Z.of_nat (length buf) = n /\
     mpc_mul_start sa sb n t r buf = Ok (0, shs)) dealers dealt /\
  Forall (fun p => 1 <= fst p <= n /\
     Forall2 (fun shs s => nth_error shs (Z.to_nat (fst p - 1)) = Some s) dealt (snd p)) parties /\
  NoDup (map fst parties) /\ t <= Z.of_nat (length parties) /\ tA = 2 /\ (length parties = 2)%nat.
Proof. exact C22_example. Qed.

(** C23.  Refused exactly when the parameters are unusable, with code 1 and the output array
    untouched; all usable parameters succeed (255 recipients: see C15). *)
Theorem C23_mul_start_refuses : forall a b peers t r buf,
  let bad := s_index a <> s_index b \/ peers < t \/ t = 0 in
  (bad -> mpc_mul_start a b peers t r buf = Ok (1, buf)) /\
  (~ bad -> 0 <= t -> peers <= 254 -> Z.of_nat (length r) = t - 1 -> Z.of_nat (length buf) = peers ->
   mpc_mul_start a b peers t r buf = Ok (0, shares_of (scalar_mul (s_value a) (s_value b) :: r) peers)) /\
  (forall ret buf', mpc_mul_start a b peers t r buf = Ok (ret, buf') -> ret <> 0 -> bad /\ ret = 1 /\ buf' = buf).
Proof. exact mul_start_rejects. Qed.
Print Assumptions C23_mul_start_refuses.

Example C23_nonvacuous : exists a b peers t (r : list Z) (buf : list share),
  ~ (s_index a <> s_index b \/ peers < t \/ t = 0) /\ 0 <= t /\ peers <= 254 /\ Z.of_nat (length r) = t - 1 /\
  Z.of_nat (length buf) = peers /\ t = 2.
Proof. exact C23_example. Qed.
