(** Property theorems C07-C16: threshold sharing and threshold evaluation (src/toprf.c,
    dkg_reconstruct of src/dkg.c).  Vocabulary: ToprfSpec.v. *)
From Coq Require Import ZArith Lia List Bool Permutation.
From Verif Require Import PrimeL Bytes Res Sodium OprfModel OprfSpec ToprfModel ToprfSpec DkgModel.
From Verif Require Import ToprfProofs DkgProofs ToprfExamples.
Import ListNotations.
Open Scope list_scope.
Open Scope Z_scope.

(** C07.  [secret :: a] are the t coefficients of the polynomial. *)
Theorem C07_create_shares_polynomial : forall secret n t a buf, sharing_params secret n t a buf ->
  exists shares, create_shares secret n t a buf = Ok shares /\ Z.of_nat (length shares) = n /\
    (forall i, 1 <= i <= n ->
       nth_error shares (Z.to_nat (i - 1)) = Some (mkShare i (poly (secret :: a) i mod L))) /\
    Z.of_nat (length (secret :: a)) = t /\ poly (secret :: a) 0 = secret.
Proof. exact create_shares_full. Qed.
Print Assumptions C07_create_shares_polynomial.

Example C07_nonvacuous : exists secret n t a buf, sharing_params secret n t a buf /\ n = 5 /\ t = 3.
Proof. exact C07_example. Qed.

(** C08. *)
Theorem C08_any_quorum_reconstructs : forall secret n t a buf shares qs,
  sharing_params secret n t a buf -> create_shares secret n t a buf = Ok shares ->
  quorum t shares qs -> dkg_reconstruct qs = secret.
Proof. exact reconstruct_quorum. Qed.
Print Assumptions C08_any_quorum_reconstructs.

Example C08_nonvacuous : exists secret n t a buf shares qs, sharing_params secret n t a buf /\
  create_shares secret n t a buf = Ok shares /\ quorum t shares qs /\ qs <> shares /\ t = 3.
Proof. exact C08_example. Qed.

(** C09.  [known] are any t-1 shares, [secret] any candidate. *)
Theorem C09_fewer_shares_reveal_nothing : forall secret n t buf known,
  0 <= secret < L -> 1 <= n <= 254 -> 1 <= t <= 255 -> Z.of_nat (length buf) = n ->
  NoDup (map s_index known) -> Forall (fun s => 1 <= s_index s <= n /\ 0 <= s_value s < L) known ->
  Z.of_nat (length known) = t - 1 ->
  exists! a, Z.of_nat (length a) = t - 1 /\ Forall (fun x => 0 <= x < L) a /\
    exists shares, create_shares secret n t a buf = Ok shares /\ incl known shares.
Proof. exact secrecy. Qed.
Print Assumptions C09_fewer_shares_reveal_nothing.

(** C09, caveat: the coefficients the code draws are never 0, so the matching coefficients of
    C09 may be ones the code cannot draw; with threshold 2 a share is never equal to the
    secret.  (Each excluded value has probability about 2^-252.) *)
Theorem C09_zero_coefficient_caveat : forall secret n a1 buf shares s,
  0 <= secret < L -> 1 <= n <= 254 -> random_scalar a1 -> Z.of_nat (length buf) = n ->
  create_shares secret n 2 [a1] buf = Ok shares -> In s shares -> s_value s <> secret.
Proof. exact nonzero_coefficient_leak. Qed.
Print Assumptions C09_zero_coefficient_caveat.

Example C09_nonvacuous : exists secret n t (buf known : list share),
  0 <= secret < L /\ 1 <= n <= 254 /\ 1 <= t <= 255 /\ Z.of_nat (length buf) = n /\
  NoDup (map s_index known) /\ Forall (fun s => 1 <= s_index s <= n /\ 0 <= s_value s < L) known /\
  Z.of_nat (length known) = t - 1 /\ t = 3.
Proof. exact C09_example. Qed.

(** C10.  The responses are the successful outputs of oprf_Evaluate on the quorum's shares,
    in any order; [junk] is the uninitialised stack array. *)
Theorem C10_thresholdmult_any_quorum : forall R, ristretto_ok R ->
  forall secret n t a buf shares qs parts alpha P junk,
  sharing_params secret n t a buf -> create_shares secret n t a buf = Ok shares ->
  quorum t shares qs -> rdec R alpha = Some P ->
  Forall2 (fun s p => p_index p = s_index s /\ oprf_Evaluate R (s_value s) alpha = (0, Some (p_value p))) qs parts ->
  length junk = length parts ->
  thresholdmult R parts junk = Ok (0, renc R (rsmul R secret P)).
Proof. exact thresholdmult_quorum. Qed.
Print Assumptions C10_thresholdmult_any_quorum.

(** C10, the responses exist: oprf_Evaluate succeeds on every non-zero share. *)
Theorem C10_evaluate_succeeds : forall R, ristretto_ok R ->
  forall k alpha P, rdec R alpha = Some P -> P <> rzero R -> 0 < k < L ->
  exists v, oprf_Evaluate R k alpha = (0, Some v).
Proof. exact evaluate_succeeds. Qed.
Print Assumptions C10_evaluate_succeeds.

Example C10_nonvacuous : exists secret n t a buf shares qs parts alpha P (junk : list Z),
  sharing_params secret n t a buf /\ create_shares secret n t a buf = Ok shares /\
  quorum t shares qs /\ rdec toyR alpha = Some P /\
  Forall2 (fun s p => p_index p = s_index s /\ oprf_Evaluate toyR (s_value s) alpha = (0, Some (p_value p))) qs parts /\
  length junk = length parts /\ qs <> shares /\ ristretto_ok toyR.
Proof. exact C10_example. Qed.

(** C11. *)
Theorem C11_thresholdmult_order : forall R, ristretto_ok R -> forall parts parts' junk junk',
  Permutation parts parts' -> Forall (fun p => u8 (p_index p)) parts ->
  length junk = length parts -> length junk' = length parts' ->
  exists ret r r', thresholdmult R parts junk = Ok (ret, r) /\ thresholdmult R parts' junk' = Ok (ret, r') /\
    (ret = 0 -> r = r').
Proof. exact thresholdmult_perm. Qed.
Print Assumptions C11_thresholdmult_order.

Theorem C11_thresholdcombine_order : forall R, ristretto_ok R -> forall parts parts' r0,
  Permutation parts parts' ->
  thresholdcombine R parts r0 = thresholdcombine R parts' r0 /\ is_ok (thresholdcombine R parts r0).
Proof. exact combine_perm_ok. Qed.
Print Assumptions C11_thresholdcombine_order.

Example C11_nonvacuous : exists parts parts' : list part,
  Permutation parts parts' /\ parts <> parts' /\ Forall (fun p => u8 (p_index p)) parts /\
  exists p, In p parts /\ rdec toyR (p_value p) = None.
Proof. exact C11_example. Qed.

(** C12.  Each member may list the quorum's indices in its own order. *)
Theorem C12_evaluate_then_combine : forall R, ristretto_ok R ->
  forall secret n t a buf shares qs parts alpha P r0,
  sharing_params secret n t a buf -> create_shares secret n t a buf = Ok shares ->
  quorum t shares qs -> rdec R alpha = Some P ->
  Forall2 (fun s p => exists idx, Permutation idx (map s_index qs) /\
             toprf_Evaluate R s alpha (s_index s) idx = (0, Some (p_value p))) qs parts ->
  thresholdcombine R parts r0 = Ok (0, renc R (rsmul R secret P)).
Proof. exact combine_quorum. Qed.
Print Assumptions C12_evaluate_then_combine.

(** C12, the parts exist. *)
Theorem C12_evaluate_succeeds : forall R, ristretto_ok R ->
  forall s alpha P self idx, rdec R alpha = Some P -> P <> rzero R ->
  0 < s_value s < L -> index_ok self -> Forall index_ok idx ->
  exists v, toprf_Evaluate R s alpha self idx = (0, Some v).
Proof. exact toprf_evaluate_succeeds. Qed.
Print Assumptions C12_evaluate_succeeds.

Example C12_nonvacuous : exists secret n t a buf shares qs parts alpha P,
  sharing_params secret n t a buf /\ create_shares secret n t a buf = Ok shares /\
  quorum t shares qs /\ rdec toyR alpha = Some P /\
  Forall2 (fun s p => exists idx, Permutation idx (map s_index qs) /\
             toprf_Evaluate toyR s alpha (s_index s) idx = (0, Some (p_value p))) qs parts /\
  qs <> shares /\ ristretto_ok toyR.
Proof. exact C12_example. Qed.

(** C13.  Full statement, for both combining functions: if some response does not decode
    (or, for thresholdmult, is the identity) then the return code is not 0.
    True of toprf_thresholdmult: *)
Theorem C13_thresholdmult_rejects_invalid : forall R, ristretto_ok R -> forall parts junk,
  length junk = length parts ->
  (exists p, In p parts /\ (rdec R (p_value p) = None \/ rdec R (p_value p) = Some (rzero R))) ->
  exists r, thresholdmult R parts junk = Ok (1, r).
Proof. exact thresholdmult_invalid_fails. Qed.
Print Assumptions C13_thresholdmult_rejects_invalid.

(** False of toprf_thresholdcombine: *)
Theorem C13_thresholdcombine_rejects_invalid_refuted : exists R parts r0 r, ristretto_ok R /\
  (exists p, In p parts /\ rdec R (p_value p) = None) /\
  thresholdcombine R parts r0 = Ok (0, r).
Proof. exact C13_witness. Qed.
Print Assumptions C13_thresholdcombine_rejects_invalid_refuted.

(** what toprf_thresholdcombine does instead: the invalid responses are left out *)
Theorem C13_thresholdcombine_drops_invalid : forall R, ristretto_ok R ->
  forall parts r0, (length parts <= 255)%nat ->
  thresholdcombine R parts r0 =
  thresholdcombine R (filter (fun p => is_valid_point R (p_value p)) parts) r0.
Proof. exact thresholdcombine_drops. Qed.
Print Assumptions C13_thresholdcombine_drops_invalid.

Example C13_nonvacuous : exists parts (junk : list Z), length junk = length parts /\
  (exists p, In p parts /\ rdec toyR (p_value p) = None) /\ (exists p, In p parts /\ rdec toyR (p_value p) <> None) /\
  ristretto_ok toyR.
Proof. exact C13_example. Qed.

(** C14.  [zshares] is a sharing of 0, [p_value p <> zeros 32] excludes a part that happens to
    be the identity (which thresholdmult refuses, C13). *)
Theorem C14_3hashtdh_equals_threshold_oprf : forall R H, ristretto_ok R -> hashes_ok H ->
  forall secret n t a z buf buf' kshares zshares qs parts alpha P ssid junk,
  sharing_params secret n t a buf -> create_shares secret n t a buf = Ok kshares ->
  sharing_params 0 n t z buf' -> create_shares 0 n t z buf' = Ok zshares ->
  quorum t kshares qs -> rdec R alpha = Some P ->
  Forall2 (fun ks p => exists zs, In zs zshares /\ s_index zs = s_index ks /\
             toprf_3hashtdh R H true ks zs alpha ssid = Ok (0, (p_index p, Some (p_value p))) /\
             p_value p <> zeros 32) qs parts ->
  length junk = length parts ->
  thresholdmult R parts junk = Ok (0, renc R (rsmul R secret P)).
Proof. exact tdh_quorum. Qed.
Print Assumptions C14_3hashtdh_equals_threshold_oprf.

Example C14_nonvacuous : exists secret n t a z buf buf' kshares zshares qs parts alpha P ssid (junk : list Z),
  sharing_params secret n t a buf /\ create_shares secret n t a buf = Ok kshares /\
  sharing_params 0 n t z buf' /\ create_shares 0 n t z buf' = Ok zshares /\
  quorum t kshares qs /\ rdec toyR alpha = Some P /\
  Forall2 (fun ks p => exists zs, In zs zshares /\ s_index zs = s_index ks /\
             toprf_3hashtdh toyR toyH true ks zs alpha ssid = Ok (0, (p_index p, Some (p_value p))) /\
             p_value p <> zeros 32) qs parts /\
  length junk = length parts /\ ristretto_ok toyR /\ hashes_ok toyH.
Proof. exact C14_example. Qed.

(** C15.  Full statement: for all n, t in 1..255 (and t = 0) both functions return within the
    caller's arrays.  False for n = 255 and for t = 0, whatever the other arguments: *)
Theorem C15_share_generation_safe_refuted : forall secret t a buf R cbuf,
  create_shares secret 255 t a buf = UB /\ dkg_start R true 255 t a cbuf buf = UB /\
  (forall n, 1 <= n <= 254 -> create_shares secret n 0 a buf = UB /\ dkg_start R true n 0 [] cbuf buf = UB).
Proof. exact C15_witness. Qed.
Print Assumptions C15_share_generation_safe_refuted.

(** True everywhere else, for all secrets and coefficients, canonical or not: *)
Theorem C15_share_generation_safe_partial : forall R secret n t a a' buf cbuf,
  0 <= n <= 254 -> 1 <= t <= 255 -> Z.of_nat (length a) = t - 1 -> Z.of_nat (length a') = t ->
  Z.of_nat (length buf) = n -> Z.of_nat (length cbuf) = t ->
  (exists shares, create_shares secret n t a buf = Ok shares /\ length shares = length buf) /\
  (exists cs ss, dkg_start R true n t a' cbuf buf = Ok (0, cs, ss) /\ length cs = length cbuf /\ length ss = length buf).
Proof. exact C15_safe. Qed.
Print Assumptions C15_share_generation_safe_partial.

Example C15_nonvacuous : exists secret n t a (a' : list Z) (buf : list share) (cbuf : list bytes),
  0 <= n <= 254 /\ 1 <= t <= 255 /\ Z.of_nat (length a) = t - 1 /\ Z.of_nat (length a') = t /\
  Z.of_nat (length buf) = n /\ Z.of_nat (length cbuf) = t /\ secret = L + 1 /\ n = 254 /\ a = [L; 2].
Proof. exact C15_example. Qed.

(** C16.  The integer statement of "prod j/(j-index) mod L", and uniqueness. *)
Theorem C16_coeff_lagrange : forall index peers, u8 index -> Forall u8 peers ->
  0 <= coeff index peers < L /\
  (coeff index peers * zprod (map (fun p => p - index) (filter (fun p => negb (p =? index)) peers))) mod L
    = zprod (filter (fun p => negb (p =? index)) peers) mod L /\
  (forall c, 0 <= c < L ->
     (c * zprod (map (fun p => p - index) (filter (fun p => negb (p =? index)) peers))) mod L
       = zprod (filter (fun p => negb (p =? index)) peers) mod L -> c = coeff index peers).
Proof. exact coeff_spec_Z. Qed.
Print Assumptions C16_coeff_lagrange.

Theorem C16_coeff_nonzero : forall index peers, index_ok index -> Forall index_ok peers -> coeff index peers <> 0.
Proof. exact C16_nonzero. Qed.
Print Assumptions C16_coeff_nonzero.

Example C16_nonvacuous : exists index peers, u8 index /\ Forall u8 peers /\ index_ok index /\ Forall index_ok peers /\
  coeff index peers = 20.
Proof. exact C16_example. Qed.
