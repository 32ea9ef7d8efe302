(** Property theorems C17-C20: verifiable sharing and key generation (src/dkg.c).
    Vocabulary: DkgSpec.v, ToprfSpec.v. *)
From Coq Require Import ZArith Lia List Bool Permutation Sorting.Sorted.
From Verif Require Import PrimeL Bytes Res Sodium OprfModel ToprfModel ToprfSpec DkgModel DkgSpec.
From Verif Require Import DkgProofs DkgExamples.
Import ListNotations.
Open Scope list_scope.
Open Scope Z_scope.

(** C17.  [a] is the randomness of the dealer, [i] the dealer's number. *)
Theorem C17_honest_shares_verify : forall R, ristretto_ok R ->
  forall n t a self i cbuf sbuf cs ss s,
  1 <= n <= 254 -> 1 <= t <= 255 -> Z.of_nat (length a) = t -> Forall random_scalar a ->
  Z.of_nat (length cbuf) = t -> Z.of_nat (length sbuf) = n ->
  dkg_start R true n t a cbuf sbuf = Ok (0, cs, ss) ->
  1 <= self <= n -> nth_error ss (Z.to_nat (self - 1)) = Some s ->
  s_index s = self /\ dkg_verify_commitment R self i cs s = Ok 0 /\ matches R self cs (s_value s) /\
  0 <= s_value s < L.
Proof. exact honest_shares_verify. Qed.
Print Assumptions C17_honest_shares_verify.

Example C17_nonvacuous : exists n t a self cbuf sbuf cs ss s,
  1 <= n <= 254 /\ 1 <= t <= 255 /\ Z.of_nat (length a) = t /\ Forall random_scalar a /\
  Z.of_nat (length cbuf) = t /\ Z.of_nat (length sbuf) = n /\
  dkg_start toyR true n t a cbuf sbuf = Ok (0, cs, ss) /\
  1 <= self <= n /\ nth_error ss (Z.to_nat (self - 1)) = Some s /\ ristretto_ok toyR /\ s_value s = 26.
Proof. exact C17_example. Qed.

(** C18, what the return code means: for arbitrary commitment bytes and shares. *)
Theorem C18_verify_return_code : forall R, ristretto_ok R ->
  forall self i cs s, index_ok self -> i <> self -> cs <> [] ->
  exists ret, dkg_verify_commitment R self i cs s = Ok ret /\
    (ret = 0 \/ ret = 1 \/ ret = -1) /\
    (ret = 0 <-> matches R self cs (s_value s)) /\
    (ret = -1 <-> ~ usable R cs).
Proof. exact verify_classify. Qed.
Print Assumptions C18_verify_return_code.

(** C18.  Full statement: for every 32-byte value.  False: a value with bit 255 set verifies
    like the value without it, but dkg_finish adds all 256 bits. *)
Theorem C18_verified_share_is_committed_refuted :
  exists R self i a s, ristretto_ok R /\ index_ok self /\ i <> self /\ Forall random_scalar a /\
  0 <= s_value s < 2 ^ 256 /\
  dkg_verify_commitment R self i (commitments_of R a) s = Ok 0 /\
  dkg_finish [s] <> poly a self mod L.
Proof. exact C18_witness. Qed.
Print Assumptions C18_verified_share_is_committed_refuted.

(** the same for every group, every honest dealer and every recipient *)
Theorem C18_bit255_always_accepted : forall R, ristretto_ok R ->
  forall self i a v, index_ok self -> i <> self -> a <> [] -> Forall random_scalar a ->
  v = poly a self mod L ->
  let s := mkShare self (v + 2 ^ 255) in
  0 <= s_value s < 2 ^ 256 /\
  dkg_verify_commitment R self i (commitments_of R a) s = Ok 0 /\
  dkg_finish [s] <> v.
Proof. exact bit255_accepted. Qed.
Print Assumptions C18_bit255_always_accepted.

(** True for values below 2^255: [a] is the one polynomial the commitments commit to. *)
Theorem C18_verified_share_is_committed_partial : forall R, ristretto_ok R ->
  forall self i cs s, index_ok self -> i <> self -> cs <> [] -> 0 <= s_value s < 2 ^ 255 ->
  dkg_verify_commitment R self i cs s = Ok 0 ->
  exists a, (length a = length cs /\ Forall (fun c => 0 <= c < L) a /\ commitments_of R a = cs) /\
    (forall a', length a' = length cs -> Forall (fun c => 0 <= c < L) a' -> commitments_of R a' = cs -> a' = a) /\
    forall others, dkg_finish (others ++ [s]) = (dkg_finish others + poly a self) mod L.
Proof. exact verified_share_committed. Qed.
Print Assumptions C18_verified_share_is_committed_partial.

Example C18_nonvacuous : exists self i cs s, index_ok self /\ i <> self /\ cs <> [] /\ 0 <= s_value s < 2 ^ 255 /\
  dkg_verify_commitment toyR self i cs s = Ok 0 /\ ristretto_ok toyR /\ length cs = 2%nat.
Proof. exact C18_example. Qed.

(** C19.  Full statement: [named] = the cheating dealers, always.  False: *)
Theorem C19_fails_list_exact_refuted :
  exists R n t self commitments shares fails ret fails',
  ristretto_ok R /\ verify_args n t self commitments shares fails /\
  dkg_verify_commitments R n self commitments shares fails = Ok (ret, fails', 0) /\
  cheated R self commitments shares 2.
Proof. exact C19_witness. Qed.
Print Assumptions C19_fails_list_exact_refuted.

(** exact behaviour on all inputs: the list is complete up to the first dealer with unusable
    commitments, and complete if there is none *)
Theorem C19_fails_list : forall R, ristretto_ok R ->
  forall n t self commitments shares fails, verify_args n t self commitments shares fails ->
  exists ret fails' named,
    dkg_verify_commitments R n self commitments shares fails = Ok (ret, fails', Z.of_nat (length named)) /\
    length fails' = length fails /\
    firstn (length named) fails' = named /\ StronglySorted Z.lt named /\
    ((exists u, 1 <= u <= n /\ unusable_dealer R self commitments shares u /\
        (forall j, 1 <= j < u -> ~ unusable_dealer R self commitments shares j) /\ ret = -1 /\
        (forall j, In j named <-> 1 <= j < u /\ cheated R self commitments shares j)) \/
     ((forall j, ~ unusable_dealer R self commitments shares j) /\
      ret = (match named with [] => 0 | _ => 1 end) /\
      (forall j, In j named <-> cheated R self commitments shares j))).
Proof. exact verify_commitments_spec. Qed.
Print Assumptions C19_fails_list.

Example C19_nonvacuous : exists n t self commitments shares fails fails',
  verify_args n t self commitments shares fails /\
  dkg_verify_commitments toyR n self commitments shares fails = Ok (1, fails', 1) /\
  firstn 1 fails' = [2] /\ ristretto_ok toyR.
Proof. exact C19_example. Qed.

(** C20.  The commitments and shares are arbitrary bytes sent by arbitrary dealers; each party
    in the list is a recipient whose verification succeeded. *)
Theorem C20_dkg_consistent : forall R, ristretto_ok R ->
  forall n t commitments parties,
  Forall (recipient_ok R n t commitments) parties ->
  NoDup (map fst parties) -> t <= Z.of_nat (length parties) -> parties <> [] ->
  exists Cs0, decode_all R (map (hd []) commitments) Cs0 /\
    let x := dkg_reconstruct (map (fun p => mkShare (fst p) (dkg_finish (snd p))) parties) in
    0 <= x < L /\ rsmul R x (rbase R) = gsum R Cs0.
Proof. exact dkg_consistent. Qed.
Print Assumptions C20_dkg_consistent.

(** C20, any two quorums agree. *)
Theorem C20_quorums_agree : forall R, ristretto_ok R ->
  forall n t commitments parties parties',
  Forall (recipient_ok R n t commitments) parties ->
  Forall (recipient_ok R n t commitments) parties' ->
  NoDup (map fst parties) -> NoDup (map fst parties') ->
  t <= Z.of_nat (length parties) -> t <= Z.of_nat (length parties') -> parties <> [] -> parties' <> [] ->
  dkg_reconstruct (map (fun p => mkShare (fst p) (dkg_finish (snd p))) parties) =
  dkg_reconstruct (map (fun p => mkShare (fst p) (dkg_finish (snd p))) parties').
Proof. exact dkg_agree. Qed.
Print Assumptions C20_quorums_agree.

(** C20, honest run: all n dealers run dkg_start, recipient j collects the j-th shares. *)
Theorem C20_honest_run : forall R, ristretto_ok R ->
  forall n t A cbuf sbuf outs parties,
  1 <= n <= 254 -> 1 <= t <= 255 -> Z.of_nat (length A) = n ->
  Forall (fun a => Z.of_nat (length a) = t /\ Forall random_scalar a) A ->
  Z.of_nat (length cbuf) = t -> Z.of_nat (length sbuf) = n ->
  Forall2 (fun a o => dkg_start R true n t a cbuf sbuf = Ok (0, fst o, snd o)) A outs ->
  Forall (fun p => 1 <= fst p <= n /\
            Forall2 (fun o s => nth_error (snd o) (Z.to_nat (fst p - 1)) = Some s) outs (snd p)) parties ->
  NoDup (map fst parties) -> t <= Z.of_nat (length parties) ->
  Forall (recipient_ok R n t (map fst outs)) parties /\
  dkg_reconstruct (map (fun p => mkShare (fst p) (dkg_finish (snd p))) parties) = zsum (map (hd 0) A) mod L.
Proof. exact honest_run. Qed.
Print Assumptions C20_honest_run.

Example C20_nonvacuous : exists n t commitments parties,
  Forall (recipient_ok toyR n t commitments) parties /\ NoDup (map fst parties) /\
  t <= Z.of_nat (length parties) /\ parties <> [] /\ ristretto_ok toyR /\ n = 3 /\ t = 2.
Proof. exact C20_example. Qed.
