(** Property C95: secrets are in locked memory while in use and wiped afterwards, and a lock that fails
    fails the call.  LockSpec.v says what this means; the events at the temporaries of each function are in
    LockModel.v. *)
From Coq Require Import ZArith List Bool.
From Coq.Strings Require Import Byte.
From Verif Require Import PrimeL Bytes Res Sodium OprfModel ToprfModel ToprfSpec DkgModel LockModel LockSpec LockProofs LockExamples.
Import ListNotations.
Open Scope list_scope.
Open Scope Z_scope.

(** The functions whose events are listed are the functions the other theorems are about. *)
Theorem C95_same_functions : forall R H,
  (forall lk1 lk2 x len r, snd (Blind_run R H lk1 lk2 x len r) = oprf_Blind R H lk1 lk2 x len r) /\
  (forall lk x len N, snd (Finalize_run H lk x len N) = oprf_Finalize H lk x len N) /\
  (forall lk r Zb, snd (Unblind_run R lk r Zb) = oprf_Unblind R lk r Zb) /\
  (forall lk n t a cbuf sbuf, snd (start_run R lk n t a cbuf sbuf) = dkg_start R lk n t a cbuf sbuf) /\
  (forall s n t a buf, snd (create_shares_run s n t a buf) = create_shares s n t a buf) /\
  (forall msg dst len t, snd (expand_run H msg dst len t) = expand_message_xmd H msg dst len).
Proof. exact runs_refine. Qed.
Print Assumptions C95_same_functions.

(** A call for which a lock is not obtained returns -1 and writes nothing to the caller's buffers. *)
Theorem C95_lock_failure : forall R H c, defined R H c -> lock_failed (events R H c) -> refused R H c.
Proof. exact lock_failure. Qed.
Print Assumptions C95_lock_failure.

Example C95_lock_failure_nonvacuous : exists R H c, defined R H c /\ lock_failed (events R H c) /\ exists t, In (Lock t) (events R H c).
Proof. exact C95_failure_example. Qed.

(** Whatever the call and its outcome, nothing is left in the temporaries the library asks to lock:
    the hash state, the uniform bytes, the hashed input, the inverse of the blind, the polynomial of
    the key generation.  Missing: the other temporaries, see below. *)
Theorem C95_wiped_partial : forall R H c t, defined R H c -> guarded t -> left_in (events R H c) t = None.
Proof. exact wiped. Qed.
Print Assumptions C95_wiped_partial.

Example C95_wiped_nonvacuous : exists R H c t h, defined R H c /\ guarded t /\ In (Holds t h) (events R H c).
Proof. exact C95_wiped_example. Qed.

(** These temporaries are locked at every moment at which they hold something, if the hashed input
    and the uniform bytes have no page in common. *)
Theorem C95_locked_partial : forall R H c L before t, pages_apart L t_H0 t_uniform -> guarded t ->
  locked_while_used L before (events R H c) t.
Proof. exact locked. Qed.
Print Assumptions C95_locked_partial.

Example C95_locked_nonvacuous : exists R H c L t h, pages_apart L t_H0 t_uniform /\ guarded t /\ In (Holds t h) (events R H c).
Proof. exact C95_locked_example. Qed.

(** If they have one, which for two temporaries of nested calls is the usual case, the hashed input is
    in unlocked memory while the blinding is computed. *)
Theorem C95_shared_page_refuted : forall R H x len r m L before p, sub x 0 (Z.to_nat (len mod 2 ^ 8)) = Some m ->
  on_page L t_H0 p -> on_page L t_uniform p -> ~ locked_while_used L before (events R H (Blind true true x len r)) t_H0.
Proof. exact shared_page. Qed.
Print Assumptions C95_shared_page_refuted.

Example C95_shared_page_nonvacuous : exists (x : bytes) len m L p, sub x 0 (Z.to_nat (len mod 2 ^ 8)) = Some m /\ m <> [] /\
  snd (L t_H0) = 32 /\ snd (L t_uniform) = 64 /\ on_page L t_H0 p /\ on_page L t_uniform p.
Proof. exact C95_shared_example. Qed.

(** When a call returns, the locked pages are those that were locked before, without the pages of the
    temporaries it locked: nothing stays locked, but a lock the caller held on such a page is gone. *)
Theorem C95_released_partial : forall R H c L before p, defined R H c -> (forall x len r, c <> Blind true false x len r) ->
  (locked_after L before (events R H c) p = true <->
   before p = true /\ forall t, In (Lock t) (events R H c) -> ~ on_page L t p).
Proof. exact released. Qed.
Print Assumptions C95_released_partial.

Example C95_released_nonvacuous : exists R H c, defined R H c /\ (forall x len r, c <> Blind true false x len r) /\ In (Lock t_H0) (events R H c).
Proof. exact C95_released_example. Qed.

(** The exception: when its second lock fails, oprf_Blind returns with the pages of the first still locked. *)
Theorem C95_lock_leak_refuted : forall R H x len r L before p, defined R H (Blind true false x len r) -> on_page L t_H0 p ->
  locked_after L before (events R H (Blind true false x len r)) p = true.
Proof. exact leaked. Qed.
Print Assumptions C95_lock_leak_refuted.

Example C95_lock_leak_nonvacuous : exists R H x len r L p, defined R H (Blind true false x len r) /\ on_page L t_H0 p.
Proof. exact C95_leak_example. Qed.

(** After every successful hashing of an input, the input itself stays on the stack. *)
Theorem C95_input_left_refuted : forall R H x len r m, sub x 0 (Z.to_nat (len mod 2 ^ 8)) = Some m ->
  exists before after, left_in (events R H (Blind true true x len r)) t_msg_prime = Some (before ++ m ++ after) /\ length before = 128%nat.
Proof. exact input_left. Qed.
Print Assumptions C95_input_left_refuted.

Example C95_input_left_nonvacuous : exists (x : bytes) len m, sub x 0 (Z.to_nat (len mod 2 ^ 8)) = Some m /\ m <> [].
Proof. exact C95_input_example. Qed.

(** What toprf_create_shares leaves on the stack determines the key together with any single share. *)
Theorem C95_coefficients_left_refuted : forall R H n t secret1 a1 buf1 all1 secret2 a2 buf2 all2 s,
  2 <= t -> sharing_params secret1 n t a1 buf1 -> sharing_params secret2 n t a2 buf2 ->
  (forall z, In z a1 -> 0 <= z < L) -> (forall z, In z a2 -> 0 <= z < L) ->
  create_shares secret1 n t a1 buf1 = Ok all1 -> create_shares secret2 n t a2 buf2 = Ok all2 ->
  left_in (events R H (CreateShares secret1 n t a1 buf1)) t_coeff = left_in (events R H (CreateShares secret2 n t a2 buf2)) t_coeff ->
  In s all1 -> In s all2 -> secret1 = secret2.
Proof. exact coeff_left_key. Qed.
Print Assumptions C95_coefficients_left_refuted.

Example C95_coefficients_left_nonvacuous : exists secret n t a buf all s, 2 <= t /\ sharing_params secret n t a buf /\ (forall z, In z a -> 0 <= z < L) /\
  create_shares secret n t a buf = Ok all /\ In s all.
Proof. exact C95_coeff_example. Qed.
