(** Concrete cases for property C95. *)
From Coq Require Import ZArith Lia List Bool.
From Coq.Strings Require Import Byte.
From Verif Require Import PrimeL Fq Bytes Res Sodium OprfModel ToprfModel ToprfSpec ToprfProofs ToprfExamples DkgModel LockModel LockSpec LockProofs.
Import ListNotations.
Open Scope list_scope.
Open Scope Z_scope.

(** a 4-byte password *)
Definition lk_x : bytes := [x70; x61; x73; x73].
Definition lk_layout : layout := fun t => match t with t_H0 => (8192, 32) | t_uniform => (4032, 64) | _ => (0, 64) end.
Definition lk_shared : layout := fun t => match t with t_H0 => (8192, 32) | t_uniform => (8160, 64) | _ => (0, 64) end.

Lemma lk_sub : sub lk_x 0 (Z.to_nat (4 mod 2 ^ 8)) = Some lk_x.
Proof. reflexivity. Qed.

Lemma lk_defined lk2 : defined toyR toyH (Blind true lk2 lk_x 4 7).
Proof.
  cbn [defined]. unfold oprf_Blind. rewrite lk_sub. cbn [of_opt bind]. rewrite <- (hash_to_group_run_eq _ _ _ _ None). destruct lk2; [|discriminate].
  destruct (htg_events toyR toyH lk_x None) as (b0 & bi & u & ->). cbn [snd bind]. change (0 =? 0) with true. cbv iota.
  destruct (scalarmult _ _ _) as [[| |] q]; discriminate.
Qed.

Lemma lk_holds : exists h, In (Holds t_H0 h) (events toyR toyH (Blind true true lk_x 4 7)).
Proof.
  cbn [events]. unfold Blind_run. rewrite lk_sub. destruct (htg_events toyR toyH lk_x (Some t_H0)) as (b0 & bi & u & ->).
  change (0 =? 0) with true. cbv iota. destruct (scalarmult _ _ _) as [sret q]. cbn [fst app]. eexists. cbn [In]. do 7 right. left. reflexivity.
Qed.

Lemma lk_apart : pages_apart lk_layout t_H0 t_uniform.
Proof. intros p. unfold on_page, page, lk_layout. cbn [fst snd]. change (8192 / 4096) with 2. change ((4032 + 64 - 1) / 4096) with 0. lia. Qed.

Lemma C95_failure_example : exists R H c, defined R H c /\ lock_failed (events R H c) /\ exists t, In (Lock t) (events R H c).
Proof.
  exists toyR, toyH, (Blind true false lk_x 4 7). split; [apply lk_defined|]. split; [exists t_uniform|exists t_H0]; cbn [events]; unfold Blind_run; rewrite lk_sub; cbn [hash_to_group_run fst In]; tauto.
Qed.

Lemma C95_wiped_example : exists R H c t h, defined R H c /\ guarded t /\ In (Holds t h) (events R H c).
Proof. destruct lk_holds as (h & Hh). exists toyR, toyH, (Blind true true lk_x 4 7), t_H0, h. split; [apply lk_defined|]. split; [unfold guarded; tauto|exact Hh]. Qed.

Lemma C95_locked_example : exists R H c L t h, pages_apart L t_H0 t_uniform /\ guarded t /\ In (Holds t h) (events R H c).
Proof. destruct lk_holds as (h & Hh). exists toyR, toyH, (Blind true true lk_x 4 7), lk_layout, t_H0, h. split; [exact lk_apart|]. split; [unfold guarded; tauto|exact Hh]. Qed.

Lemma lk_locks : In (Lock t_H0) (events toyR toyH (Blind true true lk_x 4 7)).
Proof.
  cbn [events]. unfold Blind_run. rewrite lk_sub. destruct (htg_events toyR toyH lk_x (Some t_H0)) as (b0 & bi & u & ->).
  change (0 =? 0) with true. cbv iota. destruct (scalarmult _ _ _) as [sret q]. cbn [fst app In]. tauto.
Qed.

Lemma C95_released_example : exists R H c, defined R H c /\ (forall x len r, c <> Blind true false x len r) /\ In (Lock t_H0) (events R H c).
Proof. exists toyR, toyH, (Blind true true lk_x 4 7). split; [apply lk_defined|]. split; [congruence|exact lk_locks]. Qed.

Lemma C95_leak_example : exists R H x len r L p, defined R H (Blind true false x len r) /\ on_page L t_H0 p.
Proof. exists toyR, toyH, lk_x, 4, 7, lk_layout, 2. split; [apply lk_defined|]. unfold on_page, page. cbn [lk_layout fst snd]. change (8192 / 4096) with 2. change ((8192 + 32 - 1) / 4096) with 2. lia. Qed.

Lemma C95_shared_example : exists (x : bytes) len m L p, sub x 0 (Z.to_nat (len mod 2 ^ 8)) = Some m /\ m <> [] /\
  snd (L t_H0) = 32 /\ snd (L t_uniform) = 64 /\ on_page L t_H0 p /\ on_page L t_uniform p.
Proof.
  exists lk_x, 4, lk_x, lk_shared, 2. split; [reflexivity|]. split; [discriminate|]. split; [reflexivity|]. split; [reflexivity|].
  unfold on_page, page. cbn [lk_shared fst snd]. change (8192 / 4096) with 2. change ((8192 + 32 - 1) / 4096) with 2.
  change (8160 / 4096) with 1. change ((8160 + 64 - 1) / 4096) with 2. lia.
Qed.

Lemma C95_input_example : exists (x : bytes) len m, sub x 0 (Z.to_nat (len mod 2 ^ 8)) = Some m /\ m <> [].
Proof. exists lk_x, 4, lk_x. split; [reflexivity|discriminate]. Qed.

Lemma C95_coeff_example : exists secret n t a buf all s, 2 <= t /\ sharing_params secret n t a buf /\ (forall z, In z a -> 0 <= z < L) /\
  create_shares secret n t a buf = Ok all /\ In s all.
Proof.
  exists 42, 5, 3, ex_a, ex_buf, ex_shares, (nth 0 ex_shares (mkShare 0 0)). split; [lia|]. split; [exact ex_params|]. split.
  - intros z Hz. pose proof L_gt_65536. unfold ex_a in Hz. cbn [In] in Hz. intuition lia.
  - split; [exact ex_created|]. vm_compute. tauto.
Qed.
