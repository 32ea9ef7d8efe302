(** Memory management of the Noise library (C96). *)
From Coq Require Import ZArith List Bool Permutation.
From Coq.Strings Require Import Byte.
From Verif Require Import Bytes Mem XkModel XkSpec XkMemModel XkMemSpec XkMemRun XkMemExamples.
Import ListNotations.
Open Scope list_scope.
Open Scope Z_scope.

(** As long as a program passes only what it has not freed, a call has defined behaviour, except that a responder uses
    its device while it reads a message of the handshake: this call, and only this one, is undefined once the device
    is freed. *)
Theorem C96_defined_exactly (X : xprims) (cs : list call) (w : world) (c : call) :
  xprims_ok X -> obeys X allowed cs start -> mrun X cs start = Some w -> allowed c w ->
  (mstep X c w = None <-> device_gone c w).
Proof. exact (fun HX => defined_exactly X HX cs w c). Qed.
Print Assumptions C96_defined_exactly.

(** A program that follows the documentation (a device is freed after its sessions) has no undefined behaviour: no
    block is used after it was freed, and none is freed twice. *)
Theorem C96_documented_use_defined (X : xprims) (cs : list call) :
  xprims_ok X -> obeys X documented cs start -> exists w, mrun X cs start = Some w.
Proof. exact (fun HX => documented_defined X HX cs). Qed.
Print Assumptions C96_documented_use_defined.

(** At every moment the blocks in memory are exactly those of the open devices and sessions, of the objects the program
    holds, and what freed devices left behind. *)
Theorem C96_memory (X : xprims) (cs : list call) (w : world) :
  xprims_ok X -> obeys X allowed cs start -> mrun X cs start = Some w -> Permutation (map snd (live (w_heap w))) (in_use w).
Proof. exact (fun HX => memory X HX cs w). Qed.
Print Assumptions C96_memory.

(** After everything was freed: for each device its symmetric key, and all of the peers that were not removed. *)
Theorem C96_all_freed_partial (X : xprims) (cs : list call) (w : world) :
  xprims_ok X -> obeys X allowed cs start -> mrun X cs start = Some w -> all_freed w ->
  Permutation (map snd (live (w_heap w))) (flat_map (fun e => left_by_device (de_val e)) (w_devs w)).
Proof. exact (fun HX => all_freed_left X HX cs w). Qed.
Print Assumptions C96_all_freed_partial.
Theorem C96_leak_refuted (X : xprims) :
  ~ (forall cs w, obeys X documented cs start -> mrun X cs start = Some w -> all_freed w -> live (w_heap w) = []).
Proof. exact (leak X). Qed.
Print Assumptions C96_leak_refuted.

(** The library wipes the public key of a removed peer, and nothing else. *)
Theorem C96_wiped_only_public_keys (X : xprims) (cs : list call) (w : world) (k : what) :
  xprims_ok X -> obeys X allowed cs start -> mrun X cs start = Some w -> In (k, true) (freed (w_heap w)) -> k = Wkey.
Proof. exact (fun HX => wiped_only_keys X HX cs w k). Qed.
Print Assumptions C96_wiped_only_public_keys.
(** Whenever a block with a secret key is freed, the key is still in it. *)
Theorem C96_secrets_never_wiped (X : xprims) (cs : list call) (w : world) (k : what) (wiped : bool) :
  xprims_ok X -> obeys X allowed cs start -> mrun X cs start = Some w -> In (k, wiped) (freed (w_heap w)) -> secret k = true -> wiped = false.
Proof. exact (fun HX => secrets_unwiped X HX cs w k wiped). Qed.
Print Assumptions C96_secrets_never_wiped.
Theorem C96_secrets_refuted (X : xprims) :
  ~ (forall cs w k wiped, obeys X documented cs start -> mrun X cs start = Some w -> In (k, wiped) (freed (w_heap w)) -> secret k = true -> wiped = true).
Proof. exact (secret_kept X). Qed.
Print Assumptions C96_secrets_refuted.
(** Freeing a device before its sessions is not safe. *)
Theorem C96_device_first_refuted (X : xprims) :
  xprims_ok X -> ~ (forall cs, obeys X allowed cs start -> exists w, mrun X cs start = Some w).
Proof. exact (device_first X). Qed.
Print Assumptions C96_device_first_refuted.

(** two devices, a handshake, payloads, a name; then everything is freed *)
Example C96_nonvacuous : xprims_ok memX /\ obeys memX documented (talk ++ hang_up) start
  /\ mrun memX (talk ++ hang_up) start = Some (after (talk ++ hang_up)) /\ all_freed (after (talk ++ hang_up)).
Proof. exact (conj memX_ok (conj both_obeys (conj both_run both_freed))). Qed.
Example C96_nonvacuous_sessions : map (fun e => (session_get_status (se_val e), s_pinfo (se_val e), se_open e)) (w_sess (after talk))
  = [(Transport_status, [x42], true); (Transport_status, [x41], true)] /\ length (w_user (after talk)) = 10%nat.
Proof. exact talk_done. Qed.
Example C96_nonvacuous_left : map snd (live (w_heap (after (talk ++ hang_up)))) = [Wpeer; Wname; Wtext; Wkey; Wpeer; Wname; Wtext; Wkey; Wsk; Wsk]
  /\ length (freed (w_heap (after (talk ++ hang_up)))) = 67%nat
  /\ In (Wkey, true) (freed (w_heap (after (talk ++ hang_up)))) /\ In (Wsend, false) (freed (w_heap (after (talk ++ hang_up)))).
Proof. exact both_left. Qed.
Example C96_nonvacuous_gone (X : xprims) : exists w, mrun X early start = Some w /\ obeys X allowed early start
  /\ allowed (NRead 0 (zeros 48)) w /\ device_gone (NRead 0 (zeros 48)) w.
Proof. exact (early_run X). Qed.
