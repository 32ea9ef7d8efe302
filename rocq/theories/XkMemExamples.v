(** Concrete cases for the theorems about the memory management of the Noise library: two devices, a whole handshake,
    names, and everything freed again. *)
From Coq Require Import ZArith Lia List Bool Permutation.
From Coq.Strings Require Import Byte.
From Verif Require Import Bytes Mem XkModel XkSpec XkMemModel XkMemSpec XkMemRun.
Import ListNotations.
Open Scope list_scope.
Open Scope Z_scope.

(** simple primitives that meet the laws *)
Definition memX : xprims := mkX (fun _ => zeros 32) (fun _ _ => Some (zeros 32)) (fun _ _ _ p => p ++ zeros 16)
  (fun _ _ _ c => if 16 <=? zlen c then Some (firstn (length c - 16) c) else None) (fun _ => zeros 64).
Lemma memX_ok : xprims_ok memX.
Proof.
  constructor; cbn [x_base x_dh x_seal x_open x_hash memX]; intros.
  - reflexivity.
  - eexists. split; reflexivity.
  - rewrite zlen_app. reflexivity.
  - rewrite app_length, zlen_app. change (length (zeros 16)) with 16%nat. change (zlen (zeros 16)) with 16.
    replace (length p + 16 - 16)%nat with (length p) by lia. rewrite firstn_app, Nat.sub_diag, firstn_all, firstn_O, app_nil_r.
    replace (16 <=? zlen p + 16) with true; [reflexivity|]. symmetry. apply Z.leb_le. unfold zlen. lia.
  - destruct (Z.leb_spec 16 (zlen c)) as [L|L]; [|discriminate].
    assert (p = firstn (length c - 16) c) by congruence. subst p. unfold zlen in *. rewrite firstn_length. lia.
  - reflexivity.
Qed.

(** checking that a program follows the documented use *)
Definition dev_b (w : world) (d : nat) : bool := match nth_error (w_devs w) d with Some e => de_open e | None => false end.
Definition sess_b (w : world) (s : nat) : bool := match nth_error (w_sess w) s with Some e => se_open e | None => false end.
Definition msg_b (w : world) (u : nat) : bool := match nth_error (w_user w) u with Some (UMsg _ _) => true | _ => false end.
Definition doc_b (c : call) (w : world) : bool :=
  match c with
  | NCreate _ _ _ _ | NCreateSecret _ _ _ _ | NPack _ _ => true
  | NAddPeer d _ _ | NRemovePeer d _ | NSerialDevice d | NSerialPeer d _ | NDeserialPeer d _ _ | NDeviceInfo d | NPeerInfo d _
  | NInitiator d _ _ | NResponder d _ => dev_b w d
  | NFreeDevice d => dev_b w d && forallb (fun e => negb (Nat.eqb (se_dev e) d) || negb (se_open e)) (w_sess w)
  | NUnpack u _ => msg_b w u
  | NWrite s u => sess_b w s && msg_b w u
  | NRead s _ | NSessionInfo s | NSessionPeerInfo s | NFreeSession s => sess_b w s
  | NRelease u => match nth_error (w_user w) u with Some _ => true | None => false end
  end.
Lemma dev_b_ok w d : dev_b w d = true -> dev_open w d.
Proof. unfold dev_b, dev_open. destruct (nth_error (w_devs w) d) as [e|]; [|discriminate]. intros E. exists e. auto. Qed.
Lemma sess_b_ok w s : sess_b w s = true -> sess_open w s.
Proof. unfold sess_b, sess_open. destruct (nth_error (w_sess w) s) as [e|]; [|discriminate]. intros E. exists e. auto. Qed.
Lemma msg_b_ok w u : msg_b w u = true -> holds_message w u.
Proof. unfold msg_b, holds_message. destruct (nth_error (w_user w) u) as [[|em e]|]; try discriminate. intros _. exists em, e. reflexivity. Qed.
Lemma doc_b_ok c w : doc_b c w = true -> documented c w.
Proof.
  intros H. split.
  - destruct c; cbn [doc_b allowed] in *; try exact I; try (apply dev_b_ok; exact H); try (apply sess_b_ok; exact H); try (apply msg_b_ok; exact H).
    + apply andb_true_iff in H. split; [apply sess_b_ok|apply msg_b_ok]; apply H.
    + unfold holds. destruct (nth_error (w_user w) u) as [o|]; [eauto|discriminate].
    + apply andb_true_iff in H. apply dev_b_ok. apply H.
  - intros d -> s e N E. cbn [doc_b] in H. apply andb_true_iff in H. destruct H as [_ H]. rewrite forallb_forall in H.
    specialize (H e (nth_error_In _ _ N)). rewrite E, Nat.eqb_refl in H. destruct (se_open e); [discriminate|reflexivity].
Qed.
Fixpoint obeys_b (X : xprims) (cs : list call) (w : world) : bool :=
  match cs with
  | [] => true
  | c :: cs' => doc_b c w && match mstep X c w with Some w' => obeys_b X cs' w' | None => true end
  end.
Lemma obeys_b_ok X cs : forall w, obeys_b X cs w = true -> obeys X documented cs w.
Proof.
  induction cs as [|c cs IH]; intros w H; cbn [obeys_b obeys] in *; [exact I|]. apply andb_true_iff in H. destruct H as [A B].
  split; [apply doc_b_ok; exact A|]. intros w' S. rewrite S in B. apply IH. exact B.
Qed.
Lemma obeys_weaken X (P Q : call -> world -> Prop) cs : (forall c w, P c w -> Q c w) -> forall w, obeys X P cs w -> obeys X Q cs w.
Proof.
  intros H. induction cs as [|c cs IH]; intros w O; cbn [obeys] in *; [exact I|]. destruct O as [A B]. split; [apply H; exact A|].
  intros w' S. apply IH. exact (B w' S).
Qed.
Lemma documented_allowed X cs w : obeys X documented cs w -> obeys X allowed cs w.
Proof. apply obeys_weaken. intros c v [A _]. exact A. Qed.

(** two devices, three peers, a handshake with payloads, the name of the peer; one peer is removed *)
Definition talk : list call :=
  [NCreate [x70] [x41] [x01] [x02]; NCreate [x70] [] [x03] [x04];
   NAddPeer 0 [x43] [x43]; NAddPeer 0 [x42] (zeros 32); NAddPeer 1 [x41] (zeros 32);
   NInitiator 0 2 [x05]; NResponder 1 [x06];
   NPack 0 [x01]; NWrite 0 0; NRead 1 (zeros 49);
   NPack 0 []; NWrite 1 3; NRead 0 (zeros 48);
   NWrite 0 3; NRead 1 (zeros 64);
   NSessionPeerInfo 1; NRead 1 (zeros 20); NRemovePeer 0 1].
(** everything is freed again, the sessions before the devices *)
Definition hang_up : list call := repeat (NRelease 0) 10 ++ [NFreeSession 0; NFreeSession 1; NFreeDevice 0; NFreeDevice 1].
Definition after (cs : list call) : world := match mrun memX cs start with Some w => w | None => start end.
Lemma talk_run : mrun memX talk start = Some (after talk).
Proof. vm_compute. reflexivity. Qed.
Lemma talk_obeys : obeys memX documented talk start.
Proof. apply obeys_b_ok. vm_compute. reflexivity. Qed.
(** both sessions are in the transport state; the responder knows the name of its peer *)
Lemma talk_done : map (fun e => (session_get_status (se_val e), s_pinfo (se_val e), se_open e)) (w_sess (after talk))
  = [(Transport_status, [x42], true); (Transport_status, [x41], true)] /\ length (w_user (after talk)) = 10%nat.
Proof. vm_compute. auto. Qed.
Lemma both_run : mrun memX (talk ++ hang_up) start = Some (after (talk ++ hang_up)).
Proof. vm_compute. reflexivity. Qed.
Lemma both_obeys : obeys memX documented (talk ++ hang_up) start.
Proof. apply obeys_b_ok. vm_compute. reflexivity. Qed.
Lemma both_freed : all_freed (after (talk ++ hang_up)).
Proof. unfold all_freed. vm_compute. repeat split; repeat constructor. Qed.
(** what stays: two symmetric keys, and the two peers that were not removed *)
Lemma both_left : map snd (live (w_heap (after (talk ++ hang_up)))) = [Wpeer; Wname; Wtext; Wkey; Wpeer; Wname; Wtext; Wkey; Wsk; Wsk]
  /\ length (freed (w_heap (after (talk ++ hang_up)))) = 67%nat
  /\ In (Wkey, true) (freed (w_heap (after (talk ++ hang_up)))) /\ In (Wsend, false) (freed (w_heap (after (talk ++ hang_up)))).
Proof. vm_compute. split; [reflexivity|]. split; [reflexivity|]. split; tauto. Qed.
