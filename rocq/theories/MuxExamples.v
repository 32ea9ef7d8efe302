(** Concrete cases and witnesses for the multiplexer (C59, C60, C64) *)
From Coq Require Import ZArith Lia List Bool.
From Coq.Strings Require Import Byte.
From Verif Require Import Bytes Res Mem MuxModel MuxSpec MuxProofs.
Import ListNotations.
Open Scope list_scope.
Open Scope Z_scope.

Definition mx (evs : list ev) : mpeer := mkMp SSL false Connected OpenFd true evs [].
Definition none_pending (_ : Z) : Z := 0.
Definition only (l : list Z) (i : Z) : bool := existsb (Z.eqb i) l.

(** three peers with two messages of two bytes each; the third is late in the first round *)
Definition mx3 : list mpeer := [mx [Data [x01; x02]; Data [x03; x04]]; mx [Data [x11]; Data [x12; x13; x14]]; mx [Data [x21; x22; x23; x24]]].
Definition mx_late : list gcall := [mkGc 2 2 none_pending [only [0; 1]]; mkGc 2 3 none_pending [only [2]; only [0; 1]]].
Lemma C59_stale_witness : exists gs ps out1 out2 ps' i p m, gathers gs ps [out1; out2] ps' /\ nth_error ps i = Some p /\
  nth_error out1 i = Some None /\ nth_error out2 i = Some (Some m) /\ zlen m = 2 /\ Forall (fun g => g_len g = 2) gs /\ exists rest, bytes_of p = m ++ rest /\ zlen rest = 2.
Proof.
  exists mx_late, mx3. do 3 eexists. exists 2%nat. do 2 eexists. split.
  { unfold mx_late. eapply gathers_cons; [vm_compute; reflexivity|]. eapply gathers_cons; [vm_compute; reflexivity|]. constructor. }
  split; [reflexivity|]. split; [reflexivity|]. split; [reflexivity|]. split; [reflexivity|]. split; [repeat constructor|]. exists [x23; x24]. split; reflexivity.
Qed.

(** two rounds, all peers answer in both *)
Definition mx_all : list gcall := [mkGc 2 3 none_pending [only [0]; only [2; 1]]; mkGc 2 3 (fun _ => 2) []].
Lemma C59_order_example : exists gs ps outs ps', gathers gs ps outs ps' /\ Forall (fun g => zlen ps <= g_n g) gs /\ zlen ps = 3 /\
  outs = [[Some [x01; x02]; Some [x11; x12]; Some [x21; x22]]; [Some [x03; x04]; Some [x13; x14]; Some [x23; x24]]].
Proof.
  exists mx_all, mx3. do 2 eexists. split.
  { unfold mx_all. eapply gathers_cons; [vm_compute; reflexivity|]. eapply gathers_cons; [vm_compute; reflexivity|]. constructor. }
  split; [repeat constructor; vm_compute; discriminate|]. split; reflexivity.
Qed.
(** with a proc: the first message of the second peer is of no use *)
Definition odd_proc (m : bytes) : option Z := match m with x11 :: _ => None | b :: _ => Some (Z.of_N (Byte.to_N b)) | [] => None end.
Lemma C59_proc_example : exists n pend sched ps out ps', gather Z odd_proc 2 n pend sched ps = (Got out, ps') /\ n = 3 /\ out = [Some 1; Some 19; Some 33].
Proof. exists 3, none_pending, [only [0; 1]; only [2; 1]], mx3. do 2 eexists. split; [vm_compute; reflexivity|]. auto. Qed.

(** a peer that closes its connection counts as an answer *)
Lemma C60_short_witness : exists len n pend sched ps out ps' i, gather bytes raw len n pend sched ps = (Got out, ps') /\
  len = 2 /\ n = 2 /\ zlen ps = 3 /\ nth_error out i = Some (Some []).
Proof.
  exists 2, 2, none_pending, [only [0; 2]], [mx [Data [x01; x02]]; mx [Data [x11; x12]]; mx []]. do 2 eexists. exists 2%nat. split; [vm_compute; reflexivity|]. repeat split.
Qed.
(** a failure report counts as an answer *)
Lemma C60_fail_witness : exists len n pend sched ps out ps', gather bytes raw len n pend sched ps = (Got out, ps') /\
  n = 2 /\ zlen ps = 3 /\ zlen (filter (fun o => match o with Some _ => true | None => false end) out) = 1.
Proof. exists 6, 2, none_pending, [only [0; 2]], [mx [Data fail_pkt]; mx []; mx [Data (zeros 6)]]. do 2 eexists. split; [vm_compute; reflexivity|]. repeat split. Qed.
(** one peer that sends half a message and stops makes the call fail although two others answer *)
Lemma C60_stall_witness : exists len n pend sched ps ps', gather bytes raw len n pend sched ps = (Raised, ps') /\
  n = 2 /\ zlen ps = 3 /\ Exists (fun r => r 1 = true /\ r 2 = true) sched /\ (forall i p, (1 <= i)%nat -> nth_error ps i = Some p -> delivers len p).
Proof.
  exists 2, 2, none_pending, [only [0; 1; 2]], [mx [Data [x01]; Stall]; mx [Data [x11; x12]]; mx [Data [x21; x22]]]. eexists.
  split; [vm_compute; reflexivity|]. split; [reflexivity|]. split; [reflexivity|]. split; [constructor; split; reflexivity|].
  intros [|[|[|i]]] p Hi H; [lia| | |destruct i; discriminate]; injection H as <-; (split; [reflexivity|]); (split; [reflexivity|]); do 2 eexists; (split; [vm_compute; reflexivity|]); split; [reflexivity|discriminate|reflexivity|discriminate].
Qed.
(** two of three: the third says nothing *)
Lemma C60_returns_example : exists len (G : Z -> bool) n pend sched ps, 0 < len /\ n = 2 /\ zlen ps = 3 /\
  (forall k p, nth_error ps k = Some p -> m_fd p <> NoFd /\
     (if G (Z.of_nat k) then delivers len p /\ (pend (Z.of_nat k) = len \/ Exists (fun r => r (Z.of_nat k) = true) sched)
      else pend (Z.of_nat k) <> len /\ Forall (fun r => r (Z.of_nat k) = false) sched)) /\
  n <= zlen (filter G (zrange 0 (length ps))).
Proof.
  exists 2, (only [0; 2]), 2, none_pending, [only []; only [2]; only [0]], [mx [Data [x01; x02]]; mx [Stall]; mx [Data [x21]; Data [x22]]].
  split; [lia|]. split; [reflexivity|]. split; [reflexivity|]. split; [|vm_compute; discriminate].
  intros [|[|[|k]]] p H; [| | |destruct k; discriminate]; injection H as <-; (split; [discriminate|]); cbn -[recv_all].
  - split; [split; [reflexivity|]; split; [reflexivity|]; do 2 eexists; split; [vm_compute; reflexivity|]; split; [reflexivity|discriminate]|]. right. do 2 constructor 2. constructor. reflexivity.
  - split; [discriminate|]. repeat constructor.
  - split; [split; [reflexivity|]; split; [reflexivity|]; do 2 eexists; split; [vm_compute; reflexivity|]; split; [reflexivity|discriminate]|]. right. constructor 2. constructor. reflexivity.
Qed.

(** one connection *)
Lemma C64_cert_witness : exists cs rs p, pruns cs (new_peer SSL true) = (rs, p) /\ is_connected p = true /\ m_auth p = false.
Proof. exists [PConnect true []]. do 2 eexists. split; [reflexivity|]. split; reflexivity. Qed.
Lemma C64_timeout_witness : exists cs rs p, pruns cs (new_peer SSL false) = (rs, p) /\
  cs = [PConnect true [Data [x01]; Stall; Data [x02; x03; x04]]; PRead 2; PRead 2] /\ rs = [Done true; Bytes None; Bytes (Some [x02; x03])].
Proof. do 3 eexists. split; [|split; reflexivity]. reflexivity. Qed.
Definition mx_calls : list pcall := [PConnect true [Data [x01]; Data [x02; x03; x04]]; PRead 2; PSend true [x09]; PRead 1; PRead 5; PRead 1; PClose; PRead 1; PSend true [x01]; PClose; PConnect true [Data [x05]]; PRead 1].
Lemma C64_example : exists cs rs p, pruns cs (new_peer SSL false) = (rs, p) /\ is_connected p = true /\
  rs = [Done true; Bytes (Some [x01; x02]); Done true; Bytes (Some [x03]); Bytes (Some [x04]); Bytes None; Done true; Bytes None; Done false; Done true; Done true; Bytes (Some [x05])].
Proof. exists mx_calls. do 2 eexists. split; [vm_compute; reflexivity|]. split; reflexivity. Qed.
Lemma C64_order_example : exists cs p rs p1, pruns cs p = (rs, p1) /\ undisturbed cs rs /\ got rs = [x01; x02; x03; x04].
Proof.
  exists [PRead 1; PSend true []; PRead 2; PRead 4], (mx [Data [x01; x02]; Data [x03; x04]]). do 2 eexists. split; [vm_compute; reflexivity|]. split; [|reflexivity].
  split; [repeat constructor|]. cbn. intuition discriminate.
Qed.
Lemma C64_leak_witness : exists ty cert cs rs p, pruns (cs ++ [PClose]) (new_peer ty cert) = (rs, p) /\ m_state p = Closed /\ m_fd p = OpenFd.
Proof. exists SSL, false, [PConnect true []; PClose; PConnect false []]. do 2 eexists. split; [vm_compute; reflexivity|]. split; reflexivity. Qed.
Lemma C64_close_example : exists ty cert cs rs p cs' rs' p1, pruns cs (new_peer ty cert) = (rs, p) /\ m_state p <> Closed /\ no_connect cs' /\
  pruns (PClose :: cs') p = (rs', p1) /\ In (PSend true [x01]) cs' /\ In (PRead 1) cs' /\ is_connected p = true /\ bytes_of p <> [].
Proof.
  exists SSL, false, [PConnect true [Data [x01; x02]]; PRead 1]. do 2 eexists. exists [PSend true [x01]; PRead 1; PClose]. do 2 eexists.
  split; [vm_compute; reflexivity|]. split; [discriminate|]. split; [repeat constructor|]. split; [vm_compute; reflexivity|]. split; [left; reflexivity|].
  split; [right; left; reflexivity|]. split; [reflexivity|discriminate].
Qed.
