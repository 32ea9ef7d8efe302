(** Concrete cases for the theorems of PropertiesWire.v. *)
From Coq Require Import ZArith Lia List Bool Sorting.Sorted.
From Coq.Strings Require Import Byte.
From Verif Require Import Bytes Res Mem Sodium WireModel WireSpec WireHistory WireProofs.
Import ListNotations.
Open Scope list_scope.
Open Scope Z_scope.

Definition ex_sk : bytes := le_bytes 64 77.
Definition ex_pk : bytes := sig_pk toyS ex_sk.
Definition ex_sid : bytes := le_bytes 32 4711.

(** a message of 113 bytes from peer 2 to the trusted party, body "OK" *)
Definition ex_msg (body : bytes) (ts : Z) : bytes :=
  let hd := header 9 113 2 255 ts ex_sid in message (sig_sign toyS ex_sk hd) hd body.
(** the same with a wrong signature *)
Definition ex_forged (body : bytes) (ts : Z) : bytes :=
  message (zeros 64) (header 9 113 2 255 ts ex_sid) body.
Definition ex_recv (m : bytes) (eps last now : Z) := recv_msg toyS m 0 113 9 2 255 ex_pk ex_sid eps last now.

Lemma C24_example : exists S (buf : bytes) off len msgno from to (sid : bytes) now,
  sigs_ok S /\ 0 <= off /\ 111 <= len < 2 ^ 32 /\ off + len <= zlen buf /\
  is_byte msgno /\ is_byte from /\ is_byte to /\ zlen sid = 32 /\ is_u64 now /\ fresh 3600 0 now (now + 5) /\ 0 < off /\ 111 < len.
Proof.
  exists toyS, (zeros 200), 40, 150, 9, 2, 255, ex_sid, 1700000000.
  split; [exact toyS_ok|]. unfold is_byte, is_u64, fresh, zlen. rewrite zeros_length.
  assert (length ex_sid = 32%nat) as -> by apply le_bytes_length. cbn [Z.eqb]. rewrite !Z.mod_small by lia. lia.
Qed.

Lemma C25_example : exists m, rd m 0 113 = Ok m /\ ex_recv m 3600 0 1700000000 = Ok (0, 1700000000) /\
  ex_recv (ex_forged [x00; x00] 1700000000) 3600 0 1700000000 = Ok (6, 1700000000).
Proof. exists (ex_msg [x4f; x4b] 1700000000). vm_compute. auto. Qed.

Lemma C26_refutation : exists S sk sig hd body body' last',
  sigs_ok S /\ body <> body' /\
  recv_msg S (message sig hd body) 0 113 9 2 255 (sig_pk S sk) ex_sid 3600 0 1700000000 = Ok (0, last') /\
  recv_msg S (message sig hd body') 0 113 9 2 255 (sig_pk S sk) ex_sid 3600 0 1700000000 = Ok (0, last').
Proof.
  exists toyS, ex_sk, (sig_sign toyS ex_sk (header 9 113 2 255 1700000000 ex_sid)), (header 9 113 2 255 1700000000 ex_sid),
    [x4f; x4b], [x4e; x4f], 1700000000.
  split; [exact toyS_ok|]. split; [discriminate|]. vm_compute. auto.
Qed.

Lemma C26_example : exists sig hd body body' : bytes,
  zlen sig = 64 /\ zlen hd = 47 /\ zlen body' = zlen body /\ body <> body' /\ 113 = 111 + zlen body.
Proof.
  exists (zeros 64), (zeros 47), [x4f; x4b], [x4e; x4f]. repeat split; try discriminate.
Qed.

(** a signature scheme in which exactly one header verifies *)
Definition ex_oneS : sigs := {|
  sig_pk := fun sk => le_bytes 32 (of_le sk);
  sig_sign := fun sk m => zeros 64;
  sig_verify := fun pk m s => bytes_eqb m (header 9 113 2 255 1700000000 ex_sid)
|}.
Lemma C26_partial_example : exists S (signed : bytes -> Prop) m,
  (forall h s, sig_verify S ex_pk h s = true -> signed h) /\ rd m 0 113 = Ok m /\
  recv_msg S m 0 113 9 2 255 ex_pk ex_sid 3600 0 1700000000 = Ok (0, 1700000000) /\
  ~ signed (header 9 113 3 255 1700000000 ex_sid).
Proof.
  exists ex_oneS, (fun h => h = header 9 113 2 255 1700000000 ex_sid), (ex_msg [x4f; x4b] 1700000000).
  split; [intros h s H; apply bytes_eqb_eq; exact H|]. split; [vm_compute; reflexivity|].
  split; [vm_compute; reflexivity|]. vm_compute. discriminate.
Qed.

Definition ex_arrival (m : bytes) : arrival := mkArrival m 0 113 9 2 255 ex_pk ex_sid 1700000000.
Definition ex_hist : list arrival := map ex_arrival [ex_msg [x4f; x4b] 1700000000; ex_msg [x4f; x4b] 1699999999; ex_msg [x4e; x4f] 1700003600].

Lemma C27_example : exists outs, recv_history toyS 3600 0 ex_hist = Ok outs /\ Forall arrival_ok ex_hist /\
  accepted outs = [1700000000; 1700003600] /\ Forall (fun o => fst o <> 6) outs /\ Forall (fun ts => 0 < ts) (accepted outs).
Proof.
  exists [(0, 1700000000); (5, 1699999999); (0, 1700003600)].
  split; [vm_compute; reflexivity|]. split; [|split; [reflexivity|]].
  - unfold ex_hist. cbn [map]. repeat constructor; vm_compute; congruence.
  - split; repeat constructor; cbn; discriminate.
Qed.

(** a forged message in between moves the window *)
Lemma C27_refutation : exists S window l outs a b,
  sigs_ok S /\ 0 < window /\ Forall arrival_ok l /\ recv_history S window 0 l = Ok outs /\
  accepted outs = [a; b] /\ 0 < a /\ window < b - a.
Proof.
  exists toyS, 3600, (map ex_arrival [ex_msg [x4f; x4b] 1700000000; ex_forged [x4f; x4b] 1700003600; ex_msg [x4e; x4f] 1700007200]),
    [(0, 1700000000); (6, 1700003600); (0, 1700007200)], 1700000000, 1700007200.
  split; [exact toyS_ok|]. split; [lia|]. split; [cbn [map]; repeat constructor; vm_compute; congruence|].
  split; [vm_compute; reflexivity|]. split; [reflexivity|]. lia.
Qed.

(** a forged message makes a later genuine one be rejected *)
Lemma C28_refutation : exists S window forged genuine recorded',
  sigs_ok S /\
  let recv := fun m recorded => recv_msg S m 0 113 9 2 255 ex_pk ex_sid window recorded 1700000000 in
  recv forged 1700000000 = Ok (6, recorded') /\ recorded' <> 1700000000 /\
  recv genuine 1700000000 = Ok (0, 1700000010) /\ recv genuine recorded' = Ok (5, recorded').
Proof.
  exists toyS, 3600, (ex_forged [x4f; x4b] 1700003600), (ex_msg [x4f; x4b] 1700000010), 1700003600.
  split; [exact toyS_ok|]. split; [vm_compute; reflexivity|]. split; [discriminate|]. split; vm_compute; reflexivity.
Qed.

Lemma C28_example : exists m r, rd m 0 113 = Ok m /\ ex_recv m 3600 1700000000 1700000000 = Ok (r, 1700000000) /\ r = 5.
Proof. exists (ex_msg [x4f; x4b] 1699999999), 5. vm_compute. auto. Qed.

Lemma C40_example : exists ms1 ms2 : list bytes,
  Forall (fun m => zlen m < 2 ^ 32) ms1 /\ Forall (fun m => zlen m < 2 ^ 32) ms2 /\ concat ms1 = concat ms2 /\ ms1 <> ms2.
Proof. exists [[x01]; [x02]], [[x01; x02]]. repeat split; repeat constructor. discriminate. Qed.
