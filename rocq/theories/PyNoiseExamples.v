(** Concrete cases for the Noise functions of the Python package. *)
From Coq Require Import ZArith Lia List Bool.
From Coq.Strings Require Import Byte.
From Verif Require Import Bytes Res Mem PyModel XkModel XkSpec XkProofs XkChannel XkSession XkRegistry XkNonces XkExamples XkNoise PyNoise PyNoiseSpec PyNoiseProofs PyNoiseUse.
Import ListNotations.
Open Scope list_scope.
Open Scope Z_scope.

(** "Carol", "Alice" *)
Definition n_carol : pystr := PStr [67; 97; 114; 111; 108].
Definition n_alice : pystr := PBytes (map zb [65; 108; 105; 99; 101]).
Definition n_auth : list (bytes * pystr) := [(pub k_c, n_carol); (pub k_a, n_alice)].
(** "payments-v1", "payments-v2" *)
Definition n_v (v : Z) : pystr := PStr [112; 97; 121; 109; 101; 110; 116; 115; 45; 118; v].
Definition n_p1 : bytes := map zb [104; 101; 108; 108; 111].
Definition n_p2 : bytes := map zb [104; 105].

Definition of_py {A} (dflt : A) (r : py A) : A := match r with Ret a => a | _ => dflt end.
Definition no_dev : xdev := mkXdev [] [] [] [] [] 0 [] 0.
Definition n_i : psession * bytes := of_py ((no_dev, None), []) (py_initiator_session toyX clear k_a (x_base toyX k_b) None None None e_a).
Definition n_r : psession * bytes := of_py ((no_dev, None), []) (py_responder_session toyX clear k_b n_auth (snd n_i) None None e_b).
Definition n_i2 : psession := fst (py_initiator_session_complete toyX clear (fst n_i) (snd n_r)).
Definition n_es : list event := [Deliver false; Send true n_p1; Deliver false; Send false n_p2; Send true []; Deliver true; Deliver false].

Example n_delivers :
  py_channel toyX clear n_es n_i2 (fst n_r) [] [] = Some [None; Some n_p1; Some n_p2; Some []].
Proof. vm_compute. reflexivity. Qed.

Definition small_list : forall (l : list Z), forallb (fun c => (0 <? c) && (c <? 1114112)) l = true -> Forall (fun c => 0 < c < 1114112) l.
Proof. intros l H. apply Forall_forall. intros c Hc. rewrite forallb_forall in H. specialize (H c Hc). apply andb_true_iff in H. destruct H as (A & B). apply Z.ltb_lt in A, B. lia. Qed.
Ltac argok := split; [vm_compute; reflexivity|first [exact I|apply small_list; vm_compute; reflexivity]].

(** the hypotheses of the theorem about honest sessions *)
Example n_hypotheses :
  zlen k_a = 32 /\ zlen k_b = 32 /\ py_pubkey toyX k_a = Ret (pub k_a) /\ py_pubkey toyX k_b = Ret (x_base toyX k_b)
  /\ arg_ok default_iname /\ arg_ok default_rname /\ arg_ok default_dst /\ arg_ok (n_v 49)
  /\ Forall (fun kn => zlen (fst kn) = 32 /\ arg_ok (snd kn)) n_auth /\ zlen n_auth < 2 ^ 32 - 2 /\ In (pub k_a) (map fst n_auth)
  /\ zlen n_es <= 2 ^ 64 - 1 /\ Forall (fun e => zlen (payload_of e) <= 4294967215) n_es /\ responder_waits n_es false.
Proof.
  split; [reflexivity|]. split; [reflexivity|]. split; [vm_compute; reflexivity|]. split; [vm_compute; reflexivity|].
  split; [argok|]. split; [argok|]. split; [argok|]. split; [argok|].
  split; [constructor; [split; [reflexivity|argok]|constructor; [split; [reflexivity|argok]|constructor]]|].
  split; [vm_compute; reflexivity|]. split; [right; left; reflexivity|].
  split; [vm_compute; discriminate|]. split; [repeat constructor; vm_compute; discriminate|].
  cbn. exact I.
Qed.

(** the responder speaks first: its call fails, and so does everything afterwards *)
Lemma responder_first_refuted :
  snd (py_send toyX clear (fst n_r) n_p2) = Raise
  /\ exists si c, py_send toyX clear n_i2 n_p1 = (si, Ret c) /\ snd (py_recv toyX clear (fst (py_send toyX clear (fst n_r) n_p2)) c) = Raise
     /\ snd (py_recv toyX clear (fst n_r) c) = Ret n_p1.
Proof. split; [vm_compute; reflexivity|]. eexists _, _. split; [vm_compute; reflexivity|]. split; vm_compute; reflexivity. Qed.

(** a register with other bytes set *)
Definition n_junk : junk := mkJunk 1 0.
Lemma abi_refuted : junk_ok n_junk /\ py_initiator_session toyX n_junk k_a (x_base toyX k_b) None None None e_a = Raise.
Proof. split; [split; cbn; lia|]. vm_compute. reflexivity. Qed.

(** ** undefined behaviour *)
Lemma get_pubkey_refuted : py_get_pubkey (snd (fst n_r)) (fst (fst n_r)) = Bad.
Proof. vm_compute. reflexivity. Qed.
Definition n_dev : xdev := of_py no_dev (py_create_device toyX default_dst default_iname k_a).
Lemma unknown_peer_refuted : exists d, py_create_session_initiator toyX n_dev 7 e_a = Ret (d, None) /\ snd (py_initiator_1st_msg toyX clear None) = Bad.
Proof. eexists. split; vm_compute; reflexivity. Qed.
Lemma known_key_refuted : exists d p, py_add_peer n_dev n_carol (pub k_c) = Ret (d, Some p) /\ py_add_peer d n_alice (pub k_c) = Ret (d, None) /\ py_get_peerid None = Bad.
Proof. eexists _, _. split; [vm_compute; reflexivity|]. split; vm_compute; reflexivity. Qed.
Lemma short_key_refuted : py_initiator_session toyX clear (firstn 16 k_a) (x_base toyX k_b) None None None e_a = Bad
  /\ py_responder_session toyX clear k_b [(firstn 16 (pub k_a), n_alice)] (snd n_i) None None e_b = Bad.
Proof. split; vm_compute; reflexivity. Qed.

(** ** who the responder talks to: a damaged message, the third message, an answer *)
Definition n_third := Eval vm_compute in of_py [] (snd (py_send toyX clear n_i2 n_p1)).
Definition n_ops : list pyop := [PRecv n_third; PRecv [x00]; PSend n_p2].
Example n_peer : exists ps' tr, py_responder_session toyX clear k_b n_auth (snd n_i) None None e_b = Ret n_r
  /\ Forall (fun o => pyop_len o < 2 ^ 32) n_ops
  /\ pyrun toyX clear n_ops (fst n_r) = (ps', tr) /\ map (fun e => match snd e with Ret _ => true | _ => false end) tr = [true; false; true]
  /\ py_get_pubkey (snd ps') (fst ps') = Ret (pub k_a).
Proof.
  eexists _, _. split; [vm_compute; reflexivity|].
  split; [unfold n_ops; constructor; [vm_compute; reflexivity|constructor; [vm_compute; reflexivity|constructor; [vm_compute; reflexivity|constructor]]]|].
  split; [vm_compute; reflexivity|]. split; vm_compute; reflexivity.
Qed.
(** after the handshake, a damaged message *)
Example n_failure : exists d s, fst (py_recv toyX clear (fst n_r) (of_py [] (snd (py_send toyX clear n_i2 n_p1)))) = (d, Some s)
  /\ in_transport s /\ snd (pystep toyX clear (PRecv [x00; x01]) (d, Some s)) = Raise.
Proof. eexists _, _. split; [vm_compute; reflexivity|]. split; vm_compute; reflexivity. Qed.

(** ** the refutations, as statements about honest sessions *)
Lemma toy_i : py_initiator_session toyX clear k_a (x_base toyX k_b) None None None e_a = Ret (fst n_i, snd n_i).
Proof. vm_compute. reflexivity. Qed.
Lemma toy_r : py_responder_session toyX clear k_b n_auth (snd n_i) None None e_b = Ret (fst n_r, snd n_r).
Proof. vm_compute. reflexivity. Qed.
Lemma toy_c : py_initiator_session_complete toyX clear (fst n_i) (snd n_r) = (n_i2, Ret tt).
Proof. vm_compute. reflexivity. Qed.
Lemma responder_first : exists X a b auth ea eb si m1 sr m2 si', xprims_ok X /\ In (x_base X a) (map fst auth)
  /\ py_initiator_session X clear a (x_base X b) None None None ea = Ret (si, m1)
  /\ py_responder_session X clear b auth m1 None None eb = Ret (sr, m2)
  /\ py_initiator_session_complete X clear si m2 = (si', Ret tt)
  /\ (exists p, snd (py_send X clear sr p) = Raise
        /\ exists q si'' c, py_send X clear si' q = (si'', Ret c) /\ snd (py_recv X clear sr c) = Ret q
             /\ snd (py_recv X clear (fst (py_send X clear sr p)) c) = Raise).
Proof.
  exists toyX, k_a, k_b, n_auth, e_a, e_b, (fst n_i), (snd n_i), (fst n_r), (snd n_r), n_i2.
  split; [exact toyX_ok|]. split; [right; left; reflexivity|]. split; [exact toy_i|]. split; [exact toy_r|]. split; [exact toy_c|].
  destruct responder_first_refuted as (F & si & c & G1 & G2 & G3). exists n_p2. split; [exact F|]. exists n_p1, si, c. split; [exact G1|]. split; [exact G3|exact G2].
Qed.
Definition n_vi : psession * bytes := of_py ((no_dev, None), []) (py_initiator_session toyX clear k_a (x_base toyX k_b) None None (Some (n_v 49)) e_a).
Definition n_vr : psession * bytes := of_py ((no_dev, None), []) (py_responder_session toyX clear k_b n_auth (snd n_vi) (Some (n_v 50)) None e_b).
Definition n_vi2 : psession := fst (py_initiator_session_complete toyX clear (fst n_vi) (snd n_vr)).
Lemma prologue_differs : exists X a b auth ea eb v w si m1 sr m2 si', xprims_ok X /\ In (x_base X a) (map fst auth) /\ v <> w
  /\ py_initiator_session X clear a (x_base X b) None None (Some (PStr v)) ea = Ret (si, m1)
  /\ py_responder_session X clear b auth m1 (Some (PStr w)) None eb = Ret (sr, m2)
  /\ py_initiator_session_complete X clear si m2 = (si', Ret tt)
  /\ exists p si'' c sr'', py_send X clear si' p = (si'', Ret c) /\ py_recv X clear sr c = (sr'', Ret p).
Proof.
  exists toyX, k_a, k_b, n_auth, e_a, e_b, [112; 97; 121; 109; 101; 110; 116; 115; 45; 118; 49], [112; 97; 121; 109; 101; 110; 116; 115; 45; 118; 50],
    (fst n_vi), (snd n_vi), (fst n_vr), (snd n_vr), n_vi2.
  split; [exact toyX_ok|]. split; [right; left; reflexivity|]. split; [intros E; discriminate E|].
  split; [vm_compute; reflexivity|]. split; [vm_compute; reflexivity|]. split; [vm_compute; reflexivity|].
  exists n_p1. eexists _, _, _. split; [vm_compute; reflexivity|]. vm_compute. reflexivity.
Qed.
Lemma abi_raises : exists X J a b e, xprims_ok X /\ junk_ok J /\ zlen a = 32 /\ zlen b = 32
  /\ py_initiator_session X J a (x_base X b) None None None e = Raise
  /\ exists ps m, py_initiator_session X clear a (x_base X b) None None None e = Ret (ps, m).
Proof.
  exists toyX, n_junk, k_a, k_b, e_a. split; [exact toyX_ok|]. split; [apply abi_refuted|]. split; [reflexivity|]. split; [reflexivity|]. split; [apply abi_refuted|].
  exists (fst n_i), (snd n_i). exact toy_i.
Qed.
Lemma low_level_undefined :
  (exists X b auth m1 eb sr m2, xprims_ok X /\ py_responder_session X clear b auth m1 None None eb = Ret (sr, m2) /\ py_get_pubkey (snd sr) (fst sr) = Bad)
  /\ (exists X d d' e, xprims_ok X /\ py_create_device X default_dst default_iname e = Ret d /\ py_create_session_initiator X d 7 e = Ret (d', None)
        /\ snd (py_initiator_1st_msg X clear None) = Bad)
  /\ (exists X d d' p key, xprims_ok X /\ py_create_device X default_dst default_iname key = Ret d /\ py_add_peer d default_rname key = Ret (d', Some p)
        /\ py_add_peer d' default_rname key = Ret (d', None) /\ py_get_peerid None = Bad)
  /\ (exists X a b e, xprims_ok X /\ zlen a = 16 /\ py_initiator_session X clear a (x_base X b) None None None e = Bad).
Proof.
  split.
  { exists toyX, k_b, n_auth, (snd n_i), e_b, (fst n_r), (snd n_r). split; [exact toyX_ok|]. split; [exact toy_r|]. exact get_pubkey_refuted. }
  split.
  { exists toyX, (of_py no_dev (py_create_device toyX default_dst default_iname e_a)). eexists. exists e_a. split; [exact toyX_ok|]. split; [vm_compute; reflexivity|].
    split; vm_compute; reflexivity. }
  split.
  { exists toyX, (of_py no_dev (py_create_device toyX default_dst default_iname k_a)). eexists _, _. exists k_a. split; [exact toyX_ok|]. split; [vm_compute; reflexivity|].
    split; [vm_compute; reflexivity|]. split; vm_compute; reflexivity. }
  exists toyX, (firstn 16 k_a), k_b, e_a. split; [exact toyX_ok|]. split; [reflexivity|]. vm_compute. reflexivity.
Qed.

Example n_safe : junk_ok clear /\ 31 <= zlen k_b /\ Forall (fun kn => 31 <= zlen (fst kn)) n_auth
  /\ py_responder_session toyX clear k_b n_auth (snd n_i) None None e_b = Ret (fst n_r, snd n_r)
  /\ map (fun e => match snd e with Ret _ => true | _ => false end) (snd (pyrun toyX clear n_ops (fst n_r))) = [true; false; true].
Proof.
  split; [split; cbn; lia|]. split; [vm_compute; discriminate|]. split; [repeat constructor; vm_compute; discriminate|]. split; [exact toy_r|]. vm_compute. reflexivity.
Qed.
