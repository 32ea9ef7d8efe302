(** Concrete cases for the theorems about the Noise XK library: toy primitives that meet the laws,
    two devices, a handshake, a channel, a registry. *)
From Coq Require Import ZArith Lia List Bool.
From Coq.Strings Require Import Byte.
From Verif Require Import Bytes Res Mem XkModel XkSpec XkProofs XkChannel XkSession XkRegistry XkNonces.
Import ListNotations.
Open Scope list_scope.
Open Scope Z_scope.

(** ** toy primitives *)
Definition toy_sum (l : bytes) : Z := fold_left (fun a b => Z.land (a * 31 + bz b + 7) 65535) l 1.
Definition toy_tag (k n a p : bytes) : bytes := le_bytes 16 (toy_sum k + 65536 * toy_sum n + 16777216 * toy_sum a + 4294967296 * toy_sum p).
Definition toyX : xprims := mkX
  (fun a => le_bytes 32 (3 * of_le a))
  (fun a q => Some (le_bytes 32 (of_le a * of_le q)))
  (fun k n a p => p ++ toy_tag k n a p)
  (fun k n a c =>
     let p := firstn (length c - 16) c in
     if (16 <=? zlen c) && bytes_eqb (skipn (length c - 16) c) (toy_tag k n a p) then Some p else None)
  (fun m => le_bytes 64 (toy_sum m)).

Lemma le32_mod a b : a mod 256 ^ 32 = b mod 256 ^ 32 -> le_bytes 32 a = le_bytes 32 b.
Proof. intros H. apply of_le_inj; [rewrite !le_bytes_length; reflexivity|]. rewrite !of_le_le_bytes. exact H. Qed.
Lemma toy_tag_len k n a p : length (toy_tag k n a p) = 16%nat.
Proof. apply le_bytes_length. Qed.
Lemma toyX_ok : xprims_ok toyX.
Proof.
  constructor; cbn [x_base x_dh x_seal x_open x_hash toyX].
  - intros a. unfold zlen. rewrite le_bytes_length. reflexivity.
  - intros a b. eexists. split; [reflexivity|]. f_equal. apply le32_mod. rewrite !of_le_le_bytes.
    change (256 ^ Z.of_nat 32) with (256 ^ 32). rewrite !Z.mul_mod_idemp_r by (intros Z0; discriminate). f_equal. lia.
  - intros k n a p. rewrite zlen_app. unfold zlen at 2. rewrite toy_tag_len. reflexivity.
  - intros k n a p. rewrite app_length, toy_tag_len. replace (length p + 16 - 16)%nat with (length p) by lia.
    rewrite firstn_app, Nat.sub_diag, firstn_all, firstn_O, app_nil_r.
    rewrite skipn_app, Nat.sub_diag, skipn_all, skipn_O. cbn [app]. rewrite bytes_eqb_refl, zlen_app.
    unfold zlen at 2. rewrite toy_tag_len. replace (16 <=? zlen p + Z.of_nat 16) with true; [reflexivity|].
    symmetry. apply Z.leb_le. unfold zlen. lia.
  - intros k n a c p. destruct (Z.leb_spec 16 (zlen c)) as [L|L]; cbn [andb]; [|discriminate].
    destruct (bytes_eqb _ _); [|discriminate]. intros E. injection E as <-. unfold zlen in *. rewrite firstn_length. lia.
  - intros m. unfold zlen. rewrite le_bytes_length. reflexivity.
Qed.

(** ** two devices that know each other *)
Definition k_a : bytes := le_bytes 32 11111111111.
Definition k_b : bytes := le_bytes 32 22222222222.
Definition k_c : bytes := le_bytes 32 33333333333.
Definition e_a : bytes := le_bytes 32 77777.
Definition e_b : bytes := le_bytes 32 99999.
Definition pub (k : bytes) : bytes := x_base toyX k.
Definition fst_dev (r : option (xdev * xpeer)) : xdev := match r with Some (d, _) => d | None => mkXdev [] [] [] [] [] 0 [] 0 end.
Definition dev (k : bytes) : xdev := mkXdev [x44] (le_bytes 32 5) k (pub k) [x70; x72] 1 [] 1.
Definition with_peers (k : bytes) (l : list (bytes * bytes)) : xdev :=
  fold_left (fun d p => fst_dev (device_add_peer d (fst p) (snd p))) l (dev k).
(** the initiator knows two peers; the responder three *)
Definition d_a : xdev := with_peers k_a [([x43], pub k_c); ([x42], pub k_b)].
Definition d_b : xdev := with_peers k_b [([x43], pub k_c); ([x41], pub k_a); ([x44], le_bytes 32 4)].
Definition some_s (r : option (xdev * xsess)) : xdev * xsess :=
  match r with Some p => p | None => (dev [], mkXsess true (Transport (mkTr [] true [] 0 [] 0)) 0 0 []) end.
Definition s_a : xsess := snd (some_s (session_create_initiator toyX d_a 2 e_a)).
Definition s_b : xsess := snd (some_s (session_create_responder toyX d_b e_b)).
Lemma a_created : session_create_initiator toyX d_a 2 e_a = Some (count_session d_a, s_a).
Proof. vm_compute. reflexivity. Qed.
Lemma b_created : session_create_responder toyX d_b e_b = Some (count_session d_b, s_b).
Proof. vm_compute. reflexivity. Qed.
Lemma ab_honest : honest_pair toyX d_a d_b 2 (mkXpeer 2 [x42] (pub k_b)) (mkXpeer 2 [x41] (pub k_a)).
Proof. unfold honest_pair. vm_compute. repeat split. Qed.

(** ** the whole conversation: three handshake messages with payloads, then messages both ways, one of
    them out of turn, one of them damaged, one repeated *)
Definition msg (r : gout) : bytes := match r with GMessage c => c | _ => [] end.
Definition bad (c : bytes) : bytes := match c with b :: l => zb (Z.lxor (bz b) 1) :: l | [] => [] end.
Definition st1 (r : xsess * rcode * gout) : xsess := fst (fst r).
Definition out1 (r : xsess * rcode * gout) : bytes := msg (snd r).
Definition w (s : xsess) (p : bytes) := gstep toyX (GWrite (pack_message_with_conf_level 0 p)) s.
Definition m1 : bytes := Eval vm_compute in out1 (w s_a [x01]).
Definition a1 : xsess := Eval vm_compute in st1 (w s_a [x01]).
Definition b1 : xsess := Eval vm_compute in st1 (gstep toyX (GRead d_b m1) s_b).
Definition m2 : bytes := Eval vm_compute in out1 (w b1 [x02; x02]).
Definition b2 : xsess := Eval vm_compute in st1 (w b1 [x02; x02]).
Definition a2 : xsess := Eval vm_compute in st1 (gstep toyX (GRead d_a m2) a1).
Definition m3 : bytes := Eval vm_compute in out1 (w a2 []).
Definition a3 : xsess := Eval vm_compute in st1 (w a2 []).
Definition b3 : xsess := Eval vm_compute in st1 (gstep toyX (GRead d_b m3) b2).
Definition m4 : bytes := Eval vm_compute in out1 (w a3 [x04]).
Definition a4 : xsess := Eval vm_compute in st1 (w a3 [x04]).
Definition m5 : bytes := Eval vm_compute in out1 (w a4 [x05; x05]).

(** the initiator: reads out of turn (refused), writes, reads, writes twice *)
Definition ops_a : list gop :=
  [GRead d_a m2; GWrite (pack_message_with_conf_level 2 [x01]); GRead d_a m2; GWrite (pack_message []);
   GWrite (pack_message [x04]); GRead d_a [x00]; GWrite (pack_message [x05; x05])].
(** the responder: reads, writes, reads; then a damaged message, the right one, the same one again, the next *)
Definition ops_b : list gop :=
  [GRead d_b m1; GWrite (pack_message_with_conf_level 1 [x02; x02]); GRead d_b m3;
   GRead d_b (bad m4); GRead d_b m4; GRead d_b m4; GRead d_b m5].
Definition run_a := grun toyX ops_a s_a.
Definition run_b := grun toyX ops_b s_b.
Definition codes (l : list (gop * rcode * gout)) : list (rcode * bytes) :=
  map (fun e => (snd (fst e), match snd e with GMessage c => c | GPayload p => em_msg p | GNothing => [] end)) l.
Lemma a_run : codes (snd run_a) =
  [(RError CIncorrect_transition, []); (RSuccess, m1); (RSuccess, [x02; x02]); (RSuccess, m3); (RSuccess, m4); (RError CInput_size, []); (RSuccess, m5)]
  /\ session_get_status (fst run_a) = Transport_status /\ session_get_peer_id (fst run_a) = 2.
Proof. vm_compute. repeat split. Qed.
Lemma b_run : codes (snd run_b) =
  [(RSuccess, [x01]); (RSuccess, m2); (RSuccess, []); (RError CDecrypt_error, []); (RSuccess, [x04]); (RError CDecrypt_error, []); (RSuccess, [x05; x05])]
  /\ session_get_status (fst run_b) = Transport_status /\ session_get_peer_id (fst run_b) = 2.
Proof. vm_compute. repeat split. Qed.
Lemma ops_a_ok : Forall gop_ok ops_a.
Proof. repeat constructor. Qed.
Lemma ops_b_ok : Forall gop_ok ops_b.
Proof. repeat constructor. Qed.

(** C65: the conversation as requests of the specification *)
Definition xops_a : list xop := [ORead d_a m2; OWrite [x01]; OHash; ORead d_a m2; OWrite []; OWrite [x04]; OHash].
Definition xops_b : list xop := [ORead d_b m1; OWrite [x02; x02]; ORead d_b m3; ORead d_b (bad m4); ORead d_b m4; OHash].
Lemma x_a : answers (mstep toyX) xops_a s_a = [None; Some m1; None; Some [x02; x02]; Some m3; Some m4; Some (session_get_hash a3)].
Proof. vm_compute. reflexivity. Qed.
Lemma x_b : answers (mstep toyX) xops_b s_b = [Some [x01]; Some m2; Some []; None; Some [x04]; Some (session_get_hash a3)].
Proof. vm_compute. reflexivity. Qed.
Lemma b_keys_32 : Forall (fun q => zlen (p_s q) = 32) (d_peers d_b) /\ Forall (fun q => zlen (p_s q) = 32) (d_peers d_a).
Proof. split; vm_compute; repeat constructor. Qed.
Lemma xops_ok : Forall op_ok xops_a /\ Forall op_ok xops_b.
Proof.
  destruct b_keys_32 as [Kb Ka].
  assert (L : forall m d, Forall (fun q => zlen (p_s q) = 32) (d_peers d) -> (zlen m <=? 1000) = true -> op_ok (ORead d m)).
  { intros m d K L. apply Z.leb_le in L. split; [lia|exact K]. }
  split; repeat apply Forall_cons; try apply Forall_nil; try (apply L; [assumption|vm_compute; reflexivity]); reflexivity || exact I.
Qed.
Lemma C65_witness : exists d pid e d' s peer ops, lookup_peer_by_id d pid = Some peer /\ session_create_initiator toyX d pid e = Some (d', s) /\ Forall op_ok ops
  /\ answers (mstep toyX) ops s = [None; Some m1; None; Some [x02; x02]; Some m3; Some m4; Some (session_get_hash a3)].
Proof.
  exists d_a, 2, e_a, (count_session d_a), s_a, (mkXpeer 2 [x42] (pub k_b)), xops_a.
  split; [vm_compute; reflexivity|]. split; [exact a_created|]. split; [exact (proj1 xops_ok)|exact x_a].
Qed.
Lemma C65_responder_witness : exists d e d' s ops, session_create_responder toyX d e = Some (d', s) /\ Forall op_ok ops
  /\ answers (mstep toyX) ops s = [Some [x01]; Some m2; Some []; None; Some [x04]; Some (session_get_hash a3)].
Proof.
  exists d_b, e_b, (count_session d_b), s_b, xops_b. split; [exact b_created|]. split; [exact (proj2 xops_ok)|exact x_b].
Qed.

(** C66 *)
Lemma C66_witness : exists di dr pid peer entry ei er di' dr' si sr,
  honest_pair toyX di dr pid peer entry /\ session_create_initiator toyX di pid ei = Some (di', si) /\ session_create_responder toyX dr er = Some (dr', sr)
  /\ queues [Send true [x01]; Send false [x02]; Send true [x03]; Deliver false; Deliver true; Deliver true; Deliver false] [] []
     = [Some [x01]; Some [x02]; None; Some [x03]].
Proof.
  exists d_a, d_b, 2, (mkXpeer 2 [x42] (pub k_b)), (mkXpeer 2 [x41] (pub k_a)), e_a, e_b, (count_session d_a), (count_session d_b), s_a, s_b.
  split; [exact ab_honest|]. split; [exact a_created|]. split; [exact b_created|reflexivity].
Qed.

(** C67 *)
Lemma C67_witness : exists d e d' s0 ops s trc, session_create_responder toyX d e = Some (d', s0) /\ Forall gop_ok ops /\ grun toyX ops s0 = (s, trc)
  /\ in_transport s /\ session_get_peer_id s = 2 /\ zlen (d_peers d) = 3.
Proof.
  exists d_b, e_b, (count_session d_b), s_b, ops_b, (fst run_b), (snd run_b).
  split; [exact b_created|]. split; [exact ops_b_ok|]. split; [unfold run_b; destruct (grun toyX ops_b s_b); reflexivity|].
  destruct b_run as (_ & A & B). split; [exact A|]. split; [exact B|reflexivity].
Qed.
(** an initiator that the responder does not know is refused *)
Definition d_c : xdev := with_peers k_b [([x43], pub k_c)].
Lemma C67_unknown_refused : exists e d' s0, session_create_responder toyX d_c e = Some (d', s0)
  /\ codes (snd (grun toyX [GRead d_c m1; GWrite (pack_message_with_conf_level 1 [x02; x02]); GRead d_c m3] s0))
     = [(RSuccess, [x01]); (RSuccess, m2); (RStuck CRs_rejected_by_policy, [])].
Proof.
  exists e_b, (count_session d_c), (snd (some_s (session_create_responder toyX d_c e_b))). split; vm_compute; reflexivity.
Qed.
(** someone who does not hold the secret key of a registered peer sends that peer's public key *)
Definition d_e : xdev := mkXdev [x45] (le_bytes 32 5) k_c (pub k_a) [x70; x72] 1 (d_peers d_a) 3.
Definition s_e : xsess := snd (some_s (session_create_initiator toyX d_e 2 e_a)).
Definition e1 : bytes := Eval vm_compute in out1 (w s_e []).
Definition e2 : bytes := Eval vm_compute in out1 (w (st1 (gstep toyX (GRead d_b e1) s_b)) []).
Definition e3 : bytes := Eval vm_compute in out1 (w (st1 (gstep toyX (GRead d_e e2) (st1 (w s_e [])))) []).
Lemma C67_forged : exists s trc, x_base toyX (d_spriv d_e) <> d_spub d_e /\ session_create_responder toyX d_b e_b = Some (count_session d_b, s_b)
  /\ grun toyX [GRead d_b e1; GWrite (pack_message []); GRead d_b e3] s_b = (s, trc)
  /\ codes trc = [(RSuccess, []); (RSuccess, e2); (RStuck CDecrypt_error, [])]
  /\ lookup_peer_by_static d_b (d_spub d_e) = Some (mkXpeer 2 [x41] (pub k_a)) /\ s_pinfo s = [x41] /\ session_get_peer_info s = None.
Proof.
  eexists. eexists. split; [vm_compute; discriminate|]. split; [exact b_created|]. split; [apply surjective_pairing|].
  split; [vm_compute; reflexivity|]. repeat split; vm_compute; reflexivity.
Qed.

(** C68: a session that waits for a message, asked to write *)
Lemma b_session_of : session_of toyX s_b.
Proof. exists d_b, 0, e_b, (count_session d_b), s_b, [], []. split; [left; exact b_created|]. split; [constructor|reflexivity]. Qed.
Lemma s_b_alive : ~ dead toyX s_b.
Proof. intros D. specialize (D (GRead d_b m1)). assert (Ok : gop_ok (GRead d_b m1)) by reflexivity. specialize (D Ok). vm_compute in D. discriminate. Qed.
Lemma C68_refuted_witness : exists s m s', session_of toyX s /\ ~ dead toyX s /\ session_get_status s = Handshake_read /\ zlen (em_msg m) = 1
  /\ gstep toyX (GWrite m) s = (s', RStuck CIncorrect_transition, GNothing) /\ dead toyX s'.
Proof.
  destruct (write_out_of_turn toyX s_b (pack_message_with_conf_level 0 [x01]) b_session_of s_b_alive) as (s' & G & D).
  - vm_compute. reflexivity.
  - vm_compute. discriminate.
  - right. reflexivity.
  - exists s_b, (pack_message_with_conf_level 0 [x01]), s'. split; [exact b_session_of|]. split; [exact s_b_alive|].
    split; [vm_compute; reflexivity|]. split; [reflexivity|]. split; [exact G|exact D].
Qed.
Lemma C68_stuck_witness : exists s o s' e r, session_of toyX s /\ gop_ok o /\ gstep toyX o s = (s', RStuck e, r) /\ e = CDecrypt_error.
Proof.
  exists s_b, (GRead d_b (bad m1)). eexists. exists CDecrypt_error, GNothing. split; [exact b_session_of|]. split; [reflexivity|].
  split; [vm_compute; reflexivity|reflexivity].
Qed.
Lemma C68_error_witness : exists s o e, session_of toyX s /\ gop_ok o /\ in_transport s /\ gstep toyX o s = (s, RError e, GNothing) /\ e = CDecrypt_error.
Proof.
  exists b3, (GRead d_b (bad m4)), CDecrypt_error. split; [|split; [reflexivity|split; [vm_compute; reflexivity|split; [vm_compute; reflexivity|reflexivity]]]].
  exists d_b, 0, e_b, (count_session d_b), s_b, (firstn 3 ops_b), (snd (grun toyX (firstn 3 ops_b) s_b)).
  split; [left; exact b_created|]. split; [repeat constructor|]. vm_compute. reflexivity.
Qed.

(** C69 *)
Lemma C69_witness : exists d pid e d' s0 ops s trc, session_create_initiator toyX d pid e = Some (d', s0) /\ Forall gop_ok ops /\ grun toyX ops s0 = (s, trc)
  /\ in_transport s /\ skipn 2 (sent trc) = [([x04], m4); ([x05; x05], m5)].
Proof.
  exists d_a, 2, e_a, (count_session d_a), s_a, ops_a, (fst run_a), (snd run_a).
  split; [exact a_created|]. split; [exact ops_a_ok|]. split; [unfold run_a; destruct (grun toyX ops_a s_a); reflexivity|].
  destruct a_run as (_ & A & _). split; [exact A|]. vm_compute. reflexivity.
Qed.
Lemma C69_damaged_witness : exists s ops s' trc, in_transport s /\ Forall gop_ok ops /\ grun toyX ops s = (s', trc)
  /\ map (fun e => succeeded e) trc = [false; true; false; true].
Proof.
  exists b3, (skipn 3 ops_b). eexists. eexists. split; [vm_compute; reflexivity|]. split; [repeat constructor|].
  split; [vm_compute; reflexivity|]. vm_compute. reflexivity.
Qed.

(** C70: a key is registered, registered again (refused), removed, registered again: a new number *)
Definition r_ops : list rop :=
  [RAdd [x43] (pub k_c); RAdd [x41] (pub k_a); RAdd [x45] (pub k_c); RSession 2 e_a; RRemove 1; RRemove 7; RAdd [x45] (pub k_c); RSession 1 e_a].
Definition r_dev : xdev := mkXdev [x44] (le_bytes 32 5) k_b (pub k_b) [x70; x72] 1 [] 1.
Lemma C70_witness : exists prologue info sk spriv d0 ops d tr,
  device_create toyX prologue info sk spriv = Some d0 /\ Forall rop_ok ops /\ rrun toyX ops d0 = (d, tr)
  /\ map (fun e => match snd e with Some p => p_id p | None => 0 end) tr = [1; 2; 0; 0; 0; 0; 3; 0]
  /\ map p_id (d_peers d) = [3; 2] /\ lookup_peer_by_static d (pub k_c) = Some (mkXpeer 3 [x45] (pub k_c)).
Proof.
  exists [x70; x72], [x44], (le_bytes 32 5), k_b, r_dev, r_ops, (fst (rrun toyX r_ops r_dev)), (snd (rrun toyX r_ops r_dev)).
  split; [vm_compute; reflexivity|]. split; [repeat constructor|].
  split; [destruct (rrun toyX r_ops r_dev); reflexivity|]. split; [vm_compute; reflexivity|]. split; vm_compute; reflexivity.
Qed.
Lemma C70_add_witness : exists d name key d' p, device_of toyX d /\ zlen key = 32 /\ device_add_peer d name key = Some (d', p) /\ p_id p = 4.
Proof.
  exists (fst (rrun toyX r_ops r_dev)), [x46], (le_bytes 32 44). eexists. eexists.
  split; [|split; [reflexivity|split; [vm_compute; reflexivity|reflexivity]]].
  exists [x70; x72], [x44], (le_bytes 32 5), k_b, r_dev, r_ops, (snd (rrun toyX r_ops r_dev)).
  split; [vm_compute; reflexivity|]. split; [repeat constructor|]. destruct (rrun toyX r_ops r_dev); reflexivity.
Qed.

(** C71 *)
Definition n8 : bytes := le_bytes 8 123456789.
Lemma C71_witness : zlen n8 = 8 /\ zlen (d_spriv d_a) = 32 /\ d_spub d_a = x_base toyX (d_spriv d_a)
  /\ (exists p, In p (d_peers d_a) /\ zlen (p_s p) = 32
       /\ device_add_peer (dev k_c) (p_info p) (p_s p) = Some (with_peers k_c [(p_info p, p_s p)], mkXpeer 1 (p_info p) (p_s p)))
  /\ device_create_from_secret toyX [] [x44] (le_bytes 32 5) (bad (serialize_device_secret toyX d_a n8)) = None.
Proof.
  split; [reflexivity|]. split; [reflexivity|]. split; [reflexivity|]. split; [|vm_compute; reflexivity].
  exists (mkXpeer 2 [x42] (pub k_b)). split; [vm_compute; left; reflexivity|]. split; [reflexivity|vm_compute; reflexivity].
Qed.

(** C72: the four requests for a level at the first two messages *)
Lemma C72_witness : gstep toyX (GWrite (pack_message_with_conf_level 1 [x01])) s_a = (s_a, RError CSecurity_level, GNothing)
  /\ gstep toyX (GWrite (pack_message_with_conf_level 3 [x01])) s_a = (s_a, RError CSecurity_level, GNothing)
  /\ snd (gstep toyX (GWrite (pack_message_with_conf_level 2 [x01])) s_a) = GMessage m1
  /\ snd (gstep toyX (GWrite (pack_message_with_conf_level 1 [x02; x02])) b1) = GMessage m2
  /\ gstep toyX (GWrite (pack_message_with_conf_level 2 [x02; x02])) b1 = (b1, RError CSecurity_level, GNothing).
Proof. vm_compute. repeat split. Qed.
Lemma C72_lengths_witness : exists d pid e d' s0 ops s trc, zlen (d_spub d) = 32 /\ session_create_initiator toyX d pid e = Some (d', s0)
  /\ Forall gop_ok ops /\ grun toyX ops s0 = (s, trc) /\ length (filter succeeded trc) = 5%nat /\ ~ dead toyX s.
Proof.
  exists d_a, 2, e_a, (count_session d_a), s_a, ops_a, (fst run_a), (snd run_a).
  split; [reflexivity|]. split; [exact a_created|]. split; [exact ops_a_ok|]. split; [unfold run_a; destruct (grun toyX ops_a s_a); reflexivity|].
  split; [vm_compute; reflexivity|]. intros D. specialize (D (GWrite (pack_message [])) eq_refl). vm_compute in D. discriminate.
Qed.
