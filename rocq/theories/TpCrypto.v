(** The primitives used by /repo/src/tp-dkg.c besides ristretto, hashing and signatures: the
    Noise XK secure channel (src/noise_xk) as tp-dkg.c uses it, its AEAD and the HMAC of libsodium.
    The channel is an interface with laws; XkNoise.v derives the interface from the model of the
    library and proves the laws. *)
From Coq Require Import ZArith Lia List Bool.
From Coq.Strings Require Import Byte.
From Verif Require Import Bytes Res Mem Sodium.
Import ListNotations.
Open Scope list_scope.
Open Scope Z_scope.

(** Noise XK.  tp-dkg registers all remote static keys (step 5) before it creates responder
    sessions (step 7) and registers none later, so a session may be taken to hold a copy of the
    device it was created from.  Random values are arguments.  Payloads are returned as byte
    strings; reading and unpacking a message is one operation. *)
Record noise : Type := mkNoise {
  nz_dev : Type;
  nz_sess : Type;
  nz_pk : bytes -> bytes;                                  (* X25519 public key of a secret key *)
  nz_create : Z -> bytes -> option nz_dev;                 (* Noise_XK_device_create: own index, static secret key *)
  nz_static : nz_dev -> bytes;                             (* the static secret key of a device *)
  nz_peers : nz_dev -> list (Z * bytes);                   (* registered peers: id, static public key *)
  nz_add_peer : nz_dev -> Z -> bytes -> option (nz_dev * Z);  (* Noise_XK_device_add_peer: name, key; NULL on failure *)
  nz_initiator : nz_dev -> Z -> bytes -> option nz_sess;   (* Noise_XK_session_create_initiator: peer id *)
  nz_responder : nz_dev -> bytes -> option nz_sess;        (* Noise_XK_session_create_responder *)
  nz_write : nz_sess -> bytes -> nz_sess * option bytes;   (* Noise_XK_session_write *)
  nz_read : nz_sess -> bytes -> nz_sess * option bytes;    (* Noise_XK_session_read and unpack *)
  nz_key : nz_sess -> option bytes;                        (* src/tp-dkg.c:358-365; None = NULL *)
  nz_peer_known : nz_dev -> nz_sess -> bool;               (* lookup for logging, src/tp-dkg.c:250-262 *)
  nz_aead_decrypt : bytes -> bytes -> option bytes         (* Noise_XK_aead_decrypt with nonce 0: key, ciphertext and tag *)
}.

(** A device as tp-dkg makes them: created, then peers registered. *)
Inductive nz_reach (N : noise) : nz_dev N -> Prop :=
  | reach_create i sk d : nz_create N i sk = Some d -> nz_reach N d
  | reach_add d name pk d' id : nz_reach N d -> zlen pk = 32 -> nz_add_peer N d name pk = Some (d', id) -> nz_reach N d'.

(** What an honest pair of sessions does. *)
Record noise_ok (N : noise) : Prop := mkNoiseOk {
  ok_nz_pk_len : forall sk, zlen (nz_pk N sk) = 32;
  ok_nz_create : forall i sk, exists d, nz_create N i sk = Some d /\ nz_static N d = sk /\ nz_peers N d = [];
  ok_nz_add : forall d name pk, nz_reach N d -> zlen pk = 32 -> zlen (nz_peers N d) < 2 ^ 32 - 2 -> ~ In pk (map snd (nz_peers N d)) ->
    exists d' id, nz_add_peer N d name pk = Some (d', id) /\ nz_static N d' = nz_static N d /\
      nz_peers N d' = nz_peers N d ++ [(id, pk)];
  ok_nz_added : forall d name pk d' id, nz_reach N d -> nz_add_peer N d name pk = Some (d', id) ->
    nz_static N d' = nz_static N d /\ nz_peers N d' = nz_peers N d ++ [(id, pk)];
  ok_nz_ids : forall d name pk d' id, nz_reach N d -> nz_add_peer N d name pk = Some (d', id) -> ~ In id (map fst (nz_peers N d));
  (* initiator on device [da], responder on device [db], each knowing the other's key *)
  ok_nz_chain : forall da db id r1 r2 p, nz_reach N da -> nz_reach N db -> zlen p <= 1024 ->
    In (id, nz_pk N (nz_static N db)) (nz_peers N da) -> NoDup (map fst (nz_peers N da)) ->
    In (nz_pk N (nz_static N da)) (map snd (nz_peers N db)) ->
    exists si si1 si2 si3 si4 sr sr1 sr2 sr3 sr4 m1 m2 m3 c k,
      nz_initiator N da id r1 = Some si /\
      nz_write N si [] = (si1, Some m1) /\ zlen m1 = 48 /\
      nz_responder N db r2 = Some sr /\
      nz_read N sr m1 = (sr1, Some []) /\
      nz_write N sr1 [] = (sr2, Some m2) /\ zlen m2 = 48 /\
      nz_read N si1 m2 = (si2, Some []) /\
      nz_write N si2 [] = (si3, Some m3) /\ zlen m3 = 64 /\
      nz_write N si3 p = (si4, Some c) /\ zlen c = zlen p + 16 /\ nz_key N si4 = Some k /\ zlen k = 32 /\
      nz_read N sr2 m3 = (sr3, Some []) /\ nz_key N sr3 = Some k /\
      nz_read N sr3 c = (sr4, Some p) /\
      nz_aead_decrypt N k c = Some p /\
      (forall d, In (id, nz_pk N (nz_static N db)) (nz_peers N d) -> nz_peer_known N d si1 = true);
  (* a session that went through the whole handshake is in transport mode, whoever it talked to *)
  ok_nz_key_initiator : forall d id r s s1 m1 m2 s2 p2 s3 m3 p s4 c,
    nz_initiator N d id r = Some s -> nz_write N s [] = (s1, Some m1) -> nz_read N s1 m2 = (s2, Some p2) ->
    nz_write N s2 [] = (s3, Some m3) -> nz_write N s3 p = (s4, Some c) ->
    exists k, nz_key N s4 = Some k /\ zlen k = 32 /\ nz_aead_decrypt N k c = Some p;   (* that key opens the first message *)
  ok_nz_key_responder : forall d r s m1 s1 p1 s2 m2 m3 s3 p3, zlen m1 = 48 ->
    nz_responder N d r = Some s -> nz_read N s m1 = (s1, Some p1) -> nz_write N s1 [] = (s2, Some m2) ->
    nz_read N s2 m3 = (s3, Some p3) -> exists k, nz_key N s3 = Some k /\ zlen k = 32 /\
      (forall c s4 p, nz_read N s3 c = (s4, Some p) -> nz_aead_decrypt N k c = Some p /\ nz_key N s4 = Some k)   (* likewise *)
}.

Record crypto : Type := mkCrypto {
  cR : ristretto; cH : hashes; cS : sigs; cN : noise;
  c_auth : bytes -> bytes -> bytes      (* crypto_auth (HMAC-SHA512-256): key, message *)
}.
Record crypto_ok (C : crypto) : Prop := mkCryptoOk {
  ok_cR : ristretto_ok (cR C); ok_cH : hashes_ok (cH C); ok_cS : sigs_ok (cS C); ok_cN : noise_ok (cN C);
  ok_auth_len : forall k m, zlen (c_auth C k m) = 32
}.

(** * A toy channel that satisfies the laws (it has no security at all) *)
Record toy_sess : Type := mkToy { ty_init : bool; ty_phase : Z; ty_key : bytes; ty_own : bytes; ty_known : list bytes }.
Definition fit (k : nat) (b : bytes) : bytes := le_bytes k (of_le (firstn k b)).

(** ids are made unique by adding one to the largest *)
Definition toy_fresh (l : list (Z * bytes)) : Z := 1 + fold_right Z.max 0 (map fst l).

Definition toyN : noise := {|
  nz_dev := bytes * list (Z * bytes);
  nz_sess := toy_sess;
  nz_pk := fun sk => fit 32 sk;
  nz_create := fun _ sk => Some (sk, []);
  nz_static := fst;
  nz_peers := snd;
  nz_add_peer := fun d _ pk =>
    if existsb (bytes_eqb pk) (map snd (snd d)) then None
    else Some ((fst d, snd d ++ [(toy_fresh (snd d), pk)]), toy_fresh (snd d));
  nz_initiator := fun d id r =>
    if existsb (Z.eqb id) (map fst (snd d)) then Some (mkToy true 0 (fit 32 r) (fit 32 (fst d)) (map snd (snd d))) else None;
  nz_responder := fun d r => Some (mkToy false 0 (zeros 32) (fit 32 (fst d)) (map snd (snd d)));
  nz_write := fun s p =>
    let 'mkToy ini ph k own known := s in
    let next := mkToy ini (ph + 1) k own known in
    if ph =? 0 then (next, if ini then Some (k ++ zeros 16) else None)
    else if ph =? 1 then (next, if ini then None else Some (zeros 48))
    else if (ph =? 2) && ini then (next, Some (fit 32 own ++ zeros 32))
    else (s, Some (p ++ firstn 16 k));
  nz_read := fun s m =>
    let 'mkToy ini ph k own known := s in
    if ph =? 0 then (mkToy ini 1 (firstn 32 m) own known, if negb ini && bytes_eqb (skipn 32 m) (zeros 16) then Some [] else None)
    else if (ph =? 1) && ini then (mkToy ini 2 k own known, if bytes_eqb m (zeros 48) then Some [] else None)
    else if (ph =? 2) && negb ini then
      (mkToy ini 3 k own known, if existsb (bytes_eqb (firstn 32 m)) known then Some [] else None)
    else (s, if bytes_eqb (skipn (length m - 16) m) (firstn 16 k) then Some (firstn (length m - 16) m) else None);
  nz_key := fun s => if 3 <=? ty_phase s then Some (ty_key s) else None;
  nz_peer_known := fun _ _ => true;
  nz_aead_decrypt := fun k m =>
    if bytes_eqb (skipn (length m - 16) m) (firstn 16 k) then Some (firstn (length m - 16) m) else None
|}.

Lemma fit_len k b : zlen (fit k b) = Z.of_nat k.
Proof. apply zlen_le. Qed.

Lemma fit_fit k b : fit k (fit k b) = fit k b.
Proof.
  unfold fit. apply of_le_inj; [rewrite !le_bytes_length; reflexivity|].
  rewrite (firstn_all2 (n := k)) by (rewrite le_bytes_length; lia). rewrite !of_le_le_bytes. apply Z.mod_mod. apply Z.pow_nonzero; lia.
Qed.

Lemma existsb_In {A} (eqb : A -> A -> bool) (Heq : forall a b, eqb a b = true <-> a = b) x l :
  existsb (eqb x) l = true <-> In x l.
Proof.
  rewrite existsb_exists. split.
  - intros (y & H1 & H2). apply Heq in H2. subst. assumption.
  - intros H. exists x. split; [assumption|]. apply Heq. reflexivity.
Qed.

Lemma zlen_zeros k : zlen (zeros k) = Z.of_nat k.
Proof. unfold zlen. rewrite zeros_length. reflexivity. Qed.

Lemma firstn_fit_app k b (l : bytes) : firstn k (fit k b ++ l) = fit k b.
Proof.
  unfold fit. rewrite firstn_app, le_bytes_length, Nat.sub_diag. cbn [firstn]. rewrite app_nil_r.
  apply firstn_all2. rewrite le_bytes_length. lia.
Qed.

Lemma skipn_fit_app k b (l : bytes) : skipn k (fit k b ++ l) = l.
Proof.
  unfold fit. rewrite skipn_app, le_bytes_length, Nat.sub_diag. rewrite skipn_all2 by (rewrite le_bytes_length; lia). reflexivity.
Qed.

Lemma toy_fresh_spec l : ~ In (toy_fresh l) (map fst l).
Proof.
  unfold toy_fresh. intros H.
  assert (Hle : forall (m : list Z) x, In x m -> x <= fold_right Z.max 0 m).
  { induction m as [|y m IH]; intros x; [intros []|]. intros [->|Hx]; cbn [fold_right]; [lia|]. specialize (IH x Hx). lia. }
  apply Hle in H. lia.
Qed.

Theorem toyN_ok : noise_ok toyN.
Proof.
  constructor; cbn [toyN nz_dev nz_sess nz_pk nz_create nz_static nz_peers nz_add_peer nz_initiator nz_responder
    nz_write nz_read nz_key nz_peer_known nz_aead_decrypt].
  - intros sk. apply fit_len.
  - intros i sk. eexists. split; [reflexivity|]. split; reflexivity.
  - intros [sk l] name pk _ _ _ H. cbn [fst snd] in *.
    destruct (existsb (bytes_eqb pk) (map snd l)) eqn:E.
    + apply (existsb_In bytes_eqb bytes_eqb_eq) in E. contradiction.
    + do 2 eexists. split; [reflexivity|]. split; reflexivity.
  - intros [sk l] name pk d' id _ H. cbn [fst snd] in *. destruct (existsb _ _); [discriminate|]. injection H as <- <-. split; reflexivity.
  - intros [sk l] name pk d' id _ H. cbn [fst snd] in *. destruct (existsb _ _); [discriminate|]. injection H as <- <-. apply toy_fresh_spec.
  - intros [ska la] [skb lb] id r1 r2 p _ _ _ H1 H2 H3. cbn [fst snd] in *.
    assert (E : existsb (Z.eqb id) (map fst la) = true).
    { apply (existsb_In Z.eqb Z.eqb_eq). apply in_map_iff. eexists. split; [|exact H1]. reflexivity. }
    rewrite E. do 15 eexists.
    split; [reflexivity|]. cbn [Z.eqb]. split; [reflexivity|]. split; [rewrite zlen_app, fit_len, zlen_zeros; reflexivity|].
    split; [reflexivity|]. cbn [Z.eqb]. split.
    { rewrite skipn_fit_app, bytes_eqb_refl. reflexivity. }
    cbn [Z.eqb].
    split; [reflexivity|]. split; [apply zlen_zeros|]. cbn [Z.add Z.eqb andb Pos.add Pos.eqb].
    split; [rewrite bytes_eqb_refl; reflexivity|].
    cbn [Z.add Z.eqb andb Pos.add Pos.eqb]. split; [reflexivity|]. split; [rewrite zlen_app, fit_len, zlen_zeros; reflexivity|].
    cbn [Z.add Z.eqb andb Pos.add Pos.eqb Pos.succ]. split; [reflexivity|].
    assert (Hk : zlen (firstn 16 (fit 32 r1)) = 16).
    { unfold zlen. rewrite firstn_length. pose proof (fit_len 32 r1) as F. unfold zlen in F. lia. }
    split; [rewrite zlen_app, Hk; reflexivity|]. cbn [ty_phase ty_key Z.leb Z.compare Pos.compare Pos.compare_cont].
    split; [reflexivity|]. split; [apply fit_len|].
    cbn [negb Z.add Z.eqb andb Pos.add Pos.eqb]. split.
    { replace (existsb _ _) with true; [reflexivity|]. symmetry. apply (existsb_In bytes_eqb bytes_eqb_eq).
      rewrite firstn_fit_app, fit_fit. assumption. }
    split; [rewrite firstn_fit_app; reflexivity|]. cbn [negb Z.add Z.eqb andb Pos.add Pos.eqb].
    rewrite firstn_fit_app.
    assert (Hl : (length (p ++ firstn 16 (fit 32 r1)) - 16 = length p)%nat).
    { rewrite app_length. unfold zlen in Hk. lia. }
    rewrite Hl. rewrite skipn_app, skipn_all, Nat.sub_diag. cbn [app skipn]. rewrite bytes_eqb_refl.
    rewrite firstn_app, firstn_all, Nat.sub_diag. cbn [firstn]. rewrite app_nil_r.
    split; [reflexivity|]. split; [reflexivity|]. reflexivity.
  - intros d id r s s1 m1 m2 s2 p2 s3 m3 p s4 c E1 E2 E3 E4 E5. destruct (existsb _ _); [|discriminate]. pose proof (fit_len 32 r) as Hz. generalize dependent (fit 32 r). intros kk E1 Hz. injection E1 as <-.
    cbn [Z.eqb] in E2. injection E2 as <- <-. cbn [Z.add Z.eqb andb Pos.add Pos.eqb] in E3. injection E3 as <- _.
    cbn [Z.add Z.eqb andb Pos.add Pos.eqb] in E4. injection E4 as <- <-.
    cbn [Z.add Z.eqb andb Pos.add Pos.eqb Pos.succ] in E5. apply pair_equal_spec in E5. destruct E5 as (<- & Ec). assert (Ec2 : c = p ++ firstn 16 kk) by congruence. clear Ec. subst c. cbn [ty_phase ty_key Z.leb Z.compare Pos.compare Pos.compare_cont]. eexists. split; [reflexivity|]. split; [exact Hz|].
    assert (Hk : zlen (firstn 16 kk) = 16).
    { unfold zlen in *. rewrite firstn_length. lia. }
    assert (Hl : (length (p ++ firstn 16 kk) - 16 = length p)%nat).
    { rewrite app_length. unfold zlen in Hk. lia. }
    rewrite Hl, skipn_app, skipn_all, Nat.sub_diag. cbn [app skipn]. rewrite bytes_eqb_refl.
    rewrite firstn_app, firstn_all, Nat.sub_diag. cbn [firstn]. rewrite app_nil_r. reflexivity.
  - intros d r s m1 s1 p1 s2 m2 m3 s3 p3 Hm E1 E2 E3 E4. injection E1 as <-. cbn [Z.eqb] in E2. injection E2 as <- _.
    cbn [Z.add Z.eqb andb Pos.add Pos.eqb] in E3. injection E3 as <- <-. cbn [Z.add Z.eqb andb Pos.add Pos.eqb negb] in E4. injection E4 as <- _.
    cbn [ty_phase ty_key Z.leb Z.compare Pos.compare Pos.compare_cont Z.add Pos.add]. exists (firstn 32 m1). split; [reflexivity|]. split; [unfold zlen in *; rewrite firstn_length; lia|].
    intros c s4 p R. cbn [Z.add Z.eqb andb Pos.add Pos.eqb negb] in R. apply pair_equal_spec in R. destruct R as (<- & R). split; [exact R|reflexivity].
Qed.

Definition toyC : crypto := mkCrypto toyR toyH toyS toyN (fun k m => fit 32 (k ++ m)).
Theorem toyC_ok : crypto_ok toyC.
Proof. constructor; [exact toyR_ok|exact toyH_ok|exact toyS_ok|exact toyN_ok|intros; apply fit_len]. Qed.
