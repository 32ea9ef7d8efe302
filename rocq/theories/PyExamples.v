(** Concrete cases and witnesses for the properties of the Python bindings *)
From Coq Require Import ZArith Lia List Bool Permutation.
From Coq.Strings Require Import Byte.
From Verif Require Import PrimeL Fq Bytes Res Mem Sodium OprfModel OprfSpec OprfProofs ToprfModel ToprfSpec ToprfProofs DkgModel DkgSpec DkgProofs
  ToprfExamples DkgExamples WireModel TpCrypto TpModel PyModel PySpec PyProofs PyThreshold PyDkg.
Import ListNotations.
Open Scope list_scope.
Open Scope Z_scope.

Definition yes (size : Z) : bool := true.
Definition ex_secret : bytes := le_bytes 32 42.
Definition ex_l : list bytes := map share_bytes ex_shares.
Definition ex_qs : list bytes := map share_bytes ex_q.

Lemma ex_py_created : py_create_shares yes 0 ex_a ex_secret 5 3 = Ret ex_l.
Proof. vm_compute. reflexivity. Qed.
Lemma ex_can : of_le ex_secret < L.
Proof. vm_compute. reflexivity. Qed.
Lemma ex_qs_nodup : NoDup ex_qs.
Proof. repeat constructor; vm_compute; intuition discriminate. Qed.
Lemma ex_qs_incl : incl ex_qs ex_l.
Proof. intros s Hs. vm_compute in Hs. vm_compute. tauto. Qed.

Lemma C54_example : exists al reg a secret n t l qs,
  py_create_shares al reg a secret n t = Ret l /\ of_le secret < L /\ n <= 254 /\ zlen a = t - 1 /\
  NoDup qs /\ incl qs l /\ t <= zlen qs /\ zlen qs < n /\ t = 3 /\ al (n * 33) = true.
Proof.
  exists yes, 0, ex_a, ex_secret, 5, 3, ex_l, ex_qs.
  split; [exact ex_py_created|]. split; [exact ex_can|]. split; [lia|]. split; [reflexivity|].
  split; [exact ex_qs_nodup|]. split; [exact ex_qs_incl|]. split; [vm_compute; discriminate|].
  split; [reflexivity|]. split; reflexivity.
Qed.

(** asked for 258 shares with threshold 2: the last 256 are zero *)
Definition zshare : bytes := zeros 33.
Definition ex_258 : list bytes := share_bytes (mkShare 1 49) :: share_bytes (mkShare 2 56) :: repeat zshare 256.
Lemma C54_witness : exists al reg a secret n t l qs,
  py_create_shares al reg a secret n t = Ret l /\ of_le secret < L /\ Forall random_scalar a /\ zlen a = t - 1 /\
  zlen l = n /\ NoDup qs /\ incl qs l /\ t <= zlen qs /\
  exists other, py_dkg_reconstruct qs = Ret other /\ other <> secret.
Proof.
  exists yes, 0, [7], ex_secret, 258, 2, ex_258, [share_bytes (mkShare 1 49); zshare].
  split; [vm_compute; reflexivity|]. split; [exact ex_can|].
  split; [repeat constructor; unfold random_scalar; pose proof L_gt_65536; lia|].
  split; [reflexivity|]. split; [vm_compute; reflexivity|].
  split; [repeat constructor; vm_compute; intuition discriminate|].
  split; [intros s [<-|[<-|[]]]; unfold ex_258; [left; reflexivity|right; right; left; reflexivity]|].
  split; [vm_compute; discriminate|].
  exists (zeros 32). split; [vm_compute; reflexivity|vm_compute; discriminate].
Qed.

Lemma C54_bad_example : exists al (secret : bytes) n t, zlen secret = 32 /\ 2 <= t <= n /\ n < 2 ^ 64 /\ al (n * 33) = true /\ n = 255.
Proof. exists yes, ex_secret, 255, 2. split; [reflexivity|]. split; [lia|]. split; [lia|]. split; reflexivity. Qed.

Lemma C55_example : exists x k r,
  zlen x <= 255 /\ HashToGroup toyR toyH x <> rzero toyR /\ zlen k = 32 /\ (of_le k mod 2 ^ 255) mod L <> 0 /\
  random_scalar r /\ ristretto_ok toyR /\ hashes_ok toyH.
Proof.
  exists ex_pwd, (le_bytes 32 5), 77. split; [vm_compute; discriminate|].
  split; [apply toy_htg_neq; vm_compute; discriminate|]. split; [reflexivity|]. split; [vm_compute; discriminate|].
  split; [apply small_random_scalar; lia|]. split; [exact toyR_ok|exact toyH_ok].
Qed.

Lemma C55_long_example : exists x : bytes, 65536 <= zlen x.
Proof. exists (zeros (Z.to_nat 65536)). unfold zlen, zeros. rewrite repeat_length. lia. Qed.

Lemma C56_verify_255_example : exists al t self (coms : list (list bytes)) ss,
  2 <= t <= 255 /\ 1 <= self <= 255 /\ zlen coms = 255 /\ com_rows t coms /\ zlen ss = 255 /\ Forall plain ss /\ al 255 = true /\
  Forall (usable toyR) coms /\ ristretto_ok toyR.
Proof.
  exists yes, 2, 1, (repeat (commitments_of toyR [5; 7]) 255), (repeat (mkShare 1 12) 255).
  split; [lia|]. split; [lia|]. split; [reflexivity|].
  split; [|split; [reflexivity|split; [|split; [reflexivity|split; [|exact toyR_ok]]]]].
  - apply Forall_forall. intros row Hr. apply repeat_spec in Hr. subst row. split; [reflexivity|].
    repeat constructor; vm_compute; reflexivity.
  - apply Forall_forall. intros s Hr. apply repeat_spec in Hr. subst s. unfold plain. cbn [s_index s_value]. split; lia.
  - apply Forall_forall. intros row Hr. apply repeat_spec in Hr. subst row.
    exists [rsmul toyR 7 (rbase toyR)]. split.
    + constructor; [apply (ok_dec_enc _ toyR_ok)|constructor].
    + constructor; [|constructor]. intros E. rewrite (toyR_rsmul 7) in E by lia. apply (f_equal fv) in E. vm_compute in E. discriminate.
Qed.

(** a dealer whose share does not match is not reported *)
Definition ex_coms : bytes := concat (map (@concat byte) ex_commitments2).
Lemma C57_witness : exists R al n t self coms ss, ristretto_ok R /\
  2 <= t <= n /\ n <= 254 /\ 1 <= self <= n /\ zlen coms = n /\ com_rows t coms /\ zlen ss = n /\ Forall plain ss /\ al n = true /\
  cheated R self coms ss 2 /\
  py_dkg_verify_commitments R al n t self (concat (map (@concat byte) coms)) (map share_bytes ss) = Raise.
Proof.
  exists toyR, yes, 3, 2, 3, ex_commitments2, ex_received. split; [exact toyR_ok|]. split; [lia|]. split; [lia|]. split; [lia|].
  split; [reflexivity|]. split; [repeat constructor; vm_compute; reflexivity|]. split; [reflexivity|].
  split; [repeat constructor; cbn [s_index s_value]; lia|]. split; [reflexivity|]. split.
  - split; [lia|]. exists (commitments_of toyR [11; 13]), (mkShare 3 51). split; [split; [lia|split; reflexivity]|].
    apply (not_matches_of toyR toyR_ok 3 2 _ _ 1); [small|lia|discriminate|vm_compute; reflexivity|lia].
  - vm_compute. reflexivity.
Qed.

(** nobody cheated *)
Lemma C57_example : exists R al n t self coms ss, ristretto_ok R /\
  2 <= t <= n /\ n <= 254 /\ 1 <= self <= n /\ zlen coms = n /\ com_rows t coms /\ zlen ss = n /\ Forall plain ss /\ al n = true /\
  py_dkg_verify_commitments R al n t self (concat (map (@concat byte) coms)) (map share_bytes ss) = Ret [].
Proof.
  exists toyR, yes, 3, 2, 3, (map (commitments_of toyR) [[5; 7]; [11; 13]; [17; 19]]), [mkShare 3 26; mkShare 3 50; mkShare 3 74]. split; [exact toyR_ok|]. split; [lia|]. split; [lia|]. split; [lia|].
  split; [reflexivity|]. split; [repeat constructor; vm_compute; reflexivity|]. split; [reflexivity|].
  split; [repeat constructor; cbn [s_index s_value]; lia|]. split; [reflexivity|]. vm_compute. reflexivity.
Qed.

Definition ex_parts61 : list bytes :=
  map (fun s => firstn 1 s ++ match py_evaluate toyR (skipn 1 s) ex_alpha with Ret v => v | _ => [] end) ex_qs.
Lemma C61_mult_example : exists al reg a secret n t l qs parts alpha b (junk : list Z),
  py_create_shares al reg a secret n t = Ret l /\ of_le secret < L /\ n <= 254 /\ zlen a = t - 1 /\
  NoDup qs /\ incl qs l /\ t <= zlen qs /\
  Forall2 (fun s p => exists v, py_evaluate toyR (skipn 1 s) alpha = Ret v /\ p = firstn 1 s ++ v) qs parts /\
  length junk = length parts /\ py_evaluate toyR secret alpha = Ret b /\ zlen qs < n /\ ristretto_ok toyR.
Proof.
  exists yes, 0, ex_a, ex_secret, 5, 3, ex_l, ex_qs, ex_parts61, ex_alpha, (le_bytes 32 42), [0; 0; 0].
  split; [exact ex_py_created|]. split; [exact ex_can|]. split; [lia|]. split; [reflexivity|].
  split; [exact ex_qs_nodup|]. split; [exact ex_qs_incl|]. split; [vm_compute; discriminate|].
  split; [|split; [reflexivity|split; [vm_compute; reflexivity|split; [reflexivity|exact toyR_ok]]]].
  unfold ex_parts61, ex_qs. cbn [map ex_q].
  repeat constructor; eexists; (split; [vm_compute; reflexivity|vm_compute; reflexivity]).
Qed.

Lemma forall2_exists {A B} (f : A -> B -> Prop) qs : Forall (fun s => exists p, f s p) qs -> exists parts, Forall2 f qs parts.
Proof.
  induction 1 as [|s qs (p & Hp) _ (ps & IH)]; [exists []; constructor|]. exists (p :: ps). constructor; assumption.
Qed.

Lemma ex_alpha_32 : zlen ex_alpha = 32.
Proof. reflexivity. Qed.

Lemma ex_part s idx : In s ex_qs -> Forall (fun i => 1 <= i <= 255) idx ->
  exists p, py_threshold_evaluate toyR s ex_alpha (bz (hd x00 s)) idx = Ret p.
Proof.
  intros Hs Hi.
  destruct (py_parts_exist toyR toyR_ok yes 0 ex_a ex_secret 5 3 ex_l ex_py_created ex_can ltac:(lia) eq_refl s ex_alpha (rbase toyR) idx
              (ex_qs_incl s Hs) ex_alpha_32 toy_base_dec toy_base_neq_0) as (_ & H); [|exact Hi|exact H].
  cbn [ex_qs map ex_q In] in Hs. destruct Hs as [<-|[<-|[<-|[]]]]; vm_compute; discriminate.
Qed.

Lemma C61_combine_example : exists al reg a secret n t l qs parts alpha b,
  py_create_shares al reg a secret n t = Ret l /\ of_le secret < L /\ n <= 254 /\ zlen a = t - 1 /\
  NoDup qs /\ incl qs l /\ t <= zlen qs /\
  Forall2 (fun s p => exists idx, Permutation idx (map (fun q => bz (hd x00 q)) qs) /\
             py_threshold_evaluate toyR s alpha (bz (hd x00 s)) idx = Ret p) qs parts /\
  py_evaluate toyR secret alpha = Ret b /\ zlen qs < n /\ ristretto_ok toyR.
Proof.
  destruct (forall2_exists (fun s p => exists idx, Permutation idx (map (fun q => bz (hd x00 q)) ex_qs) /\
             py_threshold_evaluate toyR s ex_alpha (bz (hd x00 s)) idx = Ret p) ex_qs) as (parts & HF).
  { apply Forall_forall. intros s Hs.
    destruct (ex_part s (map (fun q => bz (hd x00 q)) ex_qs) Hs) as (p & Ep).
    - vm_compute. repeat constructor; discriminate.
    - exists p, (map (fun q => bz (hd x00 q)) ex_qs). split; [apply Permutation_refl|exact Ep]. }
  exists yes, 0, ex_a, ex_secret, 5, 3, ex_l, ex_qs, parts, ex_alpha, (le_bytes 32 42).
  split; [exact ex_py_created|]. split; [exact ex_can|]. split; [lia|]. split; [reflexivity|].
  split; [exact ex_qs_nodup|]. split; [exact ex_qs_incl|]. split; [vm_compute; discriminate|].
  split; [exact HF|]. split; [vm_compute; reflexivity|]. split; [reflexivity|exact toyR_ok].
Qed.

Lemma C61_exist_example : exists al reg a secret n t l s alpha P idx,
  py_create_shares al reg a secret n t = Ret l /\ of_le secret < L /\ n <= 254 /\ zlen a = t - 1 /\ In s l /\ zlen alpha = 32 /\
  rdec toyR alpha = Some P /\ P <> rzero toyR /\ of_le (skipn 1 s) <> 0 /\ Forall (fun i => 1 <= i <= 255) idx /\ zlen idx = 3 /\ ristretto_ok toyR.
Proof.
  exists yes, 0, ex_a, ex_secret, 5, 3, ex_l, (share_bytes (mkShare 5 302)), ex_alpha, (rbase toyR), [5; 2; 4].
  split; [exact ex_py_created|]. split; [exact ex_can|]. split; [lia|]. split; [reflexivity|].
  split; [vm_compute; tauto|]. split; [reflexivity|]. split; [exact toy_base_dec|]. split; [exact toy_base_neq_0|].
  split; [vm_compute; discriminate|]. split; [repeat constructor; lia|]. split; [reflexivity|exact toyR_ok].
Qed.

Definition ex_zl : list bytes := map share_bytes ex_zshares.
Definition ex_zqs : list bytes := map share_bytes ex_zq.
Definition ex_tdh : list bytes :=
  map (fun '(k, z) => match py_3hashtdh toyR toyH true k z ex_alpha ex_ssid with Ret p => p | _ => [] end) (combine ex_qs ex_zqs).
Lemma C61_tdh_example : exists al reg a secret n t l zal zreg z zl qs parts alpha ssid b (junk : list Z),
  py_create_shares al reg a secret n t = Ret l /\ of_le secret < L /\ n <= 254 /\ zlen a = t - 1 /\
  py_create_shares zal zreg z (zeros 32) n t = Ret zl /\ zlen z = t - 1 /\
  NoDup qs /\ incl qs l /\ t <= zlen qs /\
  Forall2 (fun s p => exists zs, In zs zl /\ hd x00 zs = hd x00 s /\
             py_3hashtdh toyR toyH true s zs alpha ssid = Ret p /\ skipn 1 p <> zeros 32) qs parts /\
  length junk = length parts /\ py_evaluate toyR secret alpha = Ret b /\ zlen qs < n /\ ristretto_ok toyR /\ hashes_ok toyH.
Proof.
  exists yes, 0, ex_a, ex_secret, 5, 3, ex_l, yes, 0, ex_z, ex_zl, ex_qs, ex_tdh, ex_alpha, ex_ssid, (le_bytes 32 42), [0; 0; 0].
  split; [exact ex_py_created|]. split; [exact ex_can|]. split; [lia|]. split; [reflexivity|].
  split; [vm_compute; reflexivity|]. split; [reflexivity|].
  split; [exact ex_qs_nodup|]. split; [exact ex_qs_incl|]. split; [vm_compute; discriminate|].
  split; [|split; [reflexivity|split; [vm_compute; reflexivity|split; [reflexivity|split; [exact toyR_ok|exact toyH_ok]]]]].
  unfold ex_tdh, ex_qs, ex_zqs. cbn [combine map ex_q ex_zq].
  repeat constructor.
  - exists (share_bytes (mkShare 5 40)). split; [vm_compute; tauto|]. split; [reflexivity|]. split; [vm_compute; reflexivity|vm_compute; discriminate].
  - exists (share_bytes (mkShare 2 10)). split; [vm_compute; tauto|]. split; [reflexivity|]. split; [vm_compute; reflexivity|vm_compute; discriminate].
  - exists (share_bytes (mkShare 4 28)). split; [vm_compute; tauto|]. split; [reflexivity|]. split; [vm_compute; reflexivity|vm_compute; discriminate].
Qed.

(** no response at all is not an error *)
Lemma C61_witness : exists R, ristretto_ok R /\ (exists y, py_thresholdmult R [] [] = Ret y) /\ (exists y, py_threshold_combine R [] = Ret y).
Proof. exists toyR. split; [exact toyR_ok|]. split; eexists; vm_compute; reflexivity. Qed.

Lemma C62_example : exists x k delta r r2,
  zlen x = 300 /\ HashToGroup toyR toyH (firstn (Z.to_nat (zlen x mod 256)) x) <> rzero toyR /\ random_scalar k /\ random_scalar delta /\ random_scalar r /\ random_scalar r2 /\
  ristretto_ok toyR /\ hashes_ok toyH.
Proof.
  exists (repeat x61 300), 5, 6, 77, 78. split; [reflexivity|].
  split; [apply toy_htg_neq; vm_compute; discriminate|]. repeat (split; [apply small_random_scalar; lia|]).
  split; [exact toyR_ok|exact toyH_ok].
Qed.

Lemma C63_example : exists al n t A outs,
  n <= 254 /\ zlen A = n /\ Forall (fun a => zlen a = t /\ Forall random_scalar a) A /\
  Forall2 (fun a o => py_dkg_start toyR al true a n t = Ret o) A outs /\ al n = true /\ A <> [] /\ t = 2 /\ n = 3 /\ ristretto_ok toyR.
Proof.
  destruct (forall2_exists (fun a o => py_dkg_start toyR yes true a 3 2 = Ret o) ex_A) as (outs & HF).
  { apply Forall_forall. intros a Ha. pose proof ex_A_ok as H. rewrite Forall_forall in H. destruct (H a Ha) as (H1 & H2).
    apply (py_start_returns toyR); try assumption; try lia; reflexivity. }
  exists yes, 3, 2, ex_A, outs. split; [lia|]. split; [reflexivity|]. split; [exact ex_A_ok|]. split; [exact HF|].
  split; [reflexivity|]. split; [discriminate|]. split; [reflexivity|]. split; [reflexivity|exact toyR_ok].
Qed.
