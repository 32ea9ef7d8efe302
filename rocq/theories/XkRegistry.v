(** The registry of peers of a device, and secrets that are stored and restored. *)
From Coq Require Import ZArith Lia List Bool.
From Coq.Strings Require Import Byte.
From Verif Require Import Bytes Res Mem XkModel XkSpec XkProofs XkChannel.
Import ListNotations.
Open Scope list_scope.
Open Scope Z_scope.
Arguments firstn : simpl never.
Arguments skipn : simpl never.

Section R.
Variable X : xprims.
Hypothesis OK : xprims_ok X.

Lemma live_snoc tr o r p : live (tr ++ [(o, r)]) p <-> (live tr p /\ o <> RRemove (p_id p)) \/ r = Some p.
Proof.
  unfold live. split.
  - intros (b & o' & a & E & N). destruct (exists_last (l := (o', Some p) :: a)) as (l & x & El); [discriminate|].
    rewrite El in E. rewrite app_assoc in E. apply app_inj_tail in E. destruct E as [E1 E2].
    destruct a as [|y a].
    + destruct l; [|destruct l; discriminate]. cbn in El. injection El as <-. injection E2 as _ <-. right. reflexivity.
    + left. destruct l as [|z l]; [discriminate|]. cbn in El. injection El as <- El. rewrite E1. split.
      * exists b, o', l. split; [reflexivity|]. intros r0 I. apply (N r0). rewrite El. apply in_or_app. left. exact I.
      * intros ->. apply (N r). rewrite El. apply in_or_app. right. left. symmetry. exact E2.
  - intros [[(b & o' & a & -> & N) D]| ->].
    + exists b, o', (a ++ [(o, r)]). split; [rewrite <- app_assoc; reflexivity|]. intros r0 I. apply in_app_or in I.
      destruct I as [I|[I|[]]]; [exact (N _ I)|]. injection I as -> _. apply D. reflexivity.
    + exists tr, o, []. split; [reflexivity|]. intros r0 [].
Qed.
Lemma ids_snoc tr o r : ids_of (tr ++ [(o, r)]) = ids_of tr ++ match r with Some p => [p_id p] | None => [] end.
Proof. induction tr as [|[o' [p|]] tr IH]; cbn; [destruct r; reflexivity|rewrite IH; reflexivity|exact IH]. Qed.

Lemma unlink_in pid l p : NoDup (map p_id l) -> In p (unlink pid l) <-> In p l /\ p_id p <> pid.
Proof.
  induction l as [|q l IH]; intros N; cbn; [tauto|]. cbn in N. inversion N as [|? ? N1 N2]; subst.
  destruct (Z.eqb_spec (p_id q) pid) as [E|E].
  - split.
    + intros I. split; [right; exact I|]. intros Ep. apply N1. rewrite E, <- Ep. apply in_map. exact I.
    + intros [[ -> |I] D]; [contradiction|exact I].
  - cbn. rewrite (IH N2). split; [intros [ -> |[I D]]; auto|intros [[ -> |I] D]; auto].
Qed.
Lemma unlink_nodup {B} (f : xpeer -> B) pid l : NoDup (map f l) -> NoDup (map f (unlink pid l)).
Proof.
  induction l as [|q l IH]; intros N; cbn; [constructor|]. cbn in N. inversion N as [|? ? N1 N2]; subst.
  destruct (p_id q =? pid); [exact N2|]. cbn. constructor; [|apply IH; exact N2].
  intros I. apply N1. apply in_map_iff in I. destruct I as (x & E & I). apply in_map_iff. exists x. split; [exact E|].
  clear -I. induction l as [|y l IH]; [exact I|]. cbn in I. destruct (p_id y =? pid); [right; exact I|].
  destruct I as [ -> |I]; [left; reflexivity|right; apply IH; exact I].
Qed.

Record reg_inv (tr : list (rop * option xpeer)) (d : xdev) : Prop := mkRi {
  ri_count : d_pcount d = 1 + zlen (ids_of tr) /\ d_pcount d <= 4294967295;
  ri_ids : ids_of tr = map Z.of_nat (seq 1 (length (ids_of tr)));
  ri_range : forall p, In p (d_peers d) -> 1 <= p_id p < d_pcount d;
  ri_nodup : NoDup (map p_id (d_peers d));
  ri_keys : NoDup (map p_s (d_peers d));
  ri_len : Forall (fun p => zlen (p_s p) = 32) (d_peers d);
  ri_live : forall p, In p (d_peers d) <-> live tr p
}.

Lemma find_key d key : Forall (fun p => zlen (p_s p) = 32) (d_peers d) -> zlen key = 32 ->
  forall p, lookup_peer_by_static d key = Some p -> In p (d_peers d) /\ p_s p = key.
Proof.
  intros F L p H. unfold lookup_peer_by_static in H. apply find_some in H. destruct H as [I E].
  rewrite Forall_forall in F. rewrite lbytes_eq_spec in E by (try apply F; assumption). apply bytes_eqb_eq in E. auto.
Qed.
Lemma find_key_none d key : Forall (fun p => zlen (p_s p) = 32) (d_peers d) -> zlen key = 32 ->
  lookup_peer_by_static d key = None -> ~ In key (map p_s (d_peers d)).
Proof.
  intros F L H I. apply in_map_iff in I. destruct I as (p & E & I). unfold lookup_peer_by_static in H.
  pose proof (find_none _ _ H p I) as N. cbn in N. rewrite Forall_forall in F.
  rewrite lbytes_eq_spec in N by (try apply F; assumption). rewrite E, bytes_eqb_refl in N. discriminate.
Qed.

Lemma add_inv tr d o name key d' p :
  reg_inv tr d -> zlen key = 32 -> (forall i, o <> RRemove i) -> device_add_peer d name key = Some (d', p) ->
  reg_inv (tr ++ [(o, Some p)]) d' /\ p = mkXpeer (d_pcount d) name key /\ d_pcount d < 4294967295.
Proof.
  intros [Rc Ri Rr Rn Rk Rl Rv] L No A. unfold device_add_peer in A.
  destruct (Z.eqb_spec (d_pcount d) 4294967295) as [|C]; [discriminate|].
  destruct (lookup_peer_by_static d key) eqn:Lk; [discriminate|]. cbn in A. injection A as <- <-.
  pose proof (find_key_none _ _ Rl L Lk) as Nk. pose proof (zlen_nonneg (ids_of tr)) as Nz.
  split; [|split; [reflexivity|lia]].
  assert (U : u32 (d_pcount d + 1) = d_pcount d + 1) by (apply u32_small; lia).
  constructor; cbn [d_pcount d_peers]; rewrite ?U.
  - rewrite ids_snoc, zlen_app. cbn [p_id]. rewrite zlen_cons, zlen_nil. lia.
  - rewrite ids_snoc. cbn [p_id]. rewrite app_length. cbn [length]. rewrite Nat.add_1_r, seq_S, map_app. rewrite <- Ri. f_equal.
    cbn. f_equal. rewrite (proj1 Rc). unfold zlen. lia.
  - intros q [ <- |I]; cbn; [lia|]. specialize (Rr q I). lia.
  - cbn. constructor; [|exact Rn]. intros I. apply in_map_iff in I. destruct I as (q & E & I). specialize (Rr q I). lia.
  - cbn. constructor; [exact Nk|exact Rk].
  - constructor; [exact L|exact Rl].
  - intros q. rewrite live_snoc. cbn [In]. rewrite Rv. split.
    + intros [ <- |I]; [right; reflexivity|left; split; [exact I|apply No]].
    + intros [[I _]|E]; [right; exact I|left; injection E as <-; reflexivity].
Qed.

Lemma rstep_inv tr d o d' r : reg_inv tr d -> rop_ok o -> rstep X o d = (d', r) -> reg_inv (tr ++ [(o, r)]) d'.
Proof.
  intros I Ok S. destruct o as [name key|name blob|id|pid e]; cbn [rstep] in S.
  - destruct (device_add_peer d name key) as [[d1 p]|] eqn:A; injection S as <- <-.
    + apply (add_inv _ _ (RAdd name key) _ _ _ _ I Ok) in A; [apply A|discriminate].
    + destruct I as [Rc Ri Rr Rn Rk Rl Rv]. constructor; rewrite ?ids_snoc, ?app_nil_r; try assumption.
      intros p. rewrite live_snoc, Rv. split; [intros H; left; split; [exact H|discriminate]|intros [[H _]|H]; [exact H|discriminate]].
  - destruct (deserialize_peer_secret X d name blob) as [[d1 p]|] eqn:A; injection S as <- <-.
    + unfold deserialize_peer_secret in A. destruct (Z.eqb_spec 56 (zlen blob)) as [L|]; [|discriminate]. cbn [negb] in A.
      destruct (aead_decrypt X (d_sk d) (bytes_to_nonce blob) name (skipn 8 blob)) as [rs|] eqn:O; [|discriminate].
      apply (ok_open_len X OK) in O. rewrite zlen_skipn in O.
      apply (add_inv _ _ (RRestore name blob) _ _ _ _ I) in A; [apply A|lia|discriminate].
    + destruct I as [Rc Ri Rr Rn Rk Rl Rv]. constructor; rewrite ?ids_snoc, ?app_nil_r; try assumption.
      intros p. rewrite live_snoc, Rv. split; [intros H; left; split; [exact H|discriminate]|intros [[H _]|H]; [exact H|discriminate]].
  - injection S as <- <-. destruct I as [Rc Ri Rr Rn Rk Rl Rv]. unfold device_remove_peer.
    destruct (Z.eqb_spec id 0) as [ -> |D].
    + constructor; rewrite ?ids_snoc, ?app_nil_r; try assumption.
      intros p. rewrite live_snoc, <- Rv. split; [|intros [[H _]|H]; [exact H|discriminate]].
      intros H. left. split; [exact H|]. intros E. injection E as E. specialize (Rr p H). lia.
    + constructor; cbn [d_pcount d_peers]; rewrite ?ids_snoc, ?app_nil_r; try assumption.
      * intros p H. apply unlink_in in H; [|exact Rn]. apply Rr. apply H.
      * apply unlink_nodup. exact Rn.
      * apply unlink_nodup. exact Rk.
      * rewrite Forall_forall in *. intros p H. apply unlink_in in H; [|exact Rn]. apply Rl. apply H.
      * intros p. rewrite live_snoc, unlink_in, Rv by exact Rn. split.
        -- intros [H N]. left. split; [exact H|]. intros E. injection E as E. congruence.
        -- intros [[H N]|H]; [|discriminate]. split; [exact H|]. intros E. apply N. rewrite E. reflexivity.
  - assert (E : r = None /\ d_peers d' = d_peers d /\ d_pcount d' = d_pcount d).
    { destruct (if pid =? 0 then _ else _) as [[d1 s]|] eqn:C; injection S as <- <-; [|auto].
      destruct (pid =? 0); unfold session_create_responder, session_create_initiator in C;
        destruct (d_states d =? 4294967295); try discriminate.
      - injection C as <- _. auto.
      - destruct (lookup_peer_by_id d pid); [|discriminate]. injection C as <- _. auto. }
    destruct E as (-> & E1 & E2). destruct I as [Rc Ri Rr Rn Rk Rl Rv].
    constructor; rewrite ?ids_snoc, ?app_nil_r, ?E1, ?E2; try assumption.
    intros p. rewrite live_snoc, Rv. split; [intros H; left; split; [exact H|discriminate]|intros [[H _]|H]; [exact H|discriminate]].
Qed.
Lemma rrun_inv ops : forall pre d d' tr, reg_inv pre d -> Forall rop_ok ops -> rrun X ops d = (d', tr) -> reg_inv (pre ++ tr) d'.
Proof.
  induction ops as [|o ops IH]; intros pre d d' tr I F R; cbn [rrun] in R.
  - injection R as <- <-. rewrite app_nil_r. exact I.
  - inversion F; subst. destruct (rstep X o d) as [d1 r] eqn:S. destruct (rrun X ops d1) as [d2 tr2] eqn:R2. injection R as <- <-.
    pose proof (IH _ _ _ _ (rstep_inv _ _ _ _ _ I H1 S) H2 R2) as P. rewrite <- app_assoc in P. exact P.
Qed.
Lemma created_inv prologue info sk spriv d0 : device_create X prologue info sk spriv = Some d0 -> reg_inv [] d0.
Proof.
  intros E. injection E as <-. split; cbn [d_pcount d_peers ids_of map].
  - rewrite zlen_nil. lia.
  - reflexivity.
  - intros p [].
  - constructor.
  - constructor.
  - constructor.
  - intros p. split; [intros []|]. intros (b & o & a & E & _). destruct b; discriminate.
Qed.

Lemma find_in {A} (f : A -> bool) l a : In a l -> f a = true -> exists b, find f l = Some b.
Proof. induction l as [|x l IH]; [contradiction|]. cbn. intros [ -> |I] E; [rewrite E; eauto|]. destruct (f x); eauto. Qed.
Lemma nodup_map_inj {A B} (f : A -> B) l a b : NoDup (map f l) -> In a l -> In b l -> f a = f b -> a = b.
Proof.
  induction l as [|x l IH]; intros N Ia Ib E; [contradiction|]. cbn in N. inversion N as [|? ? N1 N2]; subst.
  destruct Ia as [ -> |Ia], Ib as [ -> |Ib]; auto.
  - exfalso. apply N1. rewrite E. apply in_map. exact Ib.
  - exfalso. apply N1. rewrite <- E. apply in_map. exact Ia.
Qed.

Theorem registry prologue info sk spriv d0 ops d tr :
  device_create X prologue info sk spriv = Some d0 -> Forall rop_ok ops -> rrun X ops d0 = (d, tr) ->
  (forall i p, lookup_peer_by_id d i = Some p <-> live tr p /\ p_id p = i)
  /\ (forall key p, zlen key = 32 -> lookup_peer_by_static d key = Some p <-> live tr p /\ p_s p = key)
  /\ ids_of tr = map Z.of_nat (seq 1 (length (ids_of tr)))
  /\ (forall name key, zlen key = 32 ->
        (device_add_peer d name key = None <-> (exists p, live tr p /\ p_s p = key) \/ zlen (ids_of tr) = 2 ^ 32 - 2)
        /\ (forall d' p, device_add_peer d name key = Some (d', p) -> p = mkXpeer (1 + zlen (ids_of tr)) name key)).
Proof.
  intros C F R. pose proof (rrun_inv ops [] d0 d tr (created_inv _ _ _ _ _ C) F R) as I. cbn [app] in I.
  pose proof I as [Rc Ri Rr Rn Rk Rl Rv]. split; [|split; [|split]].
  - intros i p. unfold lookup_peer_by_id. rewrite <- Rv. split.
    + destruct (Z.eqb_spec i 0); [discriminate|]. intros H. apply find_some in H. destruct H as [H E]. apply Z.eqb_eq in E. auto.
    + intros [H <-]. destruct (Z.eqb_spec (p_id p) 0) as [E|_]; [specialize (Rr p H); lia|].
      destruct (find_in (fun q => p_id q =? p_id p) _ p H (Z.eqb_refl _)) as [q Q]. rewrite Q. f_equal.
      apply find_some in Q. destruct Q as [Q E]. apply Z.eqb_eq in E. apply (nodup_map_inj p_id (d_peers d)); assumption.
  - intros key p L. rewrite <- Rv. split.
    + apply find_key; assumption.
    + intros [H <-]. unfold lookup_peer_by_static.
      destruct (find_in (fun q => lbytes_eq 32 (p_s q) (p_s p)) _ p H) as [q Q].
      { rewrite lbytes_eq_spec by assumption. apply bytes_eqb_refl. }
      rewrite Q. f_equal. apply (find_key d (p_s p) Rl L) in Q. destruct Q as [Q E].
      apply (nodup_map_inj p_s (d_peers d)); assumption.
  - exact Ri.
  - intros name key L. split.
    + unfold device_add_peer. destruct (Z.eqb_spec (d_pcount d) 4294967295) as [E|E]; cbn [orb].
      { split; [intros _; right; lia|reflexivity]. }
      destruct (lookup_peer_by_static d key) as [p|] eqn:Lk.
      { split; [intros _; left; exists p; apply (find_key d key Rl L) in Lk; rewrite <- Rv; exact Lk|reflexivity]. }
      split; [discriminate|]. intros [(p & H & E2)|E2]; [|lia].
      exfalso. apply (find_key_none d key Rl L Lk). rewrite <- E2. apply in_map. apply Rv. exact H.
    + intros d' p A. unfold device_add_peer in A. destruct (_ || _); [discriminate|]. injection A as _ <-. rewrite (proj1 Rc). reflexivity.
Qed.

(** the keys of a device never change *)
Lemma rstep_keys o d d' r : rstep X o d = (d', r) ->
  d_spriv d' = d_spriv d /\ d_spub d' = d_spub d /\ d_prologue d' = d_prologue d /\ d_sk d' = d_sk d /\ d_info d' = d_info d.
Proof.
  assert (A : forall d name key d' p, device_add_peer d name key = Some (d', p) ->
    d_spriv d' = d_spriv d /\ d_spub d' = d_spub d /\ d_prologue d' = d_prologue d /\ d_sk d' = d_sk d /\ d_info d' = d_info d).
  { intros e name key e' p H. unfold device_add_peer in H. destruct (_ || _); [discriminate|]. injection H as <- _. repeat split. }
  destruct o as [name key|name blob|id|pid e]; cbn [rstep].
  - destruct (device_add_peer d name key) as [[d1 p]|] eqn:H; intros E; injection E as <- <-; [exact (A _ _ _ _ _ H)|repeat split].
  - destruct (deserialize_peer_secret X d name blob) as [[d1 p]|] eqn:H; intros E; injection E as <- <-; [|repeat split].
    unfold deserialize_peer_secret in H. destruct (negb _); [discriminate|]. destruct (aead_decrypt _ _ _ _ _); [|discriminate]. exact (A _ _ _ _ _ H).
  - intros E; injection E as <- <-. unfold device_remove_peer. destruct (id =? 0); repeat split.
  - destruct (if pid =? 0 then _ else _) as [[d1 s]|] eqn:C; intros E; injection E as <- <-; [|repeat split].
    destruct (pid =? 0); unfold session_create_responder, session_create_initiator in C;
      destruct (d_states d =? 4294967295); try discriminate.
    + injection C as <- _. repeat split.
    + destruct (lookup_peer_by_id d pid); [|discriminate]. injection C as <- _. repeat split.
Qed.
Lemma rrun_keys ops : forall d d' tr, rrun X ops d = (d', tr) ->
  d_spriv d' = d_spriv d /\ d_spub d' = d_spub d /\ d_prologue d' = d_prologue d /\ d_sk d' = d_sk d /\ d_info d' = d_info d.
Proof.
  induction ops as [|o ops IH]; intros d d' tr R; cbn [rrun] in R.
  - injection R as <- <-. repeat split.
  - destruct (rstep X o d) as [d1 r] eqn:S. destruct (rrun X ops d1) as [d2 tr2] eqn:R2. injection R as <- <-.
    destruct (rstep_keys _ _ _ _ S) as (A & B & C & D & E). destruct (IH _ _ _ R2) as (A' & B' & C' & D' & E').
    repeat split; congruence.
Qed.
Lemma device_of_facts d : device_of X d ->
  d_spub d = x_base X (d_spriv d) /\ zlen (d_spub d) = 32 /\ Forall (fun p => zlen (p_s p) = 32) (d_peers d).
Proof.
  intros (pr & info & sk & spriv & d0 & ops & tr & C & F & R).
  pose proof (rrun_inv ops [] d0 d tr (created_inv _ _ _ _ _ C) F R) as I. destruct (rrun_keys _ _ _ _ R) as (A & B & _).
  injection C as <-. cbn in A, B. rewrite A, B. split; [reflexivity|]. split; [apply (ok_base_len X OK)|apply (ri_len _ _ I)].
Qed.

(** * Stored secrets *)
Lemma stored_parts n8 c : zlen n8 = 8 ->
  bytes_to_nonce (firstn 8 n8 ++ c) = bytes_to_nonce n8 /\ skipn 8 (firstn 8 n8 ++ c) = c /\ zlen (firstn 8 n8) = 8.
Proof.
  intros L. assert (L8 : zlen (firstn 8 n8) = 8) by (rewrite zlen_firstn; lia). split; [|split; [|exact L8]].
  - unfold bytes_to_nonce. rewrite (firstn_app_z (firstn 8 n8) c 8) by exact L8. reflexivity.
  - apply skipn_app_z. exact L8.
Qed.
Theorem device_secret_roundtrip d n8 prologue : zlen n8 = 8 -> zlen (d_spriv d) = 32 -> d_spub d = x_base X (d_spriv d) ->
  zlen (serialize_device_secret X d n8) = 56
  /\ device_create_from_secret X prologue (d_info d) (d_sk d) (serialize_device_secret X d n8)
     = device_create X prologue (d_info d) (d_sk d) (d_spriv d).
Proof.
  intros L Ls Ep. unfold serialize_device_secret, device_create_from_secret.
  set (c := aead_encrypt X (d_sk d) (bytes_to_nonce n8) (d_info d) (d_spriv d)).
  assert (Lc : zlen c = 48) by (unfold c, aead_encrypt; rewrite (ok_seal_len X OK); lia).
  destruct (stored_parts n8 c L) as (A & B & L8). rewrite A, B, zlen_app, L8, Lc. split; [reflexivity|].
  rewrite firstn_all2 by (unfold zlen in Lc; lia).
  unfold c, aead_decrypt, aead_encrypt. rewrite (ok_open_seal X OK). reflexivity.
Qed.
Theorem peer_secret_roundtrip d d2 p n8 : zlen n8 = 8 -> zlen (p_s p) = 32 -> d_sk d2 = d_sk d ->
  zlen (serialize_peer_secret X d p n8) = 56
  /\ deserialize_peer_secret X d2 (p_info p) (serialize_peer_secret X d p n8) = device_add_peer d2 (p_info p) (p_s p).
Proof.
  intros L Ls Ek. unfold serialize_peer_secret, deserialize_peer_secret.
  set (c := aead_encrypt X (d_sk d) (bytes_to_nonce n8) (p_info p) (p_s p)).
  assert (Lc : zlen c = 48) by (unfold c, aead_encrypt; rewrite (ok_seal_len X OK); lia).
  destruct (stored_parts n8 c L) as (A & B & L8). rewrite zlen_app, L8, Lc. split; [reflexivity|].
  change (negb (56 =? 8 + 48)) with false. cbv iota.
  rewrite A, B, Ek. unfold c, aead_decrypt, aead_encrypt. rewrite (ok_open_seal X OK). reflexivity.
Qed.
(** what is accepted was sealed for this name under this device's key *)
Theorem restored_is_authentic d name blob d' p : deserialize_peer_secret X d name blob = Some (d', p) ->
  zlen blob = 56 /\ p_info p = name /\ exists key, x_open X (d_sk d) (nonce12 (bytes_to_nonce blob)) name (skipn 8 blob) = Some key /\ p_s p = key.
Proof.
  unfold deserialize_peer_secret. destruct (Z.eqb_spec 56 (zlen blob)) as [L|]; [|discriminate]. cbn [negb].
  destruct (aead_decrypt X (d_sk d) (bytes_to_nonce blob) name (skipn 8 blob)) as [rs|] eqn:O; [|discriminate].
  unfold device_add_peer. destruct (_ || _); [discriminate|]. intros E. injection E as _ <-.
  split; [lia|]. split; [reflexivity|]. exists rs. split; [exact O|reflexivity].
Qed.
End R.
