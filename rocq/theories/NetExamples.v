(** C99 over the toy primitives: the session of GoodExamples.v, and one in which peer 4 deals shares that
    do not fit its commitments while the network empties the lists of complaints. *)
From Coq Require Import ZArith Lia List Bool.
From Coq.Strings Require Import Byte.
From Verif Require Import PrimeL Bytes Res Mem Sodium ToprfModel ToprfSpec DkgModel DkgSpec WireModel WireSpec WireProofs TpCrypto TpModel PeerModel TpRun TpSpec TpControl SafeSpec TpExamples TpRunExamples SafeExamples GoodSpec GoodExamples NetSpec.
Import ListNotations.
Open Scope list_scope.
Open Scope Z_scope.

(** the conditions, as computations *)
Definition arrivals (c : tp) (calls : list tp_call) (pcalls : list peer_call) : list bytes :=
  concat (map (fun s => match nth_error calls s with Some (_, i, _) => tp_finds c s i | None => [] end) (seq 0 (length calls))) ++
  concat (map (fun s => match nth_error pcalls s with Some (_, i, _) => peer_finds s i | None => [] end) (seq 0 (length pcalls))).
Lemma arrived_In c calls pcalls m : arrived (C := toyC) c calls pcalls m -> In m (arrivals c calls pcalls).
Proof.
  intros [(s & e & i & o & H1 & H2)|(s & e & i & o & H1 & H2)]; unfold arrivals; apply in_or_app; [left|right];
    (apply in_concat; eexists; split; [apply in_map_iff; exists s; split; [reflexivity|apply in_seq; assert (nth_error_lt := proj1 (nth_error_Some _ s) ltac:(rewrite H1; discriminate)); lia]|rewrite H1; exact H2]).
Qed.
Definition fits (view : bytes -> bytes) (wrote : Z -> Z -> option bytes) (pk m : bytes) : bool :=
  negb (sig_verify toyS pk (slice 64 47 m) (firstn 64 m)) ||
  match wrote (bz (nth 64 m x00)) (bz (nth 70 m x00)) with Some w => bytes_eqb (view w) (view m) | None => false end.
Lemma fits_ok view wrote pk sid msgno from to ts body m : zlen sid = 32 -> is_byte msgno -> is_byte to -> fits view wrote pk m = true ->
  signed toyS pk sid msgno from to ts body m -> option_map view (wrote msgno to) = Some (view m).
Proof.
  intros Hs B1 B2 H (sig & Z & _ & E & V).
  assert (Lh : length (header msgno (111 + zlen body) from to ts sid) = 47%nat) by (unfold header; rewrite !app_length, !be_bytes_length; cbn [length]; unfold zlen in Hs; lia).
  assert (Ls : length sig = 64%nat) by (unfold zlen in Z; lia).
  assert (E1 : firstn 64 m = sig) by (rewrite E; unfold message; rewrite firstn_app, Ls, Nat.sub_diag, firstn_all2 by lia; apply app_nil_r).
  assert (E2 : slice 64 47 m = header msgno (111 + zlen body) from to ts sid).
  { rewrite E. unfold slice, message. change (Z.to_nat 64) with 64%nat. change (Z.to_nat 47) with 47%nat. rewrite skipn_app, Ls, Nat.sub_diag, skipn_all2 by lia. cbn [skipn app].
    rewrite firstn_app, Lh, Nat.sub_diag, firstn_all2 by lia. apply app_nil_r. }
  assert (E3 : nth 64 m x00 = zb msgno) by (rewrite E; unfold message; rewrite app_nth2, Ls by lia; reflexivity).
  assert (E4 : nth 70 m x00 = zb to).
  { rewrite E. unfold message. rewrite app_nth2, Ls by lia. change (70 - 64)%nat with 6%nat. unfold header. rewrite <- !app_assoc. cbn [app nth]. 
    rewrite app_nth2 by (rewrite be_bytes_length; lia). rewrite be_bytes_length. reflexivity. }
  unfold fits in H. rewrite E1, E2, V, E3, E4, !WireProofs.bz_zb_small in H by assumption. cbn [negb orb] in H.
  destruct (wrote msgno to) as [w|]; [|discriminate]. apply bytes_eqb_eq in H. cbn [option_map]. congruence.
Qed.
Definition unforged_b (view : bytes -> bytes) (c : tp) (calls : list tp_call) (outs : list (Z * tp * bytes)) (k : Z) (p : peer toyC) (pcalls : list peer_call) (pouts : list (Z * peer toyC * bytes)) : bool :=
  let ms := arrivals c calls pcalls in
  forallb (fits view (tp_wrote outs) (p_tp_pk toyC p)) ms && forallb (fits view (peer_wrote pouts) (session_pk p pouts)) ms &&
  match nth_error calls 1 with Some (_, i, _) => match rd i (k * 239) 175, peer_wrote pouts 2 255 with Ok m, Some w => bytes_eqb w m | _, _ => false end | None => false end.
Lemma unforged_b_ok view c calls outs k p pcalls pouts : zlen (t_sid c) = 32 -> p_sid toyC p = t_sid c -> unforged_b view c calls outs k p pcalls pouts = true ->
  unforged toyC view c calls outs k p pcalls pouts.
Proof.
  intros Hz Hs H. unfold unforged_b in H. cbv zeta in H. apply andb_true_iff in H. destruct H as (H & H3). apply andb_true_iff in H. destruct H as (H1 & H2). constructor.
  - exact Hs.
  - intros m msgno from to ts body A B1 _ B3 Sg. apply arrived_In in A. eapply fits_ok; [exact Hz|exact B1|exact B3| |exact Sg]. exact (proj1 (forallb_forall _ _) H1 m A).
  - intros m msgno from to ts body A B1 _ B3 Sg. apply arrived_In in A. eapply fits_ok; [exact Hz|exact B1|exact B3| |exact Sg]. exact (proj1 (forallb_forall _ _) H2 m A).
  - intros e i o lt m sig Ec _ Rm _ _. rewrite Ec, Rm in H3. destruct (peer_wrote pouts 2 255) as [w|]; [|discriminate]. apply bytes_eqb_eq in H3. congruence.
Qed.
Lemma n_ran log i pouts : In i [0; 1; 2] -> peer_run toyC (g_peer i) (g_pcalls log i) = Ok pouts -> forallb (fun o => fst (fst o) =? 0) pouts = true ->
  ran toyC g_tp i (g_peer i) (g_pcalls log i) pouts.
Proof.
  intros Hi R H1.
  assert (F : forall j, In j [0; 1; 2] -> peer_fresh toyC (g_peer j) /\ p_n toyC (g_peer j) = 4 /\ p_t toyC (g_peer j) = 2).
  { intros j [<-|[<-|[<-|[]]]]; (split; [apply fresh_b_ok; vm_compute; reflexivity|split; vm_compute; reflexivity]). }
  destruct (F i Hi) as (F1 & F2 & F3). constructor.
  - change (t_n g_tp) with 4. cbn [In] in Hi. lia.
  - exact F1.
  - exact R.
  - reflexivity.
  - apply all_0. exact H1.
  - intros e inp o j. apply clock_p.
  - intros e inp o E. unfold g_pcalls in E. cbn [combine map nth_error fst snd] in E. injection E as <- _ _. rewrite F3. cbn [d_penv pe_a]. split; [reflexivity|].
    pose proof Fq.L_gt_65536. constructor; [|constructor; [|constructor]]; unfold random_scalar; cbn [In] in Hi; lia.
Qed.
Lemma n_survived view log outs i pouts : In i [0; 1; 2] -> peer_run toyC (g_peer i) (g_pcalls log i) = Ok pouts ->
  forallb (fun o => fst (fst o) =? 0) pouts && unforged_b view g_tp (g_calls log) outs i (g_peer i) (g_pcalls log i) pouts = true ->
  survived toyC view g_tp (g_calls log) outs (g_party log i pouts).
Proof.
  intros Hi R H. apply andb_true_iff in H. destruct H as (H1 & H2). split; [apply n_ran; assumption|]. apply unforged_b_ok; [reflexivity| |exact H2].
  destruct Hi as [<-|[<-|[<-|[]]]]; vm_compute; reflexivity.
Qed.

(** before round 4 peer 4 replaces the shares it is about to send; before round 6 the network empties
    the four lists of complaints *)
Definition n_bad (k : nat) (r : run toyC) : run toyC :=
  match k with
  | 4%nat => mkRun toyC (r_tp toyC r)
      (firstn 3 (r_peers toyC r) ++ map (fun p => peer_shares_set toyC p [mkShare 1 5; mkShare 2 70; mkShare 3 6; mkShare 4 0]) (skipn 3 (r_peers toyC r)))
      (r_net toyC r)
  | 6%nat => mkRun toyC (r_tp toyC r) (r_peers toyC r) (fold_left (fun b j => patch (j * 116 + 111) (zeros 5) b) [0; 1; 2; 3]%nat (r_net toyC r))
  | _ => r
  end.
Definition n_log := Eval vm_compute in g_rec n_bad 9 0 g_start.

Definition n_checks (view : bytes -> bytes) (log : list (bytes * list bytes)) (x : list (Z * tp * bytes) * (list (Z * peer toyC * bytes) * list (Z * peer toyC * bytes) * list (Z * peer toyC * bytes))) : list bool * list share :=
  let '(outs, (p0, p1, p2)) := x in
  let u i pouts := forallb (fun o => fst (fst o) =? 0) pouts && unforged_b view g_tp (g_calls log) outs i (g_peer i) (g_pcalls log i) pouts in
  ([forallb (fun o => fst (fst o) =? 0) outs; u 0 p0; u 1 p1; u 2 p2;
    plain_b (received toyC (g_peer 0) p0); plain_b (received toyC (g_peer 1) p1); plain_b (received toyC (g_peer 2) p2); forallb usable_cs (published g_tp outs)],
   [key_share toyC (g_peer 0) p0; key_share toyC (g_peer 1) p1; key_share toyC (g_peer 2) p2]).
Lemma n_lift view log x ks : length log = 9%nat -> g_all log = Ok x -> n_checks view log x = ([true; true; true; true; true; true; true; true], ks) ->
  exists outs p0 p1 p2, done_well toyC g_tp (g_calls log) outs /\ sound_commitments toyC (published g_tp outs) /\
    survived toyC view g_tp (g_calls log) outs (g_party log 0 p0) /\ survived toyC view g_tp (g_calls log) outs (g_party log 1 p1) /\ survived toyC view g_tp (g_calls log) outs (g_party log 2 p2) /\
    plain_shares (received_by (g_party log 0 p0)) /\ plain_shares (received_by (g_party log 1 p1)) /\ plain_shares (received_by (g_party log 2 p2)) /\
    map share_of_party [g_party log 0 p0; g_party log 1 p1; g_party log 2 p2] = ks.
Proof.
  intros Hl E H. destruct x as (outs & ((p0 & p1) & p2)). unfold g_all in E. apply bind_ok in E. destruct E as (o & E0 & E). apply bind_ok in E. destruct E as (q0 & E1 & E).
  apply bind_ok in E. destruct E as (q1 & E2 & E). apply bind_ok in E. destruct E as (q2 & E3 & E). injection E as -> -> -> ->.
  unfold n_checks in H. cbv zeta in H. apply pair_equal_spec in H. destruct H as (H & Hk). injection H as H1 H2 H3 H4 H5 H6 H7 H8.
  exists outs, p0, p1, p2. split; [apply g_done; assumption|]. split; [apply sound_ok; exact H8|].
  split; [apply n_survived; [cbn; auto|assumption|assumption]|]. split; [apply n_survived; [cbn; auto|assumption|assumption]|]. split; [apply n_survived; [cbn; auto|assumption|assumption]|].
  split; [apply plain_b_ok; exact H5|]. split; [apply plain_b_ok; exact H6|]. split; [apply plain_b_ok; exact H7|]. exact Hk.
Qed.

Lemma C99_refutation : exists C c calls outs (q q' : list (party C)), crypto_ok C /\ done_well C c calls outs /\ sound_commitments C (published c outs) /\
  Forall (survived C head c calls outs) q /\ Forall (survived C head c calls outs) q' /\ Forall (fun x => plain_shares (received_by x)) (q ++ q') /\
  NoDup (map number q) /\ NoDup (map number q') /\ t_t c <= Z.of_nat (length q) /\ t_t c <= Z.of_nat (length q') /\
  dkg_reconstruct (map share_of_party q) <> dkg_reconstruct (map share_of_party q').
Proof.
  destruct (run_ok (g_all n_log) (n_checks head n_log) ([true; true; true; true; true; true; true; true], [mkShare 1 65; mkShare 2 166; mkShare 3 138])) as (x & E & H); [vm_compute; reflexivity|].
  destruct (n_lift head n_log x _ eq_refl E H) as (outs & p0 & p1 & p2 & D & Hs & F0 & F1 & F2 & P0 & P1 & P2 & K).
  destruct (two_of _ _ _ _ _ _ _ K eq_refl) as (K1 & K2).
  exists toyC, g_tp, (g_calls n_log), outs, [g_party n_log 0 p0; g_party n_log 1 p1], [g_party n_log 1 p1; g_party n_log 2 p2]. split; [exact toyC_ok|]. split; [exact D|]. split; [exact Hs|].
  split; [constructor; [exact F0|constructor; [exact F1|constructor]]|]. split; [constructor; [exact F1|constructor; [exact F2|constructor]]|].
  split; [constructor; [exact P0|constructor; [exact P1|constructor; [exact P1|constructor; [exact P2|constructor]]]]|].
  split; [cbn [map number g_party fst]; repeat constructor; cbn [In]; lia|]. split; [cbn [map number g_party fst]; repeat constructor; cbn [In]; lia|].
  split; [vm_compute; discriminate|]. split; [vm_compute; discriminate|]. rewrite K1, K2. rewrite (two_rec 1), (two_rec 2) by lia. vm_compute. discriminate.
Qed.

Lemma C99_example : exists C c calls outs (parties : list (party C)), crypto_ok C /\ done_well C c calls outs /\ sound_commitments C (published c outs) /\
  Forall (survived C whole c calls outs) parties /\ Forall (fun x => plain_shares (received_by x)) parties /\ NoDup (map number parties) /\ t_t c <= Z.of_nat (length parties) /\
  t_n c = 4 /\ map share_of_party parties = [mkShare 1 84; mkShare 2 134; mkShare 3 184].
Proof.
  destruct (run_ok (g_all g_log) (n_checks whole g_log) ([true; true; true; true; true; true; true; true], [mkShare 1 84; mkShare 2 134; mkShare 3 184])) as (x & E & H); [vm_compute; reflexivity|].
  destruct (n_lift whole g_log x _ eq_refl E H) as (outs & p0 & p1 & p2 & D & Hs & F0 & F1 & F2 & P0 & P1 & P2 & K).
  exists toyC, g_tp, (g_calls g_log), outs, [g_party g_log 0 p0; g_party g_log 1 p1; g_party g_log 2 p2]. split; [exact toyC_ok|]. split; [exact D|]. split; [exact Hs|].
  split; [constructor; [exact F0|constructor; [exact F1|constructor; [exact F2|constructor]]]|]. split; [constructor; [exact P0|constructor; [exact P1|constructor; [exact P2|constructor]]]|].
  split; [cbn [map number g_party fst]; repeat constructor; cbn [In]; lia|]. split; [vm_compute; discriminate|]. split; [reflexivity|]. exact K.
Qed.

Lemma C103_noticed_example : exists C c calls outs (x : party C), crypto_ok C /\ done_well C c calls outs /\ survived C head c calls outs x /\ t_n c = 4 /\ t_t c = 2.
Proof.
  destruct (run_ok (g_all n_log) (n_checks head n_log) ([true; true; true; true; true; true; true; true], [mkShare 1 65; mkShare 2 166; mkShare 3 138])) as (x & E & H); [vm_compute; reflexivity|].
  destruct (n_lift head n_log x _ eq_refl E H) as (outs & p0 & p1 & p2 & D & Hs & F0 & F1 & F2 & P0 & P1 & P2 & K).
  exists toyC, g_tp, (g_calls n_log), outs, (g_party n_log 0 p0). split; [exact toyC_ok|]. split; [exact D|]. split; [exact F0|]. split; reflexivity.
Qed.
