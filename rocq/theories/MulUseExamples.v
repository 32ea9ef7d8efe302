(** Concrete cases of C90: the keys of C81's examples, each multiplied with itself. *)
From Coq Require Import ZArith Lia List Bool.
From Coq.Strings Require Import Byte.
From Verif Require Import PrimeL Fq Bytes Res Mem Sodium OprfModel OprfSpec ToprfModel ToprfSpec ToprfProofs ToprfExamples DkgModel DkgSpec MpmultModel MpmultProofs WireModel WireSpec TpCrypto TpModel PeerModel TpRun TpSpec TpExamples SafeSpec RunSpec GoodSpec Good GoodExamples.
From Verif Require Import HonestExamples UseSpec UseExamples GoodUse MulSpec MulUse.
Import ListNotations.
Open Scope list_scope.
Open Scope Z_scope.

(** the shares of a sharing carry all the numbers *)
Lemma shares_numbered K n t a buf shares ds : sharing_params K n t a buf -> create_shares K n t a buf = Ok shares ->
  Forall (fun d => 1 <= d <= n) ds -> Forall (fun d => (exists s, In s shares /\ s_index s = d) /\ (exists s, In s shares /\ s_index s = d)) ds.
Proof.
  intros SP E HF. eapply Forall_impl; [|exact HF]. cbv beta. intros d Hd. destruct (create_shares_full _ _ _ _ _ SP) as (sh & E' & _ & Hi & _). assert (sh = shares) by congruence. subst sh.
  assert (exists s, In s shares /\ s_index s = d) as X by (eexists; split; [eapply nth_error_In, Hi, Hd|reflexivity]). split; exact X.
Qed.

Lemma two_recipients n dealt : 3 <= n -> Forall (fun shs => Z.of_nat (length shs) = n) dealt ->
  exists parties, Forall (fun p => collected n dealt (fst p) (snd p)) parties /\ NoDup (map fst parties) /\ map fst parties = [3; 1].
Proof.
  intros Hn HF. destruct (can_collect n dealt 3 ltac:(lia) HF) as (r3 & C3). destruct (can_collect n dealt 1 ltac:(lia) HF) as (r1 & C1).
  exists [(3, r3); (1, r1)]. split; [constructor; [exact C3|constructor; [exact C1|constructor]]|]. split; [cbn [map fst]; repeat constructor; cbn; intuition discriminate|reflexivity].
Qed.

Lemma C90_example : exists secA secB nA tA n t rA rB bufA bufB ashares bshares dealers dealt parties,
  sharing_params secA nA tA rA bufA /\ sharing_params secB nA tA rB bufB /\
  create_shares secA nA tA rA bufA = Ok ashares /\ create_shares secB nA tA rB bufB = Ok bshares /\
  NoDup dealers /\ 2 * tA - 1 <= Z.of_nat (length dealers) /\ 1 <= n <= 254 /\
  dealt_products ashares bshares n t dealers dealt /\
  Forall (fun p => collected n dealt (fst p) (snd p)) parties /\ NoDup (map fst parties) /\ t <= Z.of_nat (length parties) /\
  (secA * secB) mod L = 35 /\ tA = 3 /\ n = 6 /\ t = 2 /\ dealers = [5; 1; 2; 4; 3] /\ ristretto_ok toyR /\ hashes_ok toyH.
Proof.
  set (buf := repeat (mkShare 0 0) 5).
  assert (SA : sharing_params 5 5 3 [11; 12] buf) by (repeat split; try reflexivity; try lia; vm_compute; reflexivity).
  assert (SB : sharing_params 7 5 3 [13; 14] buf) by (repeat split; try reflexivity; try lia; vm_compute; reflexivity).
  destruct (create_shares_full _ _ _ _ _ SA) as (sa & EA & _). destruct (create_shares_full _ _ _ _ _ SB) as (sb & EB & _).
  assert (HD : Forall (fun d => 1 <= d <= 5) [5; 1; 2; 4; 3]) by (repeat constructor; lia).
  destruct (can_multiply sa sb 6 2 [5; 1; 2; 4; 3]) as (dealt & HP & HL); [lia|lia| |].
  { pose proof (shares_numbered _ _ _ _ _ _ _ SA EA HD) as XA. pose proof (shares_numbered _ _ _ _ _ _ _ SB EB HD) as XB. rewrite Forall_forall in *. intros d Hd. split; [apply XA, Hd|apply XB, Hd]. }
  destruct (two_recipients 6 dealt ltac:(lia) HL) as (ps & P1 & P2 & P3).
  exists 5, 7, 5, 3, 6, 2, [11; 12], [13; 14], buf, buf, sa, sb, [5; 1; 2; 4; 3], dealt, ps.
  split; [exact SA|]. split; [exact SB|]. split; [exact EA|]. split; [exact EB|]. split; [repeat constructor; cbn; intuition discriminate|]. split; [cbn [length]; lia|]. split; [lia|].
  split; [exact HP|]. split; [exact P1|]. split; [exact P2|]. split; [rewrite <- (map_length fst), P3; cbn [length]; lia|].
  split; [vm_compute; reflexivity|]. repeat (split; [reflexivity|]). split; [exact toyR_ok|exact toyH_ok].
Qed.

Lemma C90_honest_example : exists C x w r s n t dealers dealt, crypto_ok C /\ RunSpec.honest C x w /\ begin C x = Ok (Some r) /\ rounds C w 10 r = Ok (Some s) /\
  NoDup dealers /\ 2 * h_t C x - 1 <= Z.of_nat (length dealers) /\ 1 <= n <= 254 /\
  dealt_products (map (p_share C) (r_peers C s)) (map (p_share C) (r_peers C s)) n t dealers dealt /\ n = 7 /\ t = 4 /\ dealers = [2; 3; 1].
Proof.
  destruct (honest_created toyC toyC_ok (x_ceremony (tx_now + 6)) x_sched x_honest (repeat (mkShare 0 0) 3) eq_refl) as (r0 & r & a & B & R & SP & E).
  destruct (can_multiply (map (p_share toyC) (r_peers toyC r)) (map (p_share toyC) (r_peers toyC r)) 7 4 [2; 3; 1]) as (dealt & HP & _); [lia|lia| |].
  { eapply shares_numbered; [exact SP|exact E|]. change (h_n toyC (x_ceremony (tx_now + 6))) with 3. repeat constructor; lia. }
  exists toyC, (x_ceremony (tx_now + 6)), x_sched, r0, r, 7, 4, [2; 3; 1], dealt. split; [exact toyC_ok|]. split; [exact x_honest|]. split; [exact B|]. split; [exact R|].
  split; [repeat constructor; cbn; intuition discriminate|]. split; [change (h_t toyC (x_ceremony (tx_now + 6))) with 2; cbn [length]; lia|]. split; [lia|]. split; [exact HP|]. repeat split; reflexivity.
Qed.

Lemma C90_generated_example : exists C c calls outs (ps : list (party C)) A n t dealers dealt, crypto_ok C /\ done_well C c calls outs /\ sound_commitments C (published c outs) /\
  Forall (GoodSpec.honest C c calls outs) ps /\ Forall (fun x => plain_shares (received_by x)) ps /\ GoodSpec.dealers C c (published c outs) A /\
  NoDup dealers /\ 2 * t_t c - 1 <= Z.of_nat (length dealers) /\ 1 <= n <= 254 /\
  dealt_products (map share_of_party ps) (map share_of_party ps) n t dealers dealt /\ t_n c = 4 /\ length ps = 3%nat /\ n = 5 /\ t = 2.
Proof.
  destruct g_example as (outs & ps & HC & D & S & F & P & N & T & N4 & K). cbv zeta in *.
  destruct (one_key toyC HC _ _ _ _ D S F P N T) as (A & HA & _).
  set (ds := map s_index (map share_of_party ps)).
  destruct (can_multiply (map share_of_party ps) (map share_of_party ps) 5 2 ds) as (dealt & HP & _); [lia|lia| |].
  { apply Forall_forall. intros d Hd. unfold ds in Hd. apply in_map_iff in Hd. destruct Hd as (s & E & Hs). split; exists s; split; assumption. }
  exists toyC, g_tp, (g_calls g_log), outs, ps, A, 5, 2, ds, dealt. split; [exact HC|]. split; [exact D|]. split; [exact S|]. split; [exact F|]. split; [exact P|]. split; [exact HA|].
  assert (L3 : length ps = 3%nat) by (rewrite <- (map_length share_of_party), K; reflexivity).
  split; [unfold ds; rewrite K; vm_compute; repeat constructor; cbn; intuition discriminate|]. split; [unfold ds; rewrite !map_length, L3; change (t_t g_tp) with 2; lia|]. split; [lia|]. split; [exact HP|].
  split; [exact N4|]. split; [exact L3|]. split; reflexivity.
Qed.
