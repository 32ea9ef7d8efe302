(** A concrete case of C106. *)
From Coq Require Import ZArith Lia List Bool Permutation.
From Verif Require Import PrimeL Fq Bytes Res Mem Sodium ToprfModel ToprfSpec ToprfProofs DkgModel DkgSpec MpmultModel MpmultProofs.
From Verif Require Import MulSpec MulUse UpdateSpec Update UpdateExamples MobileSpec.
Import ListNotations.
Open Scope list_scope.
Open Scope Z_scope.

Lemma can_epoch K delta d dsh n t m T : shares_key K d -> shares_key delta (mkDep (d_n d) (d_t d) dsh) -> 1 <= t <= n -> n <= 254 ->
  Z.of_nat m <= d_n d -> 2 * d_t d - 1 <= Z.of_nat m -> exists e, updates d e /\ d_n (e_new e) = n /\ d_t (e_new e) = t /\ e_taken e = T.
Proof.
  intros HK HD Ht Hn Hm He.
  destruct (can_update K delta d dsh n t (zrange 1 m) HK HD Ht Hn (zrange_NoDup _ _)) as (d' & E1 & E2 & ds & dl & U1 & U2 & U3 & U4 & U5);
    [apply Forall_forall; intros i Hi; apply zrange_In in Hi; lia|rewrite zrange_length; exact He|].
  exists (mkEpoch dsh ds dl d' T). cbn [e_new e_taken]. split; [|auto]. split; [exists delta; exact HD|]. cbn [e_dshares e_dealers e_dealt e_new]. auto 6.
Qed.

Lemma C106_example : exists k k' d taken es, shares_key k d /\ 0 <= k' < L /\ k' <> k /\ one_short taken d /\ all_updates d es /\ Forall (fun e => one_short (e_taken e) (e_new e)) es /\
  d_n d = 5 /\ d_t d = 3 /\ taken = [5; 2] /\ map (fun e => (d_n (e_new e), d_t (e_new e), e_taken e)) es = [(6, 2, [4]); (4, 2, [1])].
Proof.
  pose proof L_gt_65536 as HL.
  destruct (can_share 7 5 3 [13; 14]) as (s0 & D0); [lia|lia|lia|reflexivity|].
  destruct (can_epoch 5 7 up0 s0 6 2 5 [4] up0_key D0) as (e0 & U0 & N0 & T0 & X0); [lia|lia|cbn; lia|cbn; lia|].
  assert (exists K1, shares_key K1 (e_new e0)) as (K1 & HK1).
  { destruct U0 as ((delta & HD) & A & B & C & D & E). exists ((5 * delta) mod L). eapply updated; [exact up0_key|exact HD|]. exists (e_dealers e0), (e_dealt e0). auto. }
  destruct (can_share 9 6 2 [15]) as (s1 & D1); [lia|lia|lia|reflexivity|].
  destruct (can_epoch K1 9 (e_new e0) s1 4 2 3 [1] HK1) as (e1 & U1 & N1 & T1 & X1); [rewrite N0, T0; exact D1|lia|lia|lia|lia|].
  exists 5, 6, up0, [5; 2], [e0; e1]. split; [exact up0_key|]. split; [lia|]. split; [discriminate|].
  split; [split; [repeat constructor; cbn; intuition discriminate|split; [repeat constructor; cbn; lia|reflexivity]]|].
  split; [split; [exact U0|split; [exact U1|exact I]]|].
  split; [|split; [reflexivity|split; [reflexivity|split; [reflexivity|cbn [map]; rewrite N0, T0, X0, N1, T1, X1; reflexivity]]]].
  constructor; [|constructor; [|constructor]]; unfold one_short; [rewrite X0, N0, T0|rewrite X1, N1, T1]; (split; [repeat constructor; cbn; intuition discriminate|split; [repeat constructor; lia|reflexivity]]).
Qed.
