(** Concrete cases of C107. *)
From Coq Require Import ZArith Lia List Bool.
From Verif Require Import PrimeL Fq Bytes Res Mem Sodium OprfModel OprfSpec ToprfModel ToprfSpec ToprfProofs DkgModel DkgSpec MpmultModel.
From Verif Require Import MulSpec UpdateSpec Update ShortSpec Short.
Import ListNotations.
Open Scope list_scope.
Open Scope Z_scope.

Lemma can_draw K n t (a : list Z) : 0 <= K < L -> 1 <= n <= 254 -> 1 <= t <= 255 -> Z.of_nat (length a) = t - 1 -> Forall (fun c => 0 < c < 65536) a -> exists shares, drawn_key K (mkDep n t shares).
Proof.
  intros HK Hn Ht Ha HR. assert (SP : sharing_params K n t a (repeat (mkShare 0 0) (Z.to_nat n))) by (repeat split; try lia; rewrite repeat_length; lia).
  destruct (create_shares_full _ _ _ _ _ SP) as (sh & E & _). exists sh, a, (repeat (mkShare 0 0) (Z.to_nat n)). split; [|split; [exact SP|exact E]].
  eapply Forall_impl; [|exact HR]. cbv beta. unfold random_scalar. pose proof L_gt_65536. intros; lia.
Qed.

Lemma C107_example : exists K delta d dsh dealers d', drawn_key K d /\ drawn_key delta (mkDep (d_n d) (d_t d) dsh) /\ update_by dealers d dsh d' /\ 2 <= d_t d /\
  Z.of_nat (length dealers) = 2 * d_t d - 2 /\ K = 5 /\ delta = 7 /\ d_n d = 5 /\ d_t d = 3 /\ dealers = [4; 1; 5; 2] /\ d_n d' = 6 /\ d_t d' = 2.
Proof.
  pose proof L_gt_65536 as HL.
  destruct (can_draw 5 5 3 [11; 12]) as (s0 & K0); [lia|lia|lia|reflexivity|repeat constructor; lia|].
  destruct (can_draw 7 5 3 [13; 14]) as (e0 & D0); [lia|lia|lia|reflexivity|repeat constructor; lia|].
  destruct (any_dealers 5 7 (mkDep 5 3 s0) e0 6 2 [4; 1; 5; 2] (drawn_shares _ _ K0) (drawn_shares _ _ D0)) as (d' & K' & N' & T' & U' & _); [lia|lia|repeat constructor; cbn; intuition discriminate|repeat constructor; cbn; lia|discriminate|].
  exists 5, 7, (mkDep 5 3 s0), e0, [4; 1; 5; 2], d'. cbn [d_n d_t] in *. repeat (split; [assumption || reflexivity || lia|]). exact T'.
Qed.

Lemma C107_enough_example : exists K delta d dsh dealers d' K', shares_key K d /\ shares_key delta (mkDep (d_n d) (d_t d) dsh) /\ update_by dealers d dsh d' /\
  2 * d_t d - 1 <= Z.of_nat (length dealers) /\ shares_key K' d' /\ K = 5 /\ delta = 7 /\ d_n d = 5 /\ d_t d = 3 /\ dealers = [4; 1; 5; 2; 3].
Proof.
  pose proof L_gt_65536 as HL.
  destruct (can_draw 5 5 3 [11; 12]) as (s0 & K0); [lia|lia|lia|reflexivity|repeat constructor; lia|].
  destruct (can_draw 7 5 3 [13; 14]) as (e0 & D0); [lia|lia|lia|reflexivity|repeat constructor; lia|].
  destruct (any_dealers 5 7 (mkDep 5 3 s0) e0 6 2 [4; 1; 5; 2; 3] (drawn_shares _ _ K0) (drawn_shares _ _ D0)) as (d' & K' & N' & T' & U' & S'); [lia|lia|repeat constructor; cbn; intuition discriminate|repeat constructor; cbn; lia|discriminate|].
  exists 5, 7, (mkDep 5 3 s0), e0, [4; 1; 5; 2; 3], d', K'. split; [exact (drawn_shares _ _ K0)|]. split; [exact (drawn_shares _ _ D0)|]. cbn [d_n d_t] in *. repeat (split; [assumption || reflexivity || (cbn; lia)|]). reflexivity.
Qed.

Lemma C107_refutation : ~ (forall K delta d dsh dealers d' K', drawn_key K d -> drawn_key delta (mkDep (d_n d) (d_t d) dsh) -> dealers <> [] -> update_by dealers d dsh d' -> shares_key K' d' ->
  K' = (K * delta) mod L).
Proof.
  intros H. destruct C107_example as (K & delta & d & dsh & dealers & d' & HK & HD & HU & H2 & Hl & _). destruct (unnoticed K delta d dsh dealers d' HK HD HU H2 Hl) as (K' & S' & N').
  apply N'. eapply H; [exact HK|exact HD| |exact HU|exact S']. intros ->. cbn in Hl. lia.
Qed.
