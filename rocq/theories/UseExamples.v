(** Cases for C81. *)
From Coq Require Import ZArith Lia List Bool Permutation.
From Coq.Strings Require Import Byte.
From Verif Require Import PrimeL Fq Bytes Res Mem Sodium OprfModel OprfSpec OprfProofs ToprfModel ToprfSpec ToprfProofs DkgModel DkgSpec WireModel WireSpec TpCrypto TpModel PeerModel TpRun TpSpec SafeSpec RunSpec HonestExamples TpExamples.
From Verif Require Import GoodSpec Good GoodExamples Honest UseSpec Use GoodUse.
From Verif Require DkgProofs.
Import ListNotations.
Open Scope list_scope.
Open Scope Z_scope.

Lemma input_ok : (length ex_pwd <= 255)%nat /\ HashToGroup toyR toyH ex_pwd <> rzero toyR /\ random_scalar 77.
Proof. split; [vm_compute; repeat constructor|]. split; [apply toy_htg_neq; vm_compute; discriminate|apply small_random_scalar; lia]. Qed.

(** the shares of 34 + 50x *)
Lemma key_34 : dkg_reconstruct [mkShare 1 84; mkShare 2 134; mkShare 3 184] = 34.
Proof.
  rewrite (DkgProofs.dkg_reconstruct_spec [34; 50]).
  - cbn [poly]. apply Z.mod_small. pose proof L_gt_65536. lia.
  - cbn [map s_index]. repeat (constructor; [cbn [In]; lia|]). constructor.
  - cbn [map s_index]. unfold index_ok. repeat (constructor; [lia|]). constructor.
  - cbn [length]. lia.
  - intros s [<-|[<-|[<-|[]]]]; cbn [s_value s_index poly]; f_equal; lia.
Qed.

Lemma C81_generated_example : exists C c calls outs (parties : list (party C)) A H x r, crypto_ok C /\ done_well C c calls outs /\ sound_commitments C (published c outs) /\
  Forall (GoodSpec.honest C c calls outs) parties /\ Forall (fun x => plain_shares (received_by x)) parties /\ dealers C c (published c outs) A /\ NoDup (map number parties) /\ t_t c <= Z.of_nat (length parties) /\
  hashes_ok H /\ zsum (map (hd 0) A) mod L = 34 /\ (length x <= 255)%nat /\ HashToGroup (cR C) H x <> rzero (cR C) /\ random_scalar r /\ t_n c = 4 /\ length parties = 3%nat.
Proof.
  destruct g_example as (outs & ps & HC & D & S & F & P & N & T & N4 & K). cbv zeta in *.
  destruct (one_key toyC HC _ _ _ _ D S F P N T) as (A & HA & E). rewrite K in E.
  exists toyC, g_tp, (g_calls g_log), outs, ps, A, toyH, ex_pwd, 77. split; [exact HC|]. split; [exact D|]. split; [exact S|]. split; [exact F|]. split; [exact P|]. split; [exact HA|]. split; [exact N|]. split; [exact T|].
  split; [exact toyH_ok|]. split; [rewrite <- E; exact key_34|]. split; [apply input_ok|]. split; [exact (proj1 (proj2 input_ok))|]. split; [apply input_ok|]. split; [exact N4|].
  rewrite <- (map_length share_of_party), K. reflexivity.
Qed.

Lemma shares_nodup cs n : NoDup (shares_of cs n).
Proof.
  apply (NoDup_map_inv s_index). unfold shares_of. rewrite map_map. cbn [s_index]. rewrite map_id. apply FinFun.Injective_map_NoDup; [intros a b; lia|]. apply seq_NoDup.
Qed.
Lemma C81_honest_example : exists C x w r0 r H qs, crypto_ok C /\ RunSpec.honest C x w /\ hashes_ok H /\ begin C x = Ok (Some r0) /\ rounds C w 10 r0 = Ok (Some r) /\
  quorum (h_t C x) (map (p_share C) (r_peers C r)) qs /\ qs <> map (p_share C) (r_peers C r) /\ zsum (map (fun i => hd 0 (pe_a (s_peer w i 3))) (zrange 0 (Z.to_nat (h_n C x)))) mod L = 24.
Proof.
  destruct (honest_created toyC toyC_ok (x_ceremony (tx_now + 6)) x_sched x_honest (repeat (mkShare 0 0) 3) eq_refl) as (r0 & r & a & B & R & SP & E).
  rewrite create_shares_eq in E by apply SP. injection E as E.
  exists toyC, (x_ceremony (tx_now + 6)), x_sched, r0, r, toyH, (tl (map (p_share toyC) (r_peers toyC r))).
  split; [exact toyC_ok|]. split; [exact x_honest|]. split; [exact toyH_ok|]. split; [exact B|]. split; [exact R|]. rewrite <- E.
  match goal with |- context [shares_of ?cs ?n] => pose proof (shares_nodup cs n) as ND; pose proof (shares_of_length cs n) as Ls; destruct (shares_of cs n) as [|s l] end.
  - discriminate.
  - cbn [tl]. inversion ND; subst. split; [|split].
    + split; [assumption|]. split; [intros q; right; assumption|]. cbn [length] in Ls. change (h_n toyC (x_ceremony (tx_now + 6))) with 3 in Ls. change (h_t toyC (x_ceremony (tx_now + 6))) with 2. lia.
    + intros Q. apply (f_equal (@length _)) in Q. cbn [length] in Q. lia.
    + vm_compute. reflexivity.
Qed.
