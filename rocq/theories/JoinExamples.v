(** Concrete cases for C103. *)
From Coq Require Import ZArith Lia List Bool.
From Coq.Strings Require Import Byte.
From Verif Require Import Bytes Res Mem Sodium WireModel WireSpec TpCrypto TpModel PeerModel TpRun TpSpec TpMsg TpExamples TpRunExamples.
From Verif Require Import TpAgree BlameSpec TpBlame TpStart JoinSpec Join.
Import ListNotations.
Open Scope list_scope.
Open Scope Z_scope.

Lemma tx_len : zlen tx_sid = 32.
Proof. reflexivity. Qed.
Lemma tx_u64 : is_u64 tx_now.
Proof. unfold is_u64, tx_now; lia. Qed.
Lemma tx_fresh k : 0 <= k <= 3600 -> fresh 3600 0 tx_now (tx_now + k).
Proof. intros H. unfold fresh. cbn [Z.eqb]. unfold tx_now. rewrite !Z.mod_small by lia. lia. Qed.

(** an announcement of the session [tx_sid] by anybody for 5 peers and threshold 3 *)
Lemma announced sk : exists c msg, start_tp toyC d_blank 3600 5 3 [x70] (zeros (Z.to_nat msg0_SIZE)) tx_sid sk tx_now = Ok (0, c, msg) /\ zlen msg = 177.
Proof.
  destruct (start_forward toyC d_blank 3600 5 3 [x70] (zeros (Z.to_nat msg0_SIZE)) tx_sid sk tx_now (ok_cS toyC toyC_ok) (ok_cH toyC toyC_ok)
    ltac:(lia) ltac:(lia) ltac:(unfold zlen; cbn; lia) ltac:(reflexivity) tx_len tx_u64) as (c & m & d & E & L & _).
  exists c, m. split; [exact E|exact L].
Qed.

Lemma join_any sk (p : peer toyC) lt k c msg : 0 <= k <= 3600 ->
  start_tp toyC d_blank 3600 5 3 [x70] (zeros (Z.to_nat msg0_SIZE)) tx_sid sk tx_now = Ok (0, c, msg) ->
  exists p', start_peer toyC p 3600 lt msg (tx_now + k) = Ok (0, p') /\ p_n toyC p' = 5 /\ p_t toyC p' = 3 /\ p_sid toyC p' = tx_sid /\ p_tp_pk toyC p' = sig_pk (cS toyC) sk.
Proof.
  intros Hk E. destruct (parameters_agree toyC d_blank 3600 5 3 [x70] (zeros (Z.to_nat msg0_SIZE)) tx_sid sk tx_now c msg p 3600 lt (tx_now + k)
    toyC_ok E ltac:(lia) tx_len tx_u64 (tx_fresh k Hk)) as (p' & P1 & P2 & P3 & P4 & P5 & P6 & P7 & _).
  pose proof (start_tp_inv toyC _ _ _ _ _ _ _ _ _ _ _ E) as (_ & _ & _ & _ & _ & _ & A7 & _ & _ & A10 & _).
  exists p'. split; [exact P1|]. rewrite P2, P3, P4, P5. auto.
Qed.

Lemma C103_twice : exists C (p : peer C) eps lt msg now p1 now2 p2, crypto_ok C /\ zlen msg = 177 /\
  start_peer C p eps lt msg now = Ok (0, p1) /\ now < now2 /\ start_peer C p1 eps lt msg now2 = Ok (0, p2) /\ p_sid C p2 = p_sid C p1.
Proof.
  destruct (announced tx_sk) as (c & m & E & L). destruct (join_any tx_sk d_pblank (d_lt 1) 1 c m ltac:(lia) E) as (p1 & P1 & _ & _ & P4 & _).
  destruct (join_any tx_sk p1 (d_lt 1) 1800 c m ltac:(lia) E) as (p2 & Q1 & _ & _ & Q4 & _).
  exists toyC, d_pblank, 3600, (d_lt 1), m, (tx_now + 1), p1, (tx_now + 1800), p2.
  split; [exact toyC_ok|]. split; [exact L|]. split; [exact P1|]. split; [lia|]. split; [exact Q1|congruence].
Qed.

Lemma two_keys : sig_pk (cS toyC) (le_bytes 64 77) <> sig_pk (cS toyC) (le_bytes 64 78).
Proof. intros H. apply (f_equal (map bz)) in H. vm_compute in H. discriminate H. Qed.

Lemma C103_two_parties : exists C (p : peer C) eps lt msg msg' now p1 p2, crypto_ok C /\ zlen msg = 177 /\ zlen msg' = 177 /\
  start_peer C p eps lt msg now = Ok (0, p1) /\ start_peer C p eps lt msg' now = Ok (0, p2) /\ p_sid C p1 = p_sid C p2 /\ p_tp_pk C p1 <> p_tp_pk C p2.
Proof.
  destruct (announced (le_bytes 64 77)) as (c & m & E & L). destruct (join_any _ d_pblank (d_lt 1) 1 c m ltac:(lia) E) as (p1 & P1 & _ & _ & P4 & P5).
  destruct (announced (le_bytes 64 78)) as (c' & m' & E' & L'). destruct (join_any _ d_pblank (d_lt 1) 1 c' m' ltac:(lia) E') as (p2 & Q1 & _ & _ & Q4 & Q5).
  exists toyC, d_pblank, 3600, (d_lt 1), m, m', (tx_now + 1), p1, p2.
  split; [exact toyC_ok|]. split; [exact L|]. split; [exact L'|]. split; [exact P1|]. split; [exact Q1|]. split; [congruence|]. rewrite P5, Q5. exact two_keys.
Qed.

Lemma C103_lowered : exists C c eps n t name buf sid sk now c' msg (p : peer C) lt p', crypto_ok C /\
  start_tp C c eps n t name buf sid sk now = Ok (0, c', msg) /\
  start_peer C p eps lt (renumbered msg n 2) now = Ok (0, p') /\ p_sid C p' = t_sid c' /\ p_tp_pk C p' = t_pk c' /\ p_t C p' < t_t c'.
Proof.
  destruct (announced tx_sk) as (c & m & E & L).
  destruct (join_renumbered toyC d_blank 3600 5 3 [x70] (zeros (Z.to_nat msg0_SIZE)) tx_sid tx_sk tx_now c m d_pblank 3600 (d_lt 1) tx_now 5 2
    toyC_ok E tx_len tx_u64) as (p' & P1 & P2 & P3 & P4 & P5); [|lia|lia|].
  { replace tx_now with (tx_now + 0) at 2 by lia. apply tx_fresh. lia. }
  pose proof (start_tp_inv toyC _ _ _ _ _ _ _ _ _ _ _ E) as (_ & _ & _ & _ & _ & A6 & _).
  exists toyC, d_blank, 3600, 5, 3, [x70], (zeros (Z.to_nat msg0_SIZE)), tx_sid, tx_sk, tx_now, c, m, d_pblank, (d_lt 1), p'.
  split; [exact toyC_ok|]. split; [exact E|]. split; [exact P1|]. split; [exact P4|]. split; [exact P5|]. rewrite P3, A6. lia.
Qed.

Lemma C103_window_example : exists (p : peer toyC) lt msg now now2 p' q', zlen msg = 177 /\ 0 <= 3600 <= now /\ now + 3600 < 2 ^ 64 /\ 3600 <= now2 /\ now2 + 3600 < 2 ^ 64 /\
  start_peer toyC p 3600 lt msg now = Ok (0, p') /\ start_peer toyC p 3600 lt msg now2 = Ok (0, q') /\ now2 - now = 3600.
Proof.
  destruct (announced tx_sk) as (c & m & E & L). destruct (join_any tx_sk d_pblank (d_lt 1) 0 c m ltac:(lia) E) as (p1 & P1 & _).
  destruct (join_any tx_sk d_pblank (d_lt 1) 3600 c m ltac:(lia) E) as (p2 & Q1 & _).
  exists d_pblank, (d_lt 1), m, (tx_now + 0), (tx_now + 3600), p1, p2.
  split; [exact L|]. do 4 (split; [unfold tx_now; lia|]). split; [exact P1|]. split; [exact Q1|unfold tx_now; lia].
Qed.

Lemma C103_announces_example : exists msg pk n t, announces toyC msg pk tx_sid tx_now n t /\ fresh 3600 0 tx_now (tx_now + 1) /\ 2 <= t < n /\ n <= 128.
Proof.
  destruct (announced tx_sk) as (c & m & E & L). destruct (join_any tx_sk d_pblank (d_lt 1) 1 c m ltac:(lia) E) as (p1 & P1 & P2 & P3 & P4 & P5).
  destruct (start_forward toyC d_blank 3600 5 3 [x70] (zeros (Z.to_nat msg0_SIZE)) tx_sid tx_sk tx_now (ok_cS toyC toyC_ok) (ok_cH toyC toyC_ok)
    ltac:(lia) ltac:(lia) ltac:(unfold zlen; cbn; lia) ltac:(reflexivity) tx_len tx_u64) as (c2 & m2 & d & E2 & L2 & D & G).
  rewrite E in E2. injection E2 as <- <-.
  exists m, (sig_pk (cS toyC) tx_sk), 5, 3. split; [|split; [apply tx_fresh; lia|lia]].
  split; [exact L|]. split; [apply (zlen_len _ 32), (ok_sig_pk_len _ (ok_cS toyC toyC_ok))|]. split; [exact tx_len|]. split; [lia|]. split; [lia|].
  exists d. split; [exact D|exact G].
Qed.

Lemma C103_renumbered_example : exists c' msg, start_tp toyC d_blank 3600 5 3 [x70] (zeros (Z.to_nat msg0_SIZE)) tx_sid tx_sk tx_now = Ok (0, c', msg) /\
  zlen tx_sid = 32 /\ is_u64 tx_now /\ fresh 3600 0 tx_now (tx_now + 1) /\ renumbered msg 4 2 <> msg.
Proof.
  destruct (run_ok (start_tp toyC d_blank 3600 5 3 [x70] (zeros (Z.to_nat msg0_SIZE)) tx_sid tx_sk tx_now)
    (fun o => (fst (fst o), match rd (snd o) 175 2 with Ok b => map bz b | UB => [] end)) (0, [5; 3])) as ([[r c'] m] & E & H); [vm_compute; reflexivity|].
  assert (H1 : r = 0) by (apply (f_equal fst) in H; exact H). apply (f_equal snd) in H. cbn [fst snd] in H. subst r.
  destruct (announced tx_sk) as (c2 & m2 & E2 & L2). rewrite E in E2. injection E2 as _ <-.
  exists c', m. split; [exact E|]. split; [exact tx_len|]. split; [exact tx_u64|]. split; [apply tx_fresh; lia|].
  intros R. rewrite <- R in H. unfold renumbered in H.
  pose proof (rd_mid (firstn 175 m) [zb 4; zb 2] [] 175 2) as Q. rewrite app_nil_r in Q. rewrite Q in H; [vm_compute in H; discriminate H| |reflexivity].
  unfold zlen in *. rewrite firstn_length. lia.
Qed.
