(** Proofs of C94, the peers and the session. *)
From Coq Require Import ZArith Lia List Bool.
From Coq.Strings Require Import Byte.
From Verif Require Import Bytes Res Mem Sodium DkgModel WireModel TpCrypto TpModel PeerModel TpRun TpSpec RunSpec AnonSpec.
From Verif Require Import WireSpec WireProofs TpFrame PeerFrame TpControl TpAgree HonestMsg Anon.
Import ListNotations.
Open Scope list_scope.
Open Scope Z_scope.

Lemma nth_combine {A B} (a : list A) : forall (b : list B) n x y, nth_error a n = Some x -> nth_error b n = Some y -> nth_error (combine a b) n = Some (x, y).
Proof. induction a as [|u a IH]; intros [|z b] [|n] x y P Q; try discriminate; cbn in *; [congruence|]. apply IH; assumption. Qed.

Section PEER.
Variable C : crypto.
Hypothesis HC : crypto_ok C.
Notation S := (cS C).

Definition announced (k k' : bytes) (r r' : hres (peer C)) : Prop :=
  match r with
  | UB => r' = UB
  | Ok (ret, c1, w) =>
      ret = 0 /\ (exists m, zlen m = 175 /\ w = m ++ sig_sign S k m /\ r' = Ok (0, c1, m ++ sig_sign S k' m)) \/
      ret <> 0 /\ r' = Ok (ret, holding C k' c1, w)
  end.

Lemma h_step23 e c k input out : announced (p_lt_sk C c) k (peer_step23 C e c input out) (peer_step23 C e (holding C k c) input out).
Proof.
  unfold peer_step23. destruct (negb (zlen input =? _)); [right; split; [lia|reflexivity]|].
  destruct (Z.eqb_spec (zlen out) (msg2_SIZE + sign_BYTES)) as [Zo|]; cbn [negb]; [|right; split; [lia|reflexivity]].
  destruct (getz input off_to) as [b|]; [|reflexivity]. cbn [bind]. cbv zeta.
  change (peer_recv_tp C (holding C k c) input 0 msg1_SIZE 1 (bz b) (pe_r e 0)) with
    (do (ret, last') <- recv_msg S input 0 msg1_SIZE 1 0 (bz b) (p_tp_pk C c) (p_sid C c) (p_eps C c) (p_tp_last C c) (pe_r e 0) ;; Ok (ret, peer_tp_last_set C (holding C k c) last')).
  unfold peer_recv_tp. destruct (recv_msg _ _ _ _ _ _ _ _ _ _ _ _) as [[ret last]|] eqn:R; [|reflexivity]. cbn [bind]. apply recv_codes in R.
  destruct (Z.eqb_spec ret 0) as [->|]; cbn [negb]; [|right; split; [lia|reflexivity]].
  destruct (_ || _); [right; split; [lia|reflexivity]|].
  destruct (wr out hdr_SIZE _) as [o1|] eqn:W1; [|reflexivity]. cbn [bind]. destruct (wr o1 _ _) as [o2|] eqn:W2; [|reflexivity]. cbn [bind].
  change (p_sid C (peer_tp_last_set C (holding C k c) last)) with (p_sid C c). change (p_sid C (peer_tp_last_set C c last)) with (p_sid C c).
  destruct (send_msg _ _ _ _ _ _ _ _ _ _) as [o3|] eqn:Es; [|reflexivity]. cbn [bind]. destruct (rd o3 0 msg2_SIZE) as [m|] eqn:Rm; [|reflexivity]. cbn [bind].
  change (p_lt_sk C (peer_tp_last_set C (holding C k c) last)) with k. change (p_lt_sk C (peer_tp_last_set C c last)) with (p_lt_sk C c).
  assert (Z3 : zlen o3 = 239).
  { unfold send_msg in Es. repeat (apply bind_ok in Es; destruct Es as (? & ? & Es)). apply wr_zlen in Es.
    repeat match goal with W : wr _ _ _ = Ok _ |- _ => apply wr_zlen in W end. change (msg2_SIZE + sign_BYTES) with 239 in Zo. lia. }
  change msg2_SIZE with 175 in *. apply rd_inv in Rm. destruct Rm as (_ & _ & _ & Zm & Em).
  assert (G : forall q, wr o3 175 (sig_sign S q m) = Ok (m ++ sig_sign S q m)).
  { intros q. assert (Zs : zlen (sig_sign S q m) = 64) by (apply sig_zlen; apply (ok_cS C HC)). rewrite wr_ok by lia. rewrite Zs. rewrite skipn_all2 by (unfold zlen in *; lia). rewrite app_nil_r. f_equal. f_equal. rewrite Em. reflexivity. }
  rewrite !G. cbn [bind]. left. split; [reflexivity|]. exists m. repeat split. exact Zm.
Qed.

Lemma h_next e c k input out : p_step C c = 0 -> announced (p_lt_sk C c) k (peer_next C e c input out) (peer_next C e (holding C k c) input out).
Proof.
  intros H. rewrite !(peer_next_0 C) by exact H. pose proof (h_step23 e c k input out) as A. unfold announced in *.
  destruct (peer_step23 C e c input out) as [[[ret c1] w]|]; cbn [peer_finish_step bind]; [|rewrite A; reflexivity].
  destruct A as [(-> & m & Zm & -> & A)|(N & A)]; rewrite A; cbn [bind peer_finish_step].
  - left. split; [reflexivity|]. exists m. repeat split. exact Zm.
  - right. split; [exact N|]. reflexivity.
Qed.
Lemma next_99 e c input out : p_step C c = 99 -> peer_next C e c input out = Ok (99, peer_step_set C c 99 99, out).
Proof. intros H. unfold peer_next. rewrite H. cbn. rewrite H. reflexivity. Qed.

(** the whole history of a peer *)
Lemma run_99 calls : forall c, p_step C c = 99 -> exists outs, peer_run C c calls = Ok outs /\ Forall (fun o => fst (fst o) = 99) outs /\ map snd outs = map snd calls.
Proof.
  induction calls as [|[[e input] out] calls IH]; intros c H; [exists []; repeat split; constructor|]. cbn [peer_run]. rewrite next_99 by exact H. cbn [bind].
  destruct (IH (peer_step_set C c 99 99) eq_refl) as (outs & E & F & M). rewrite E. cbn [bind]. exists ((99, peer_step_set C c 99 99, out) :: outs). repeat split; [constructor; trivial|cbn; congruence].
Qed.

Theorem peer_anonymous c k e input out calls outs : p_step C c = 0 -> peer_run C c ((e, input, out) :: calls) = Ok outs ->
  exists ret c1 w c1' w' rest rest', outs = (ret, c1, w) :: rest /\ peer_run C (holding C k c) ((e, input, out) :: calls) = Ok ((ret, c1', w') :: rest') /\
    map (fun o => fst (fst o)) rest' = map (fun o => fst (fst o)) rest /\ map snd rest' = map snd rest /\
    (ret = 0 -> exists m, zlen m = 175 /\ w = m ++ sig_sign S (p_lt_sk C c) m /\ w' = m ++ sig_sign S k m /\ c1' = c1 /\ rest' = rest) /\
    (ret <> 0 -> w' = w).
Proof.
  intros H R. cbn [peer_run] in R. pose proof (h_next e c k input out H) as A. apply bind_ok in R. destruct R as (((ret & c1) & w) & E & R). rewrite E in A. cbn [announced] in A.
  apply bind_ok in R. destruct R as (rest & Rr & R). assert (outs = (ret, c1, w) :: rest) by congruence. subst outs. clear R. cbn [peer_run].
  destruct A as [(-> & m & Zm & Ew & A)|(N & A)]; rewrite A; cbn [bind].
  - rewrite Rr. cbn [bind]. exists 0, c1, w, c1, (m ++ sig_sign S k m), rest, rest. do 4 (split; [reflexivity|]). split; [|congruence]. intros _. exists m. repeat split; trivial.
  - assert (S9 : p_step C c1 = 99) by (rewrite (peer_next_0 C) in E by exact H; apply pfinish_inv in E; destruct E as (p & E & ->); cbn; destruct (Z.eqb_spec ret 0); [contradiction|reflexivity]).
    destruct (run_99 calls c1 S9) as (o1 & E1 & F1 & M1). destruct (run_99 calls (holding C k c1) S9) as (o2 & E2 & F2 & M2). rewrite E2. cbn [bind]. rewrite E1 in Rr. assert (rest = o1) by congruence. subst rest.
    exists ret, c1, w, (holding C k c1), w, o1, o2. do 2 (split; [reflexivity|]). split; [|split; [congruence|split; [intros; contradiction|reflexivity]]].
    assert (L : length o2 = length o1) by (apply (f_equal (@length bytes)) in M1, M2; rewrite !map_length in *; congruence).
    clear - F1 F2 L. revert o2 F2 L. induction o1 as [|a o1 IH]; intros [|b o2] F2 L; try discriminate; [reflexivity|]. cbn [map]. inversion F1; inversion F2; subst. f_equal; [congruence|]. apply IH; auto.
Qed.
End PEER.

Section SESSION.
Variable C : crypto.
Hypothesis HC : crypto_ok C.
Variable x : ceremony C.
Variable l : Z -> bytes.
Variable w : sched.
Notation S := (cS C).
Let x' := signing_with C l x.
Let keys (k : Z -> bytes) := map (fun i => sig_pk S (k i)) (zrange 0 (Z.to_nat (h_n C x))).
Let fh (s : Z * tp * bytes) : Z * tp * bytes := (fst (fst s), knowing (keys l) (snd (fst s)), snd s).

Fixpoint rel (is : list Z) (ps ps' : list (peer C)) : Prop :=
  match is, ps, ps' with
  | [], [], [] => True
  | i :: is, p :: ps, p' :: ps' => p_step C p = 0 /\ p_lt_sk C p = h_lt C x i /\ p' = holding C (l i) p /\ rel is ps ps'
  | _, _, _ => False
  end.

Lemma begin_peer_rel m0 i : match begin_peer C x m0 i with
  | UB => begin_peer C x' m0 i = UB
  | Ok None => begin_peer C x' m0 i = Ok None
  | Ok (Some p) => p_step C p = 0 /\ p_lt_sk C p = h_lt C x i /\ begin_peer C x' m0 i = Ok (Some (holding C (l i) p))
  end.
Proof.
  unfold begin_peer. change (h_peer C x') with (h_peer C x). change (h_peps C x') with (h_peps C x). change (h_pnow C x') with (h_pnow C x). change (h_lt C x') with l. change (h_pb C x') with (h_pb C x).
  unfold start_peer. destruct (rd m0 hdr_SIZE 32) as [pk|]; [|reflexivity]. cbn [bind]. destruct (rd m0 off_sid sid_SIZE) as [sid|]; [|reflexivity]. cbn [bind].
  destruct (recv_msg _ _ _ _ _ _ _ _ _ _ _ _) as [[ret last]|] eqn:R; [|reflexivity]. cbn [bind]. apply recv_codes in R.
  destruct (Z.eqb_spec ret 0) as [->|N]; cbn [negb bind].
  2: { destruct (Z.eqb_spec (64 + ret) 0); [lia|]. reflexivity. }
  destruct (getz m0 (hdr_SIZE + 64)) as [bn|]; [|reflexivity]. cbn [bind]. destruct (getz m0 (hdr_SIZE + 65)) as [bt|]; [|reflexivity]. cbn [bind]. cbv zeta.
  destruct (bz bt <? 2); [reflexivity|]. destruct (bz bn <=? bz bt); [reflexivity|]. destruct (128 <? bz bn); [reflexivity|].
  destruct (rd m0 0 msg0_SIZE); [|reflexivity]. cbn [bind Z.eqb]. repeat split.
Qed.

Lemma begin_peers_rel m0 is : match begin_peers C x m0 is with
  | UB => begin_peers C x' m0 is = UB
  | Ok None => begin_peers C x' m0 is = Ok None
  | Ok (Some ps) => exists ps', begin_peers C x' m0 is = Ok (Some ps') /\ rel is ps ps'
  end.
Proof.
  induction is as [|i is IH]; [exists []; repeat split|]. cbn [begin_peers]. pose proof (begin_peer_rel m0 i) as A.
  destruct (begin_peer C x m0 i) as [[p|]|]; cbn [bind].
  - destruct A as (A1 & A2 & A). rewrite A. cbn [bind]. destruct (begin_peers C x m0 is) as [[ps|]|]; cbn [bind]; [|rewrite IH; reflexivity|rewrite IH; reflexivity].
    destruct IH as (ps' & E & R). rewrite E. cbn [bind]. exists (holding C (l i) p :: ps'). split; [reflexivity|]. cbn [rel]. auto.
  - rewrite A. cbn [bind]. destruct (begin_peers C x m0 is) as [[ps|]|]; cbn [bind]; [destruct IH as (ps' & E & _); rewrite E|rewrite IH|rewrite IH]; reflexivity.
  - rewrite A. reflexivity.
Qed.

Definition anns (k : Z -> bytes) (is : list Z) (ms : list bytes) : list bytes := map (fun im => snd im ++ sig_sign S (k (fst im)) (snd im)) (combine is ms).

Lemma turn_rel is : forall i ps ps' ins, rel is ps ps' -> length ins = length is ->
  match peers_turn C w i ps ins with
  | UB => peers_turn C w i ps' ins = UB
  | Ok None => peers_turn C w i ps' ins = Ok None
  | Ok (Some (q, os)) => exists ms, length ms = length is /\ Forall (fun m => zlen m = 175) ms /\ os = concat (anns (h_lt C x) is ms) /\
      peers_turn C w i ps' ins = Ok (Some (q, concat (anns l is ms)))
  end.
Proof.
  induction is as [|j is IH]; intros i [|p ps] [|p' ps'] [|m ins] R L; try contradiction; try discriminate.
  - cbn. exists []. repeat split. constructor.
  - destruct R as (R1 & R2 & -> & R). cbn [peers_turn].
    change (p_step C (holding C (l j) p)) with (p_step C p). change (peer_output_size C (holding C (l j) p)) with (peer_output_size C p).
    set (e := s_peer w i (p_step C p)). set (o := s_buf w (i + 1) (p_step C p) (peer_output_size C p)).
    pose proof (h_next C HC e p (l j) m o R1) as A. unfold announced in A. destruct (peer_next C e p m o) as [[[ret c1] w1]|]; [|rewrite A; reflexivity].
    destruct A as [(-> & m1 & Zm & -> & A)|(N & A)]; rewrite A; cbn [bind].
    + cbn [Z.eqb negb]. assert (L2 : length ins = length is) by (cbn in L; lia). specialize (IH (i + 1) ps ps' ins R L2).
      destruct (peers_turn C w (i + 1) ps ins) as [[[q os]|]|]; cbn [bind]; [|rewrite IH; reflexivity|rewrite IH; reflexivity].
      destruct IH as (ms & I1 & I2 & -> & I4). rewrite I4. cbn [bind]. exists (m1 :: ms). split; [cbn; lia|]. split; [constructor; assumption|]. unfold anns. cbn [combine map concat fst snd]. rewrite R2. split; reflexivity.
    + destruct (Z.eqb_spec ret 0); [contradiction|]. reflexivity.
Qed.

Lemma rel_length is : forall ps ps', rel is ps ps' -> length ps = length is /\ length ps' = length is.
Proof. induction is as [|i is IH]; intros [|p ps] [|p' ps'] R; try contradiction; [split; reflexivity|]. destruct R as (_ & _ & _ & R). apply IH in R. cbn. lia. Qed.
Lemma rel_getz is : forall ps ps' i, rel is ps ps' -> match getz ps i with UB => getz ps' i = UB | Ok p => exists k, p_step C p = 0 /\ getz ps' i = Ok (holding C k p) end.
Proof.
  intros ps ps' i R. unfold getz. destruct (i <? 0); [reflexivity|]. generalize (Z.to_nat i). clear i. revert ps ps' R. induction is as [|j is IH]; intros [|p ps] [|p' ps'] R n; try contradiction.
  - destruct n; reflexivity.
  - destruct R as (R1 & _ & -> & R). destruct n; [exists (l j); split; [exact R1|reflexivity]|]. apply (IH ps ps' R n).
Qed.

Lemma zlen_ann k m : zlen m = 175 -> zlen (m ++ sig_sign S k m) = 239.
Proof. intros H. assert (Zs : zlen (sig_sign S k m) = 64) by (apply sig_zlen; apply (ok_cS C HC)). rewrite zlen_app. lia. Qed.
Lemma anns_sized k is ms : Forall (fun m => zlen m = 175) ms -> Forall (fun m => zlen m = 239) (anns k is ms).
Proof.
  intros F. apply Forall_forall. intros y Y. apply in_map_iff in Y. destruct Y as ((i & m) & <- & Y). apply in_combine_r in Y. cbn [fst snd]. apply zlen_ann.
  apply (proj1 (Forall_forall _ _) F). exact Y.
Qed.
Lemma anns_length k is ms : length ms = length is -> length (anns k is ms) = length is.
Proof. intros H. unfold anns. rewrite map_length, combine_length. lia. Qed.
Lemma anns_get k n ms p : length ms = Z.to_nat n -> 1 <= p <= n -> Forall (fun m => zlen m = 175) ms -> exists m, getz ms (p - 1) = Ok m /\ zlen m = 175 /\
  rd (concat (anns k (zrange 0 (Z.to_nat n)) ms)) (239 * (p - 1)) 175 = Ok m /\ rd (concat (anns k (zrange 0 (Z.to_nat n)) ms)) (239 * (p - 1) + 175) 64 = Ok (sig_sign S (k (p - 1)) m).
Proof.
  intros L Hp F. assert (Q : exists m, getz ms (p - 1) = Ok m). { destruct (nth_error ms (Z.to_nat (p - 1))) as [m|] eqn:E; [|apply nth_error_None in E; lia]. exists m. apply getz_ok; [exact E|lia]. } destruct Q as (m & E). exists m. split; [exact E|].
  assert (Zm : zlen m = 175). { pose proof (getz_inv _ _ _ E) as (_ & E1). apply (proj1 (Forall_forall _ _) F). eapply nth_error_In. exact E1. }
  split; [exact Zm|]. assert (Zs : zlen (sig_sign S (k (p - 1)) m) = 64) by (apply sig_zlen; apply (ok_cS C HC)).
  assert (G : rd (concat (anns k (zrange 0 (Z.to_nat n)) ms)) ((p - 1) * 239) 239 = Ok (m ++ sig_sign S (k (p - 1)) m)).
  { apply rd_concat; [apply anns_sized; exact F|]. pose proof (getz_inv _ _ _ E) as (_ & E1).
    unfold getz. destruct (Z.ltb_spec (p - 1) 0); [lia|]. unfold anns. rewrite nth_error_map.
    assert (Ec : nth_error (combine (zrange 0 (Z.to_nat n)) ms) (Z.to_nat (p - 1)) = Some (p - 1, m)).
    { assert (Ez : nth_error (zrange 0 (Z.to_nat n)) (Z.to_nat (p - 1)) = Some (p - 1)).
      { assert (Q : getz (zrange 0 (Z.to_nat n)) (p - 1) = Ok (0 + (p - 1))) by (apply getz_zrange; lia). apply getz_inv in Q. destruct Q as (_ & Q). rewrite Q. reflexivity. }
      apply nth_combine; assumption. }
    rewrite Ec. reflexivity. }
  replace (239 * (p - 1)) with ((p - 1) * 239) by lia. split.
  - replace ((p - 1) * 239) with ((p - 1) * 239 + 0) by lia. rewrite <- (rd_rd _ _ _ _ 0 175 G) by lia. apply rd_first. exact Zm.
  - rewrite <- (rd_rd _ _ _ _ 175 64 G) by lia. rewrite <- (app_nil_r (m ++ _)), <- app_assoc. apply rd_mid; assumption.
Qed.
Lemma keys_get k p : 1 <= p <= h_n C x -> getz (keys k) (p - 1) = Ok (sig_pk S (k (p - 1))).
Proof.
  intros H. assert (Q : getz (zrange 0 (Z.to_nat (h_n C x))) (p - 1) = Ok (0 + (p - 1))) by (apply getz_zrange; lia). apply getz_inv in Q. destruct Q as (Q0 & Q).
  unfold getz, keys. destruct (Z.ltb_spec (p - 1) 0); [lia|]. rewrite nth_error_map, Q. reflexivity.
Qed.
Lemma anns_vouched k ms : length ms = Z.to_nat (h_n C x) -> Forall (fun m => zlen m = 175) ms ->
  all_vouched C (keys k) (h_n C x) (concat (anns k (zrange 0 (Z.to_nat (h_n C x))) ms)).
Proof.
  intros L F p Hp. destruct (anns_get k _ ms p L Hp F) as (m & _ & _ & R1 & R2). exists (sig_pk S (k (p - 1))), m, (sig_sign S (k (p - 1)) m).
  split; [apply keys_get; exact Hp|]. split; [exact R1|]. split; [exact R2|]. apply (ok_sig_complete _ (ok_cS C HC)).
Qed.
Lemma anns_same k k' ms : length ms = Z.to_nat (h_n C x) -> Forall (fun m => zlen m = 175) ms ->
  same_announcements (h_n C x) (concat (anns k (zrange 0 (Z.to_nat (h_n C x))) ms)) (concat (anns k' (zrange 0 (Z.to_nat (h_n C x))) ms)).
Proof.
  intros L F. split.
  - rewrite !(zlen_concat _ 239) by (apply anns_sized; exact F). unfold zlen. rewrite !anns_length by (rewrite zrange_length; exact L). reflexivity.
  - intros p Hp. destruct (anns_get k _ ms p L Hp F) as (m & G1 & _ & R1 & _). destruct (anns_get k' _ ms p L Hp F) as (m' & G2 & _ & R2 & _). rewrite R1, R2. congruence.
Qed.

Let fR := run_knowing C (keys l).

Lemma dispatch_all_k c out is : dispatch_all (knowing (keys l) c) out is = dispatch_all c out is.
Proof. induction is as [|i is IH]; [reflexivity|]. cbn [dispatch_all]. rewrite IH. reflexivity. Qed.

Lemma round_k r : 2 <= t_step (r_tp C r) < 10 -> round C w (fR r) = rmap (option_map fR) (round C w r) /\
  forall r1, round C w r = Ok (Some r1) -> 2 <= t_step (r_tp C r1).
Proof.
  intros H. unfold round. unfold fR, run_knowing. cbn [r_tp r_peers r_net]. cbv zeta. change (t_step (knowing (keys l) (r_tp C r))) with (t_step (r_tp C r)). change (tp_output_size (knowing (keys l) (r_tp C r))) with (tp_output_size (r_tp C r)).
  rewrite (k_next C (keys l)) by lia. destruct (tp_next _ _ _ _ _) as [[[ret c'] out]|] eqn:E; [|split; [reflexivity|discriminate]].
  assert (G : 2 <= t_step c') by (assert (Q : 0 <= t_step (r_tp C r) < 10) by lia; pose proof (tp_forward C _ _ _ _ _ _ _ Q E); lia).
  cbn [rmap bind fst snd]. destruct (negb (ret =? 0)); [split; [reflexivity|discriminate]|]. rewrite dispatch_all_k. change (t_n (knowing (keys l) c')) with (t_n c').
  destruct (dispatch_all _ _ _) as [[ms|]|]; cbn [bind]; [|split; [reflexivity|discriminate]|split; [reflexivity|discriminate]].
  destruct (getz (r_peers C r) 1) as [p1|]; cbn [bind]; [|split; [reflexivity|discriminate]].
  destruct (negb _); [split; [reflexivity|]|].
  { intros r1 Er. assert (r1 = mkRun C c' (r_peers C r) []) by congruence. subst r1. exact G. }
  destruct (peers_loop _ _ _ _ _) as [[[ps' net]|]|]; cbn [bind]; (split; [reflexivity|]); try discriminate.
  intros r1 Er. assert (r1 = mkRun C c' ps' net) by congruence. subst r1. exact G.
Qed.
Lemma rounds_k k : forall r, 2 <= t_step (r_tp C r) -> rounds C w k (fR r) = rmap (option_map fR) (rounds C w k r).
Proof.
  induction k as [|k IH]; intros r H; [reflexivity|]. cbn [rounds]. change (tp_not_done (r_tp C (fR r))) with (tp_not_done (r_tp C r)). unfold tp_not_done.
  destruct (Z.ltb_spec (t_step (r_tp C r)) 10); cbn [negb]; [|reflexivity].
  destruct (round_k r ltac:(lia)) as (R1 & R2). rewrite R1. destruct (round C w r) as [[r1|]|]; [|reflexivity|reflexivity]. cbn [rmap option_map bind]. apply IH. apply R2. reflexivity.
Qed.

Lemma start_facts r0 : begin C x = Ok (Some r0) -> exists ps', begin C x' = Ok (Some (mkRun C (knowing (keys l) (r_tp C r0)) ps' [])) /\
  rel (zrange 0 (Z.to_nat (h_n C x))) (r_peers C r0) ps' /\ r_net C r0 = [] /\ t_step (r_tp C r0) = 0 /\ t_n (r_tp C r0) = h_n C x /\ 2 <= h_n C x /\ t_lt (r_tp C r0) = keys (h_lt C x).
Proof.
  intros H. unfold begin in *.
  change (h_tp C x') with (h_tp C x). change (h_eps C x') with (h_eps C x). change (h_n C x') with (h_n C x). change (h_t C x') with (h_t C x). change (h_name C x') with (h_name C x).
  change (h_msg0 C x') with (h_msg0 C x). change (h_sid C x') with (h_sid C x). change (h_sk C x') with (h_sk C x). change (h_now C x') with (h_now C x).
  destruct (start_tp _ _ _ _ _ _ _ _ _ _) as [[[ret c] m0]|] eqn:E; [|discriminate]. cbn [bind] in *. destruct (Z.eqb_spec ret 0) as [->|]; cbn [negb] in *; [|discriminate]. cbv zeta in *.
  assert (F : t_step c = 0 /\ t_n c = h_n C x /\ 2 <= h_n C x).
  { unfold start_tp in E. destruct (_ || _) eqn:B; [discriminate|]. apply orb_false_iff in B. destruct B as (B & _). apply orb_false_iff in B. destruct B as (B & _). apply Z.ltb_ge in B.
    destruct (_ <? 1); [discriminate|]. destruct (1024 <? _); [discriminate|]. destruct (negb _); [discriminate|]. cbv zeta in E.
    repeat (apply bind_ok in E; destruct E as (? & _ & E)). assert (Q : c = mkTp 0 (t_prev (h_tp C x)) (h_sid C x) (h_n C x) (h_t C x) (sig_pk S (h_sk C x)) (h_sk C x) (t_last (h_tp C x)) (h_eps C x) (t_pks (h_tp C x)) (t_lt (h_tp C x)) (t_com (h_tp C x)) (t_enc (h_tp C x)) [] (t_cmax (h_tp C x)) [] (t_chmax (h_tp C x)) (update_transcript str_transcript m0)) by congruence.
    subst c. cbn. auto. }
  destruct F as (F1 & F2 & F3). pose proof (begin_peers_rel m0 (zrange 0 (Z.to_nat (h_n C x)))) as B.
  destruct (begin_peers C x m0 _) as [[ps|]|]; cbn [bind] in *; try discriminate. destruct B as (ps' & B & R). rewrite B. cbn [bind].
  match type of H with Ok (Some ?r) = _ => assert (Q : r0 = r) by congruence end. subst r0. cbn [r_tp r_peers r_net]. exists ps'. split; [reflexivity|]. split; [exact R|]. repeat split; assumption.
Qed.

Theorem session_anonymous r0 : begin C x = Ok (Some r0) -> exists r0', begin C x' = Ok (Some r0') /\
  forall k, (2 <= k)%nat -> rounds C w k r0' = rmap (option_map fR) (rounds C w k r0).
Proof.
  intros H. destruct (start_facts r0 H) as (ps' & B & R & N & H0 & Hn & H2 & Hlt). eexists. split; [exact B|]. intros k Hk. destruct k as [|[|k]]; [lia|lia|]. clear Hk.
  change (rounds C w (Datatypes.S (Datatypes.S k)) r0) with (if negb (tp_not_done (r_tp C r0)) then Ok (Some r0) else do y <- round C w r0 ;; match y with None => Ok None | Some r' => rounds C w (Datatypes.S k) r' end).
  match goal with |- rounds _ _ _ ?r = _ => set (r0' := r) end.
  change (rounds C w (Datatypes.S (Datatypes.S k)) r0') with (if negb (tp_not_done (r_tp C r0')) then Ok (Some r0') else do y <- round C w r0' ;; match y with None => Ok None | Some r' => rounds C w (Datatypes.S k) r' end).
  change (tp_not_done (r_tp C r0')) with (tp_not_done (r_tp C r0)). assert (ND : tp_not_done (r_tp C r0) = true) by (unfold tp_not_done; rewrite H0; reflexivity). rewrite ND. cbn [negb].
  unfold round. cbv zeta. change (r_tp C r0') with (knowing (keys l) (r_tp C r0)). change (r_net C r0') with (@nil byte). rewrite N. change (t_step (knowing (keys l) (r_tp C r0))) with (t_step (r_tp C r0)).
  change (tp_output_size (knowing (keys l) (r_tp C r0))) with (tp_output_size (r_tp C r0)). change (r_peers C r0') with ps'.
  rewrite (k_next C (keys l)) by lia. destruct (tp_next C _ (r_tp C r0) [] _) as [[[ret c1] out]|] eqn:E; [|reflexivity]. cbn [rmap bind fst snd].
  destruct (Z.eqb_spec ret 0) as [->|]; cbn [negb bind rmap option_map]; [|reflexivity].
  assert (F : t_step c1 = 1 /\ t_n c1 = h_n C x /\ t_lt c1 = keys (h_lt C x)).
  { rewrite (tp_next_0 C) in E by exact H0. apply finish_inv in E. destruct E as (p & E & ->). unfold tp_step1 in E. destruct (negb _); [discriminate|]. destruct (negb _); [discriminate|].
    destruct (255 <=? _); [discriminate|]. apply bind_ok in E. destruct E as ([?|? ?] & _ & E); assert (p = r_tp C r0) by congruence; subst p; cbn; rewrite H0; auto. }
  destruct F as (F1 & F2 & F3). rewrite dispatch_all_k. change (t_n (knowing (keys l) c1)) with (t_n c1). rewrite F2.
  destruct (dispatch_all c1 out (zrange 0 (Z.to_nat (h_n C x)))) as [[ins|]|] eqn:Ed; cbn [bind rmap option_map]; [|reflexivity|reflexivity].
  assert (Li : length ins = length (zrange 0 (Z.to_nat (h_n C x)))).
  { clear - Ed. revert ins Ed. generalize (zrange 0 (Z.to_nat (h_n C x))). intros is. induction is as [|i is IH]; intros ins Ed; cbn [dispatch_all] in Ed; [assert (ins = []) by congruence; subst; reflexivity|].
    apply bind_ok in Ed. destruct Ed as ([m|] & _ & Ed); [|discriminate]. apply bind_ok in Ed. destruct Ed as ([r|] & E1 & Ed); [|discriminate]. assert (ins = m :: r) by congruence. subst ins. cbn [length]. f_equal. apply IH. exact E1. }
  pose proof (rel_getz _ _ _ 1 R) as G. destruct (getz (r_peers C r0) 1) as [p1|]; [|rewrite G; reflexivity]. destruct G as (k1 & G1 & G). rewrite G. cbn [bind].
  change (peer_not_done C (holding C k1 p1)) with (peer_not_done C p1). assert (PD : peer_not_done C p1 = true) by (unfold peer_not_done; rewrite G1; reflexivity). rewrite PD. cbn [negb]. 
  cbn [peers_loop]. pose proof (turn_rel _ 0 _ _ ins R Li) as T. destruct (peers_turn C w 0 (r_peers C r0) ins) as [[[q os]|]|]; [|rewrite T; reflexivity|rewrite T; reflexivity].
  destruct T as (ms & L & F & -> & T). rewrite T. cbn [bind]. destruct (getz q 1) as [q1|] eqn:Eq; [|reflexivity]. cbn [bind].
  rewrite zrange_length in L.
  assert (NZ : forall kk, (zlen (concat (anns kk (zrange 0 (Z.to_nat (h_n C x))) ms)) =? 0) = false).
  { intros kk. apply Z.eqb_neq. rewrite (zlen_concat _ 239) by (apply anns_sized; exact F). unfold zlen. rewrite anns_length by (rewrite zrange_length; exact L). rewrite zrange_length. lia. }
  rewrite !NZ. cbn [andb bind rounds r_tp]. change (tp_not_done (knowing (keys l) c1)) with (tp_not_done c1). unfold tp_not_done at 1 2. rewrite F1. change (1 <? 10) with true. cbn [negb].
  (* second round *)
  unfold round. cbv zeta. cbn [r_tp r_net r_peers]. change (t_step (knowing (keys l) c1)) with (t_step c1). change (tp_output_size (knowing (keys l) c1)) with (tp_output_size c1).
  rewrite (k_next1 C (keys l) _ c1 (concat (anns (h_lt C x) (zrange 0 (Z.to_nat (h_n C x))) ms))).
  2: exact F1. 2: { rewrite F2. apply anns_same; assumption. } 2: { rewrite F2, F3. apply anns_vouched; assumption. } 2: { rewrite F2. apply anns_vouched; assumption. }
  destruct (tp_next C _ c1 _ _) as [[[ret2 c2] out2]|] eqn:E2; [|reflexivity]. cbn [rmap bind fst snd]. destruct (negb (ret2 =? 0)); [reflexivity|].
  assert (S2 : 2 <= t_step c2) by (assert (Q : 0 <= t_step c1 < 10) by lia; pose proof (tp_forward C _ _ _ _ _ _ _ Q E2); lia).
  rewrite dispatch_all_k. change (t_n (knowing (keys l) c2)) with (t_n c2). destruct (dispatch_all c2 out2 _) as [[ins2|]|]; cbn [bind]; [|reflexivity|reflexivity].
  rewrite Eq. cbn [bind]. destruct (negb (peer_not_done C q1)); cbn [bind].
  { apply (rounds_k k (mkRun C c2 q [])). exact S2. }
  destruct (peers_loop C w 11 q ins2) as [[[q2 net2]|]|]; cbn [bind]; [|reflexivity|reflexivity]. apply (rounds_k k (mkRun C c2 q2 net2)). exact S2.
Qed.
End SESSION.
