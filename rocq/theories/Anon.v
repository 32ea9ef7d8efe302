(** Proofs of C94: what the peers see does not depend on the long-term keys. *)
From Coq Require Import ZArith Lia List Bool.
From Coq.Strings Require Import Byte.
From Verif Require Import Bytes Res Mem Sodium DkgModel WireModel TpCrypto TpModel PeerModel TpRun TpSpec RunSpec AnonSpec.
From Verif Require Import WireSpec WireProofs TpFrame PeerFrame TpControl TpAgree HonestMsg.
Import ListNotations.
Open Scope list_scope.
Open Scope Z_scope.

Notation rmap := in_result.
Definition cmap {A B} (f : A -> B) (r : ctl A) : ctl B := match r with Next a => Next (f a) | Return k a => Return k (f a) end.

Lemma loopM_map {I A B} (f : A -> B) (g : I -> A -> res (ctl A)) (g' : I -> B -> res (ctl B)) (is : list I) :
  (forall i s, In i is -> g' i (f s) = rmap (cmap f) (g i s)) -> forall s, loopM g' is (f s) = rmap (cmap f) (loopM g is s).
Proof.
  induction is as [|i is IH]; intros G s; [reflexivity|]. cbn [loopM]. rewrite G by (now left).
  destruct (g i s) as [[s'|k s']|]; cbn; try reflexivity. apply IH. intros j s1 J. apply G. now right.
Qed.

Lemma in_zrange i n : In i (zrange 0 (Z.to_nat n)) -> 0 <= i < n.
Proof. intros H. apply In_nth_error in H. destruct H as (k & H). unfold zrange in H. rewrite nth_error_map in H. destruct (nth_error (seq 0 (Z.to_nat n)) k) as [x|] eqn:E; [|discriminate]. cbn in H. assert (i = 0 + Z.of_nat x) by (injection H as <-; reflexivity). apply nth_error_In, in_seq in E. lia. Qed.

Section TP.
Variable C : crypto.
Variable l : list bytes.
Let f := knowing l.
Let f2 (s : tp * bytes) : tp * bytes := (f (fst s), snd s).
Let f3 {X Y} (s : tp * X * Y) : tp * X * Y := (f (fst (fst s)), snd (fst s), snd s).
Let fl (s : tp * list Z) : tp * list Z := (f (fst s), snd s).
Let fr (s : Z * tp) : Z * tp := (fst s, f (snd s)).
Let fh (s : Z * tp * bytes) : Z * tp * bytes := (fst (fst s), f (snd (fst s)), snd s).

Lemma k_recv c buf off len msgno from to pk i now :
  tp_recv C (f c) buf off len msgno from to pk i now = rmap fr (tp_recv C c buf off len msgno from to pk i now).
Proof.
  unfold tp_recv. destruct c; cbn. destruct (getz _ _); cbn; [|reflexivity]. destruct (recv_msg _ _ _ _ _ _ _ _ _ _ _ _) as [[? ?]|]; cbn; [|reflexivity].
  destruct (updz _ _ _); reflexivity.
Qed.
Lemma k_cheater c s e p o : add_cheater (f c) s e p o = option_map f (add_cheater c s e p o).
Proof. unfold add_cheater. destruct c; cbn. destruct (_ <=? _); reflexivity. Qed.

Ltac fields := repeat
  match goal with
  | |- context [t_n (f ?c)] => change (t_n (f c)) with (t_n c)
  | |- context [t_t (f ?c)] => change (t_t (f c)) with (t_t c)
  | |- context [t_step (f ?c)] => change (t_step (f c)) with (t_step c)
  | |- context [t_prev (f ?c)] => change (t_prev (f c)) with (t_prev c)
  | |- context [t_pks (f ?c)] => change (t_pks (f c)) with (t_pks c)
  | |- context [t_com (f ?c)] => change (t_com (f c)) with (t_com c)
  | |- context [t_enc (f ?c)] => change (t_enc (f c)) with (t_enc c)
  | |- context [t_sid (f ?c)] => change (t_sid (f c)) with (t_sid c)
  | |- context [t_sk (f ?c)] => change (t_sk (f c)) with (t_sk c)
  | |- context [t_eps (f ?c)] => change (t_eps (f c)) with (t_eps c)
  | |- context [t_complaints (f ?c)] => change (t_complaints (f c)) with (t_complaints c)
  | |- context [t_cmax (f ?c)] => change (t_cmax (f c)) with (t_cmax c)
  | |- context [t_cheaters (f ?c)] => change (t_cheaters (f c)) with (t_cheaters c)
  | |- context [t_transcript (f ?c)] => change (t_transcript (f c)) with (t_transcript c)
  end.
Ltac step1 :=
  cbv zeta; cbn [bind rmap cmap option_map fr f2 f3 fl fst snd]; fields;
  match goal with
  | |- ?x = ?x => reflexivity
  | |- Ok _ = Ok _ => reflexivity
  | |- bind (tp_recv C (f ?c) ?b ?o ?le ?m ?fr ?to ?pk ?i ?now) _ = _ =>
      rewrite (k_recv c b o le m fr to pk i now); destruct (tp_recv C c b o le m fr to pk i now) as [[? ?]|]
  | |- match add_cheater (f ?c) ?s ?e ?p ?o with _ => _ end = _ => rewrite (k_cheater c s e p o); destruct (add_cheater c s e p o)
  | |- bind (match ?x with _ => _ end) _ = _ => destruct x
  | |- bind ?x _ = _ => destruct x
  | |- match ?x with _ => _ end = _ => destruct x
  end.
Ltac walk := repeat step1; fields; try reflexivity.

Lemma k_step68_body e input k s : tp_step68_body C e input k (f3 s) = rmap (cmap f3) (tp_step68_body C e input k s).
Proof. destruct s as [[c out] w]. unfold tp_step68_body, f3. cbn [fst snd]. walk. Qed.
Lemma k_step12_body e input k s : tp_step12_body C e input k (f3 s) = rmap (cmap f3) (tp_step12_body C e input k s).
Proof. destruct s as [[c out] w]. unfold tp_step12_body, f3. cbn [fst snd]. walk. Qed.
Lemma k_step14_body e input k s : tp_step14_body C e input k (f3 s) = rmap (cmap f3) (tp_step14_body C e input k s).
Proof. destruct s as [[c out] w]. unfold tp_step14_body, f3. cbn [fst snd]. walk. Qed.
Lemma k_step16_complaint input p i lim k c : tp_step16_complaint input p i lim k (f c) = rmap (cmap f) (tp_step16_complaint input p i lim k c).
Proof. unfold tp_step16_complaint. walk. Qed.
Lemma k_step16_body e input k s : tp_step16_body C e input k (f3 s) = rmap (cmap f3) (tp_step16_body C e input k s).
Proof.
  destruct s as [[c out] w]. unfold tp_step16_body. do 2 (step1; [|reflexivity]). step1; [walk|].
  do 2 (step1; [|reflexivity]). step1; [reflexivity|]. cbv zeta; cbn [bind rmap cmap]; fields.
  match goal with |- bind (loopM ?g ?is (f ?c)) _ = _ => rewrite (loopM_map f g g is) by (intros; apply k_step16_complaint) end.
  match goal with |- bind (rmap _ ?x) _ = _ => destruct x as [[c'|code c']|] end; walk.
Qed.
Lemma k_step20_body e input h k s : tp_step20_body C e input h k (f2 s) = rmap (cmap f2) (tp_step20_body C e input h k s).
Proof. destruct s as [c out]. unfold tp_step20_body, f2. cbn [fst snd]. walk. Qed.
Lemma k_step22_body e input k c : tp_step22_body C e input k (f c) = rmap (cmap f) (tp_step22_body C e input k c).
Proof. unfold tp_step22_body. walk. Qed.
Lemma k_step18_key e input p i k s : tp_step18_key C e input p i k (fl s) = rmap (cmap fl) (tp_step18_key C e input p i k s).
Proof.
  destruct s as [c cs]. unfold tp_step18_key, fl. cbn [fst snd]. walk.
Qed.
Lemma k_step18_body e input ctr i s : tp_step18_body C e input ctr i (f3 s) = rmap (cmap f3) (tp_step18_body C e input ctr i s).
Proof.
  destruct s as [[c cs] p]. unfold tp_step18_body. step1; [|reflexivity]. step1; [reflexivity|]. do 2 (step1; [|reflexivity]). step1; [walk|].
  cbv zeta; cbn [bind rmap cmap]; fields.
  match goal with |- bind (loopM ?g ?is (f ?c, ?x)) _ = _ => change (f c, x) with (fl (c, x)); rewrite (loopM_map fl g g is) by (intros; apply k_step18_key) end.
  match goal with |- bind (rmap _ ?x) _ = _ => destruct x as [[[? ?]|? [? ?]]|] end; walk.
Qed.
Lemma k_step18_unanswered x c : tp_step18_unanswered x (f c) = rmap (cmap f) (tp_step18_unanswered x c).
Proof. unfold tp_step18_unanswered. walk. Qed.

Ltac loop3 H :=
  cbv zeta; cbn [bind rmap cmap]; fields;
  match goal with |- bind (loopM ?g ?is (f ?c, ?x, ?y)) _ = _ => change (f c, x, y) with (f3 (c, x, y)); rewrite (loopM_map f3 g g is) by (intros; apply H) end;
  match goal with |- bind (rmap _ ?x) _ = _ => destruct x as [[[[? ?] ?]|? [[? ?] ?]]|] end.
Ltac loop2 H :=
  cbv zeta; cbn [bind rmap cmap]; fields;
  match goal with |- bind (loopM ?g ?is (f ?c, ?x)) _ = _ => change (f c, x) with (f2 (c, x)); rewrite (loopM_map f2 g g is) by (intros; apply H) end;
  match goal with |- bind (rmap _ ?x) _ = _ => destruct x as [[[? ?]|? [? ?]]|] end.
Ltac loop1 H :=
  cbv zeta; cbn [bind rmap cmap]; fields;
  match goal with |- bind (loopM ?g ?is (f ?c)) _ = _ => rewrite (loopM_map f g g is) by (intros; apply H) end;
  match goal with |- bind (rmap _ ?x) _ = _ => destruct x as [[?|? ?]|] end.

Lemma k_step1 e c input out : tp_step1 C e (f c) input out = rmap fh (tp_step1 C e c input out).
Proof. unfold tp_step1. walk. Qed.
Lemma k_step68 e c input out : tp_step68 C e (f c) input out = rmap fh (tp_step68 C e c input out).
Proof. unfold tp_step68. step1; [reflexivity|]. step1; [reflexivity|]. loop3 k_step68_body; walk. Qed.
Lemma k_step12 e c input out : tp_step12 C e (f c) input out = rmap fh (tp_step12 C e c input out).
Proof. unfold tp_step12. step1; [reflexivity|]. step1; [reflexivity|]. loop3 k_step12_body; walk. Qed.
Lemma k_step14 e c input out : tp_step14 C e (f c) input out = rmap fh (tp_step14 C e c input out).
Proof. unfold tp_step14. step1; [reflexivity|]. step1; [reflexivity|]. loop3 k_step14_body; walk. Qed.
Lemma k_step16 e c input out : tp_step16 C e (f c) input out = rmap fh (tp_step16 C e c input out).
Proof. unfold tp_step16. step1; [reflexivity|]. step1; [reflexivity|]. change (tp_complaints_set (f c) []) with (f (tp_complaints_set c [])). loop3 k_step16_body; walk. Qed.
Lemma k_step20 e c input out : tp_step20 C e (f c) input out = rmap fh (tp_step20 C e c input out).
Proof. unfold tp_step20. step1; [reflexivity|]. step1; [reflexivity|]. step1; [|reflexivity]. loop2 k_step20_body; walk. Qed.
Lemma k_step22 e c input out : tp_step22 C e (f c) input out = rmap fh (tp_step22 C e c input out).
Proof. unfold tp_step22. step1; [reflexivity|]. step1; [reflexivity|]. loop1 k_step22_body; walk. Qed.
Lemma k_input_size c : tp_input_size (f c) = tp_input_size c.
Proof. reflexivity. Qed.
Lemma k_step18 e c input out : tp_step18 C e (f c) input out = rmap fh (tp_step18 C e c input out).
Proof.
  unfold tp_step18. rewrite k_input_size. step1; [|reflexivity]. step1; [reflexivity|]. step1; [reflexivity|]. step1; [|reflexivity].
  loop3 k_step18_body; [|walk|walk]. cbn [rmap cmap bind f3 fst snd]. loop1 k_step18_unanswered; walk.
Qed.

Lemma k_finish r r' : r' = rmap fh r -> tp_finish_step r' = rmap fh (tp_finish_step r).
Proof. intros ->. destruct r as [[[ret c] out]|]; reflexivity. Qed.
Lemma k_next e c input out : t_step c <> 1 -> tp_next C e (f c) input out = rmap fh (tp_next C e c input out).
Proof.
  intros H. assert (D : t_step c = 0 \/ t_step c = 2 \/ t_step c = 3 \/ t_step c = 4 \/ t_step c = 5 \/ t_step c = 6 \/ t_step c = 7 \/ t_step c = 8 \/ t_step c = 9 \/ (t_step c < 0 \/ 9 < t_step c)) by lia.
  destruct D as [D|[D|[D|[D|[D|[D|[D|[D|[D|D]]]]]]]]].
  - rewrite !(tp_next_0 C) by exact D. apply k_finish, k_step1.
  - rewrite !(tp_next_2 C) by exact D. apply k_finish, k_step68.
  - rewrite !(tp_next_3 C) by exact D. apply k_finish, k_step68.
  - rewrite !(tp_next_4 C) by exact D. apply k_finish, k_step12.
  - rewrite !(tp_next_5 C) by exact D. apply k_finish, k_step14.
  - rewrite !(tp_next_6 C) by exact D. rewrite k_step16. destruct (tp_step16 C e c input out) as [[[ret c'] o]|]; reflexivity.
  - rewrite !(tp_next_7 C) by exact D. apply k_finish, k_step18.
  - rewrite !(tp_next_8 C) by exact D. apply k_finish, k_step20.
  - rewrite !(tp_next_9 C) by exact D. apply k_finish, k_step22.
  - rewrite !(tp_next_other C) by exact D. reflexivity.
Qed.

Lemma loopM_map_inv {I A B} (P : A -> Prop) (g : A -> B) (b : I -> A -> res (ctl A)) (b' : I -> B -> res (ctl B)) (is : list I) :
  (forall i s, In i is -> P s -> b' i (g s) = rmap (cmap g) (b i s)) -> (forall i s s', In i is -> P s -> b i s = Ok (Next s') -> P s') ->
  forall s, P s -> loopM b' is (g s) = rmap (cmap g) (loopM b is s).
Proof.
  induction is as [|i is IH]; intros G K s Ps; [reflexivity|]. cbn [loopM]. rewrite G by (trivial; now left).
  destruct (b i s) as [[s'|k s']|] eqn:E; cbn; try reflexivity. apply IH.
  - intros j s1 J. apply G. now right.
  - intros j s1 s2 J. apply K. now right.
  - apply (K i s); [now left|exact Ps|exact E].
Qed.

Lemma recv_same c input input' off len m msgno from to pk i now : rd input off len = Ok m -> rd input' off len = Ok m -> 111 <= len ->
  tp_recv C c input' off len msgno from to pk i now = tp_recv C c input off len msgno from to pk i now.
Proof.
  intros R R' H. unfold tp_recv. destruct (getz (t_last c) i) as [last|]; cbn [bind]; [|reflexivity].
  rewrite (recv_at _ input' off len m), (recv_at _ input off len m) by assumption. reflexivity.
Qed.
Lemma k_step4 e c input input' out : same_announcements (t_n c) input input' -> all_vouched C (t_lt c) (t_n c) input -> all_vouched C l (t_n c) input' ->
  tp_step4 C e (f c) input' out = rmap fh (tp_step4 C e c input out).
Proof.
  intros [SZ SA] V V'. unfold tp_step4. fields. rewrite <- SZ. step1; [reflexivity|]. step1; [reflexivity|].
  cbv zeta; cbn [bind rmap cmap]; fields. change (f c, out, hdr_SIZE) with (f3 (c, out, hdr_SIZE)).
  rewrite (loopM_map_inv (fun s => t_lt (fst (fst s)) = t_lt c) f3 (tp_step4_body C e input)).
  - match goal with |- bind (rmap _ ?x) _ = _ => destruct x as [[[[? ?] ?]|? [[? ?] ?]]|] end; walk.
  - intros i [[c1 o] w] Hi E. cbn [fst] in E. apply in_zrange in Hi.
    destruct (V (i + 1)) as (lt & m & s & V1 & V2 & V3 & V4); [lia|]. destruct (V' (i + 1)) as (lt' & m' & s' & W1 & W2 & W3 & W4); [lia|].
    assert (Em : m' = m) by (specialize (SA (i + 1)); rewrite V2, W2 in SA; assert (Q : 1 <= i + 1 <= t_n c) by lia; specialize (SA Q); congruence). subst m'.
    replace (i + 1 - 1) with i in * by lia. unfold tp_step4_body, f3. cbn [fst snd]. cbv zeta. change (t_lt (f c1)) with l. rewrite E, V1, W1.
    replace (i * (msg2_SIZE + sign_BYTES)) with (239 * i) by (unfold sign_BYTES; change msg2_SIZE with 175; lia).
    change msg2_SIZE with 175. change sign_BYTES with 64. rewrite V2, V3, W2, W3. cbn [bind]. rewrite V4, W4. cbn [negb].
    rewrite <- (rd_rd input _ _ m hdr_SIZE 32 V2), <- (rd_rd input' _ _ m hdr_SIZE 32 W2) by (change hdr_SIZE with 111; lia).
    destruct (rd m hdr_SIZE 32) as [pk|]; [|reflexivity]. cbn [bind].
    assert (R : tp_recv C (f c1) input' (239 * i) 175 2 (i + 1) 255 pk i (e_r e i) = rmap fr (tp_recv C c1 input (239 * i) 175 2 (i + 1) 255 pk i (e_r e i))).
    { rewrite k_recv. rewrite (recv_same c1 input input' (239 * i) 175 m _ _ _ _ _ _ V2 W2) by lia. reflexivity. }
    rewrite R. destruct (tp_recv C c1 input (239 * i) 175 2 (i + 1) 255 pk i (e_r e i)) as [[ret c2]|]; [|reflexivity].
    walk.
  - intros i [[c1 o] w] [[c2 o2] w2] _ E H. cbn [fst] in *. unfold tp_step4_body in H.
    repeat (apply bind_ok in H; destruct H as (? & _ & H)). destruct (negb _); [discriminate|]. apply bind_ok in H; destruct H as (? & _ & H). apply bind_ok in H. destruct H as ((ret & c3) & R & H).
    apply tp_recv_inv in R. destruct R as (? & ? & ? & _ & _ & _ & ->). destruct (negb _).
    + destruct (add_cheater _ _ _ _ _) as [c4|] eqn:A; [|discriminate]. apply add_cheater_inv in A. destruct A as (_ & ->). assert (c2 = _) as -> by (injection H as <- _ _; reflexivity). exact E.
    + repeat (apply bind_ok in H; destruct H as (? & _ & H)). assert (c2 = _) as -> by (injection H as <- _ _; reflexivity). exact E.
  - reflexivity.
Qed.

Lemma k_next1 e c input input' out : t_step c = 1 -> same_announcements (t_n c) input input' -> all_vouched C (t_lt c) (t_n c) input -> all_vouched C l (t_n c) input' ->
  tp_next C e (f c) input' out = rmap fh (tp_next C e c input out).
Proof. intros D S V V'. rewrite !(tp_next_1 C) by exact D. apply k_finish, k_step4; assumption. Qed.

Lemma k_run calls : forall c, 2 <= t_step c -> tp_run C (f c) calls = rmap (knowing_all l) (tp_run C c calls).
Proof.
  induction calls as [|[[e input] out] calls IH]; intros c H; [reflexivity|]. cbn [tp_run]. rewrite k_next by lia.
  destruct (tp_next C e c input out) as [[[ret c'] o]|] eqn:E; [|reflexivity]. cbn [rmap bind fh fst snd]. rewrite IH.
  - destruct (tp_run C c' calls); reflexivity.
  - destruct (Z.lt_ge_cases (t_step c) 10).
    + assert (Q : 0 <= t_step c < 10) by lia. pose proof (tp_forward C _ _ _ _ _ _ _ Q E). lia.
    + rewrite tp_next_other in E by lia. injection E as _ <- _. exact H.
Qed.

Theorem tp_anonymous c e0 in0 out0 e1 in1 in1' out1 rest : t_step c = 0 -> same_announcements (t_n c) in1 in1' -> all_vouched C (t_lt c) (t_n c) in1 -> all_vouched C l (t_n c) in1' ->
  tp_run C (f c) ((e0, in0, out0) :: (e1, in1', out1) :: rest) = rmap (knowing_all l) (tp_run C c ((e0, in0, out0) :: (e1, in1, out1) :: rest)).
Proof.
  intros H S V V'. cbn [tp_run]. rewrite k_next by lia. destruct (tp_next C e0 c in0 out0) as [[[ret c1] o]|] eqn:E; [|reflexivity]. cbn [rmap bind fh fst snd].
  assert (D : tp_next C e1 (f c1) in1' out1 = rmap fh (tp_next C e1 c1 in1 out1) /\ 1 <= t_step c1).
  { rewrite (tp_next_0 C) in E by exact H. apply finish_inv in E. destruct E as (p & E & ->).
    assert (p = c). { unfold tp_step1 in E. repeat destruct (negb _); try congruence. destruct (_ <=? _); [discriminate|]. apply bind_ok in E. destruct E as ([?|? ?] & _ & E); congruence. }
    subst p. rewrite H. destruct (ret =? 0); (split; [|cbn; lia]). - apply k_next1; trivial. - rewrite !tp_next_other by (cbn; lia). reflexivity. }
  destruct D as (D & G). rewrite D. destruct (tp_next C e1 c1 in1 out1) as [[[r2 c2] o2]|] eqn:E2; [|reflexivity]. cbn [rmap bind fh fst snd]. rewrite k_run.
  - destruct (tp_run C c2 rest); reflexivity.
  - destruct (Z.lt_ge_cases (t_step c1) 10).
    + assert (Q : 0 <= t_step c1 < 10) by lia. pose proof (tp_forward C _ _ _ _ _ _ _ Q E2). lia.
    + rewrite tp_next_other in E2 by lia. assert (c2 = c1) by congruence. subst. lia.
Qed.
End TP.
