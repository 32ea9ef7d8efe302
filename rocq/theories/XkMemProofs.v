(** Proofs about the memory management of the Noise library ([XkMemModel]). *)
From Coq Require Import ZArith Lia List Bool Permutation.
From Verif Require Import Bytes Mem XkModel XkSpec XkSession XkMemModel XkMemSpec.
Import ListNotations.
Open Scope list_scope.
Open Scope Z_scope.

Definition blk : Set := (nat * what)%type.
Definition bdec : forall a b : blk, {a = b} + {a <> b}.
Proof. decide equality; [decide equality|apply Nat.eq_dec]. Defined.
Lemma count_cons (a x : blk) l : count_occ bdec (a :: l) x = ((if bdec a x then 1 else 0) + count_occ bdec l x)%nat.
Proof. cbn [count_occ]. destruct (bdec a x); reflexivity. Qed.
Lemma count_nil (x : blk) : count_occ bdec [] x = 0%nat.
Proof. reflexivity. Qed.
Ltac perm :=
  apply (proj2 (Permutation_count_occ bdec _ _)); let x := fresh "x" in intros x;
  repeat match goal with H : Permutation _ _ |- _ => let H' := fresh "H" in pose proof (proj1 (Permutation_count_occ bdec _ _) H x) as H'; clear H end;
  repeat (rewrite ?count_occ_app, ?count_cons, ?count_nil, ?app_nil_r in *);
  repeat match goal with |- context [if bdec ?a ?b then _ else _] => generalize (if bdec a b then 1%nat else 0%nat); intros end;
  try lia.

(** ** reasoning about the heap *)
Section Heap.
(** addresses that were allocated once; [true]: and are free for good *)
Variable Gone : list (nat * bool).
Definition owns (h : heap) (l : list blk) : Prop :=
  Permutation (live h) l /\ NoDup (map fst (live h)) /\ Forall (fun b => (fst b < next h)%nat) (live h)
  /\ Forall (fun f => snd f = true -> fst f = Wkey) (freed h)
  /\ Forall (fun x => (fst x < next h)%nat /\ (snd x = true -> ~ In (fst x) (map fst (live h)))) Gone.
Lemma owns_perm h l l' : Permutation l l' -> owns h l -> owns h l'.
Proof. intros P (A & B). split; [etransitivity; eassumption|exact B]. Qed.
Definition wp {A} (m : M A) (h : heap) (Q : A -> heap -> Prop) : Prop := match m h with Some (a, h') => Q a h' | None => False end.
Lemma wp_ret {A} (a : A) h (Q : A -> heap -> Prop) : Q a h -> wp (ret a) h Q.
Proof. intros H. exact H. Qed.
Lemma wp_bind {A B} (m : M A) (k : A -> M B) h Q : wp m h (fun a h' => wp (k a) h' Q) -> wp (bindM m k) h Q.
Proof. unfold wp, bindM. destruct (m h) as [[a h']|]; auto. Qed.
Lemma wp_mono {A} (m : M A) h (Q Q' : A -> heap -> Prop) : wp m h Q -> (forall a h', Q a h' -> Q' a h') -> wp m h Q'.
Proof. unfold wp. destruct (m h) as [[a h']|]; auto. Qed.
Lemma wp_alloc w h l (Q : nat -> heap -> Prop) : owns h l -> (forall a h', owns h' ((a, w) :: l) -> Q a h') -> wp (alloc w) h Q.
Proof.
  intros (P & N & F & W & G) K. unfold wp, alloc. apply K. cbn [live next freed map]. split; [|split; [|split; [|split]]].
  - apply perm_skip. exact P.
  - cbn [map fst live]. constructor; [|exact N]. intros I. apply in_map_iff in I. destruct I as (b & E & I).
    rewrite Forall_forall in F. specialize (F _ I). lia.
  - constructor; [cbn; lia|]. eapply Forall_impl; [|exact F]. cbn. intros; lia.
  - exact W.
  - eapply Forall_impl; [|exact G]. intros x [A B]. split; [cbn; lia|]. intros E [I|I]; [cbn in I; lia|exact (B E I)].
Qed.
Lemma find_block_in (a : nat) (w : what) (l : list blk) : NoDup (map fst l) -> In (a, w) l -> find_block a l = Some w.
Proof.
  unfold find_block. induction l as [|[b v] l IH]; intros N I; [destruct I|]. cbn [find fst].
  cbn [map fst] in N. inversion N as [|? ? N1 N2]; subst.
  destruct I as [I|I].
  - injection I as -> ->. rewrite Nat.eqb_refl. reflexivity.
  - destruct (Nat.eqb_spec b a); [|apply IH; assumption]. subst. exfalso. apply N1. apply in_map_iff. exists (a, w). auto.
Qed.
Lemma remove_in (a : nat) (w : what) (l : list blk) : NoDup (map fst l) -> In (a, w) l ->
  Permutation l ((a, w) :: filter (fun b => negb (Nat.eqb (fst b) a)) l).
Proof.
  induction l as [|[b v] l IH]; intros N I; [destruct I|]. cbn [map fst] in N. inversion N as [|? ? N1 N2]; subst.
  cbn [filter fst]. destruct I as [I|I].
  - injection I as -> ->. rewrite Nat.eqb_refl. cbn [negb]. apply perm_skip.
    assert (E : filter (fun b => negb (Nat.eqb (fst b) a)) l = l).
    { clear - N1. induction l as [|[c u] l IH]; [reflexivity|]. cbn [filter fst]. destruct (Nat.eqb_spec c a).
      - subst. exfalso. apply N1. left. reflexivity.
      - cbn [negb]. f_equal. apply IH. intros I. apply N1. right. exact I. }
    rewrite E. reflexivity.
  - destruct (Nat.eqb_spec b a).
    + subst. exfalso. apply N1. apply in_map_iff. exists (a, w). auto.
    + cbn [negb]. etransitivity; [apply perm_skip, IH; assumption|]. apply perm_swap.
Qed.
Lemma filter_sub {A} (f : A -> bool) l (P : A -> Prop) : Forall P l -> Forall P (filter f l).
Proof. rewrite !Forall_forall. intros H x I. apply filter_In in I. apply H. exact (proj1 I). Qed.
Lemma nodup_filter (f : blk -> bool) l : NoDup (map fst l) -> NoDup (map fst (filter f l)).
Proof.
  induction l as [|b l IH]; intros N; [constructor|]. cbn [map] in N. inversion N as [|? ? N1 N2]; subst. cbn [filter].
  destruct (f b); [|apply IH; exact N2]. cbn [map]. constructor; [|apply IH; exact N2]. intros I. apply N1.
  apply in_map_iff in I. destruct I as (c & E & I). apply filter_In in I. apply in_map_iff. exists c. split; [exact E|exact (proj1 I)].
Qed.
Lemma wp_release z a w h l l' (Q : unit -> heap -> Prop) : owns h l -> Permutation l ((a, w) :: l') -> (z = true -> w = Wkey) ->
  (forall h', owns h' l' -> Q tt h') -> wp (release z a) h Q.
Proof.
  intros (P & N & F & W & G) P2 Z K. unfold wp, release.
  assert (I : In (a, w) (live h)) by (apply (Permutation_in _ (Permutation_sym P)), (Permutation_in _ (Permutation_sym P2)); left; reflexivity).
  rewrite (find_block_in _ _ _ N I). apply K. split; [|split; [|split; [|split]]]; cbn [live next freed].
  - pose proof (remove_in _ _ _ N I) as R. apply Permutation_cons_inv with (a := (a, w)). etransitivity; [symmetry; exact R|]. etransitivity; [exact P|exact P2].
  - apply nodup_filter. exact N.
  - apply filter_sub. exact F.
  - constructor; [exact Z|exact W].
  - eapply Forall_impl; [|exact G]. intros x [A B]. split; [exact A|]. intros E J. apply (B E). apply in_map_iff in J.
    destruct J as (b & E2 & J). apply filter_In in J. apply in_map_iff. exists b. split; [exact E2|exact (proj1 J)].
Qed.
Lemma wp_touch a w h l (Q : unit -> heap -> Prop) : owns h l -> In (a, w) l -> Q tt h -> wp (touch a) h Q.
Proof.
  intros (P & N & _) I K. unfold wp, touch.
  assert (I2 : In (a, w) (live h)) by (apply (Permutation_in _ (Permutation_sym P)); exact I).
  rewrite (find_block_in _ _ _ N I2). exact K.
Qed.

Definition optb (w : what) (o : option nat) : list blk := match o with Some a => [(a, w)] | None => [] end.
Lemma wp_free_opt w o h l l' (Q : unit -> heap -> Prop) : owns h l -> Permutation l (optb w o ++ l') -> (forall h', owns h' l' -> Q tt h') -> wp (free_opt o) h Q.
Proof.
  intros O P K. destruct o as [a|]; cbn [free_opt optb app] in *.
  - eapply wp_release; [exact O|exact P|discriminate|exact K].
  - apply K. eapply owns_perm; eassumption.
Qed.
Definition sized (o : option nat) (s : bytes) : Prop := o = None <-> s = [].
Lemma zlen_pos {A} (s : list A) : (0 <? zlen s) = match s with [] => false | _ => true end.
Proof. destruct s; [reflexivity|]. apply Z.ltb_lt. unfold zlen. cbn [length]. lia. Qed.
Lemma wp_alloc_opt w s h l (Q : option nat -> heap -> Prop) : owns h l -> (forall o h', sized o s -> owns h' (optb w o ++ l) -> Q o h') -> wp (alloc_opt w s) h Q.
Proof.
  intros O K. unfold alloc_opt. rewrite zlen_pos. destruct s as [|b s].
  - apply K; [split; reflexivity|exact O].
  - apply wp_bind. eapply wp_alloc; [exact O|]. intros a h' O'. apply K; [split; discriminate|exact O'].
Qed.
Lemma sized_text o s w : sized o s -> map snd (optb w o) = text w s.
Proof. intros [A B]. destruct o as [a|], s as [|b s]; try reflexivity; exfalso; [specialize (B eq_refl)|specialize (A eq_refl)]; discriminate. Qed.

(** tactics: the next operation of a call *)
Ltac rm a l := match l with
  | (a, _) :: ?t => constr:(t)
  | ?x :: ?t => let t' := rm a t in constr:(x :: t')
  | ?x ++ ?t => let t' := rm a t in constr:(x ++ t')
  end.
Ltac kind a l := match l with
  | (a, ?w) :: _ => constr:(w)
  | _ :: ?t => kind a t
  | _ ++ ?t => kind a t
  end.
Ltac kindo o l := match l with
  | optb ?w o ++ _ => constr:(w)
  | _ :: ?t => kindo o t
  | _ ++ ?t => kindo o t
  end.
Ltac rmo o l := match l with
  | optb _ o ++ ?t => constr:(t)
  | ?x :: ?t => let t' := rmo o t in constr:(x :: t')
  | ?x ++ ?t => let t' := rmo o t in constr:(x ++ t')
  end.
Ltac inl := first [left; reflexivity | right; inl | apply in_or_app; right; inl | apply in_or_app; left; inl].
Ltac step1 :=
  match goal with
  | |- wp (bindM _ _) _ _ => apply wp_bind
  | |- wp (ret _) _ _ => apply wp_ret
  | O : owns ?h ?l |- wp (alloc ?w) ?h _ =>
      apply (wp_alloc w h l _ O); clear O; let a := fresh "a" in let h' := fresh "h" in intros a h' O
  | O : owns ?h ?l |- wp (alloc_opt ?w ?s) ?h _ =>
      apply (wp_alloc_opt w s h l _ O); clear O; let a := fresh "o" in let h' := fresh "h" in let Z := fresh "Z" in intros a h' Z O
  | O : owns ?h ?l |- wp (touch ?a) ?h _ => eapply (wp_touch a _ h l _ O); [inl|]
  | |- wp (free ?a) ?h _ => unfold free
  | |- wp (wipe_free ?a) ?h _ => unfold wipe_free
  | O : owns ?h ?l |- wp (release ?z ?a) ?h _ =>
      let l' := rm a l in let w := kind a l in apply (wp_release z a w h l l' _ O); [perm|first [discriminate|reflexivity]|]; clear O; let h' := fresh "h" in intros h' O
  | O : owns ?h ?l |- wp (free_opt ?o) ?h _ =>
      let l' := rmo o l in let w := kindo o l in apply (wp_free_opt w o h l l' _ O); [perm|]; clear O; let h' := fresh "h" in intros h' O
  end.
Ltac steps := repeat step1.

(** ** the blocks of devices and sessions *)
Definition lostp (p : hpeer) : list blk := (hp_data p, Wpeer) :: (hp_info p, Wname) :: (hp_key p, Wkey) :: optb Wtext (hp_text p).
Definition pblk (p : hpeer) : list blk := (hp_cell p, Wcell) :: lostp p.
Definition dev_mem (d : hdev) : list blk :=
  (hd_dev d, Wdevice) :: (hd_info d, Wname) :: (hd_sk d, Wsk) :: (hd_spriv d, Wspriv) :: (hd_spub d, Wspub) :: (hd_head d, Whead)
  :: optb Wtext (hd_text d) ++ optb Wprologue (hd_prologue d) ++ flat_map pblk (hd_peers d).
Definition lost_mem (d : hdev) : list blk := (hd_sk d, Wsk) :: flat_map lostp (hd_peers d).
Definition st_mem (s : hstate) : list blk :=
  match s with
  | HHand k ck h epriv epub rs re => [(k, Wcipher); (ck, Wchain); (h, Wtranscript); (epriv, Wepriv); (epub, Wepub); (rs, Wrs); (re, Wre)]
  | HTran h send recv => [(h, Wtranscript); (send, Wsend); (recv, Wrecv)]
  end.
Definition sess_mem (s : hsess) : list blk :=
  (hs_sn s, Wsession) :: (hs_spriv s, Wspriv) :: (hs_spub s, Wspub) :: (hs_info s, Wname) :: (hs_pinfo s, Wname)
  :: optb Wtext (hs_text s) ++ optb Wtext (hs_ptext s) ++ st_mem (hs_state s).

Lemma create_ok prologue info h R : owns h R -> wp (mem_device_create prologue info) h (fun d h' =>
  owns h' (dev_mem d ++ R) /\ hd_peers d = [] /\ sized (hd_text d) info /\ sized (hd_prologue d) prologue).
Proof.
  intros O. unfold mem_device_create. steps. unfold dev_mem. cbn [hd_dev hd_info hd_text hd_sk hd_spriv hd_spub hd_prologue hd_head hd_peers flat_map].
  split; [|auto]. eapply owns_perm; [|exact O]. perm.
Qed.
Lemma create_secret_ok ok prologue info h R : owns h R -> wp (mem_device_create_from_secret ok prologue info) h (fun o h' =>
  match o with
  | None => ok = false /\ owns h' R
  | Some d => ok = true /\ owns h' (dev_mem d ++ R) /\ hd_peers d = [] /\ sized (hd_text d) info /\ sized (hd_prologue d) prologue
  end).
Proof.
  intros O. unfold mem_device_create_from_secret. steps. destruct ok; cbn [negb]; steps.
  - unfold dev_mem. cbn [hd_dev hd_info hd_text hd_sk hd_spriv hd_spub hd_prologue hd_head hd_peers flat_map].
    split; [reflexivity|]. split; [|auto]. eapply owns_perm; [|exact O]. perm.
  - auto.
Qed.
Lemma free_cells_ok l : forall h R, owns h (flat_map pblk l ++ R) -> wp (mem_free_cells l) h (fun _ h' => owns h' (flat_map lostp l ++ R)).
Proof.
  induction l as [|p l IH]; intros h R O; cbn [mem_free_cells flat_map app] in *; [exact O|].
  unfold pblk in O. fold pblk in O. cbn [app] in O. rewrite <- ?app_assoc in O.
  steps. assert (O2 : owns h (flat_map pblk l ++ (hp_cell p, Wcell) :: lostp p ++ R)) by (eapply owns_perm; [|exact O]; perm).
  clear O. eapply wp_mono; [exact (IH _ _ O2)|]. clear O2. intros u h' O. cbv beta in O. steps. eapply owns_perm; [|exact O]. perm.
Qed.
Lemma free_device_ok d h R : owns h (dev_mem d ++ R) -> wp (mem_device_free d) h (fun _ h' => owns h' (lost_mem d ++ R)).
Proof.
  intros O. unfold mem_device_free, dev_mem, lost_mem in *. cbn [app] in O. rewrite <- ?app_assoc in O. steps.
  eapply wp_mono.
  { apply (free_cells_ok _ _ ((hd_dev d, Wdevice) :: (hd_sk d, Wsk) :: (hd_spriv d, Wspriv) :: (hd_spub d, Wspub) :: (hd_head d, Whead) :: optb Wprologue (hd_prologue d) ++ R)).
    eapply owns_perm; [|exact O]. perm. }
  clear O. intros u h' O. cbv beta in O. steps. eapply owns_perm; [|exact O]. cbn [app]. perm.
Qed.
Lemma find_ok k f l : forall h L (Q : option hpeer -> heap -> Prop), owns h L -> (forall b, In b (flat_map pblk l) -> In b L) ->
  (forall o, match o with Some p => In p l /\ find f (map hp_val l) = Some (hp_val p) | None => find f (map hp_val l) = None end -> Q o h) ->
  wp (mem_find k f l) h Q.
Proof.
  induction l as [|p l IH]; intros h L Q O Sub K; cbn [mem_find flat_map] in *; [apply K; reflexivity|].
  assert (S2 : forall b, In b (pblk p) -> In b L) by (intros b I; apply Sub, in_or_app; left; exact I).
  apply wp_bind. eapply wp_touch; [exact O|apply S2; left; reflexivity|].
  apply wp_bind. eapply wp_touch; [exact O|apply S2; right; left; reflexivity|].
  apply wp_bind. assert (T : wp (if k then touch (hp_key p) else ret tt) h (fun _ h' => h' = h)).
  { destruct k; [eapply wp_touch; [exact O|apply S2; right; right; right; left; reflexivity|reflexivity]|reflexivity]. }
  eapply wp_mono; [exact T|]. intros _ h' ->. cbv beta. cbn [map find] in K.
  destruct (f (hp_val p)) eqn:F.
  - apply wp_ret. apply K. split; [left; reflexivity|reflexivity].
  - eapply IH; [exact O|intros b I; apply Sub, in_or_app; right; exact I|].
    intros o H. apply K. destruct o as [q|]; [|exact H]. split; [right; exact (proj1 H)|exact (proj2 H)].
Qed.

Definition psized (p : hpeer) : Prop := sized (hp_text p) (p_info (hp_val p)).
Definition dmatch (d : hdev) (v : xdev) : Prop :=
  map hp_val (hd_peers d) = d_peers v /\ Forall psized (hd_peers d) /\ sized (hd_text d) (d_info v) /\ sized (hd_prologue d) (d_prologue v).

Lemma push_ok d p h R : owns h (dev_mem d ++ R) -> wp (mem_push_peer d p) h (fun d' h' =>
  owns h' (dev_mem d' ++ R) /\ exists q, hp_val q = p /\ psized q /\ d' = with_peers d (q :: hd_peers d)).
Proof.
  intros O. unfold mem_push_peer. steps. split.
  - eapply owns_perm; [|exact O]. unfold dev_mem, with_peers. cbn [hd_dev hd_info hd_text hd_sk hd_spriv hd_spub hd_prologue hd_head hd_peers flat_map].
    unfold pblk at 2. unfold lostp. cbn [hp_cell hp_data hp_info hp_key hp_text app]. perm.
  - eexists. split; [|split; [|reflexivity]]; [reflexivity|exact Z].
Qed.
Lemma dev_mem_peers d R b : In b (flat_map pblk (hd_peers d)) -> In b (dev_mem d ++ R).
Proof. intros I. apply in_or_app. left. unfold dev_mem. do 6 right. apply in_or_app. right. apply in_or_app. right. exact I. Qed.
Ltac devin := apply in_or_app; left; unfold dev_mem; cbn [In]; auto 10.

Lemma add_ok d rs added h R : owns h (dev_mem d ++ R) -> wp (mem_device_add_peer d rs added) h (fun d' h' =>
  owns h' (dev_mem d' ++ R) /\ match added with
                               | None => d' = d
                               | Some p => exists q, hp_val q = p /\ psized q /\ d' = with_peers d (q :: hd_peers d)
                               end).
Proof.
  intros O. unfold mem_device_add_peer.
  apply wp_bind. eapply wp_touch; [exact O|devin|]. apply wp_bind. eapply wp_touch; [exact O|devin|].
  apply wp_bind. eapply find_ok; [exact O|intros b I; apply dev_mem_peers; exact I|]. intros o _.
  destruct added as [p|]; [apply push_ok; exact O|]. apply wp_ret. auto.
Qed.

Lemma free_peer_ok p h R : owns h (lostp p ++ R) -> wp (mem_free_peer p) h (fun _ h' => owns h' R).
Proof.
  intros O. unfold mem_free_peer, lostp in *. cbn [app] in O. rewrite <- ?app_assoc in O. steps. exact O.
Qed.
Lemma unlink_vals first pid l : forall h R, owns h (flat_map pblk l ++ R) -> Forall psized l ->
  wp (mem_unlink first pid l) h (fun l' h' => owns h' (flat_map pblk l' ++ R) /\ map hp_val l' = unlink pid (map hp_val l) /\ Forall psized l').
Proof.
  revert first. induction l as [|p l IH]; intros first h R O F; cbn [mem_unlink flat_map map unlink] in *.
  - apply wp_ret. split; [exact O|]. split; [reflexivity|constructor].
  - inversion F as [|? ? Fp F']; subst. unfold pblk in O. fold pblk in O. cbn [app] in O. rewrite <- ?app_assoc in O.
    unfold lostp in O. cbn [app] in O. rewrite <- ?app_assoc in O. apply wp_bind. step1. apply wp_bind. step1.
    destruct (p_id (hp_val p) =? pid).
    + destruct first.
      * step1. steps. eapply wp_mono; [apply (free_peer_ok _ _ (flat_map pblk l ++ R)); eapply owns_perm; [|exact O]; unfold lostp; cbn [app]; perm|].
        clear O. intros u h' O. cbv beta in O. steps. auto.
      * step1. eapply wp_mono; [apply (free_peer_ok _ _ ((hp_cell p, Wcell) :: flat_map pblk l ++ R)); eapply owns_perm; [|exact O]; unfold lostp; cbn [app]; perm|].
        clear O. intros u h' O. cbv beta in O. steps. auto.
    + step1. eapply wp_mono; [apply (IH false _ (pblk p ++ R)); [eapply owns_perm; [|exact O]; unfold pblk at 3; unfold lostp; cbn [app]; perm|exact F']|].
      clear O. intros l' h' (O & E & F2). cbv beta. steps. cbn [flat_map map]. split; [eapply owns_perm; [|exact O]; perm|].
      split; [rewrite E; reflexivity|]. constructor; assumption.
Qed.
Lemma remove_ok d v pid h R : dmatch d v -> owns h (dev_mem d ++ R) -> wp (mem_device_remove_peer d pid) h (fun d' h' =>
  owns h' (dev_mem d' ++ R) /\ dmatch d' (device_remove_peer v pid) /\ hd_dev d' = hd_dev d).
Proof.
  intros (E & F & T & P) O. unfold mem_device_remove_peer, device_remove_peer. destruct (pid =? 0).
  - apply wp_ret. split; [exact O|]. split; [repeat split; assumption || apply T || apply P|reflexivity].
  - apply wp_bind. eapply wp_touch; [exact O|devin|]. apply wp_bind. eapply wp_touch; [exact O|devin|]. apply wp_bind.
    eapply wp_mono.
    { apply (unlink_vals true pid _ _ ((hd_dev d, Wdevice) :: (hd_info d, Wname) :: (hd_sk d, Wsk) :: (hd_spriv d, Wspriv) :: (hd_spub d, Wspub) :: (hd_head d, Whead)
        :: optb Wtext (hd_text d) ++ optb Wprologue (hd_prologue d) ++ R)); [|exact F].
      eapply owns_perm; [|exact O]. unfold dev_mem. perm. }
    clear O. intros l' h' (O & E2 & F2). cbv beta. apply wp_ret. split.
    + eapply owns_perm; [|exact O]. unfold dev_mem, with_peers. cbn [hd_dev hd_info hd_text hd_sk hd_spriv hd_spub hd_prologue hd_head hd_peers]. perm.
    + split; [|reflexivity]. unfold dmatch, with_peers. cbn [hd_peers hd_text hd_prologue d_peers d_info d_prologue]. rewrite E2, E. auto.
Qed.
Lemma serialize_ok d h R : owns h (dev_mem d ++ R) -> wp (mem_serialize_device_secret d) h (fun a h' => owns h' ((a, Wout) :: dev_mem d ++ R)).
Proof.
  intros O. unfold mem_serialize_device_secret. apply wp_bind. eapply wp_touch; [exact O|devin|]. step1. step1.
  apply wp_bind. eapply wp_touch; [exact O|right; devin|]. apply wp_ret. exact O.
Qed.
Lemma peer_in p l b : In p l -> In b (pblk p) -> In b (flat_map pblk l).
Proof. intros I J. apply in_flat_map. exists p. auto. Qed.
(** look up a peer by its identifier *)
Lemma by_id_ok d v pid h R (Q : option hpeer -> heap -> Prop) : dmatch d v -> owns h (dev_mem d ++ R) ->
  (forall o, match o with Some p => In p (hd_peers d) /\ lookup_peer_by_id v pid = Some (hp_val p) | None => lookup_peer_by_id v pid = None end -> Q o h) ->
  wp (if pid =? 0 then ret None else touch (hd_head d) ;;; mem_find false (fun p => p_id p =? pid) (hd_peers d)) h Q.
Proof.
  intros (E & _) O K. unfold lookup_peer_by_id in K. destruct (pid =? 0); [apply wp_ret, K; reflexivity|].
  apply wp_bind. eapply wp_touch; [exact O|devin|].
  eapply find_ok; [exact O|intros b I; apply dev_mem_peers; exact I|]. rewrite E. exact K.
Qed.
Lemma serialize_peer_ok d v pid h R : dmatch d v -> owns h (dev_mem d ++ R) ->
  wp (mem_serialize_peer_secret d pid) h (fun o h' => owns h' (optb Wout o ++ dev_mem d ++ R)).
Proof.
  intros D O. unfold mem_serialize_peer_secret. apply wp_bind. eapply wp_touch; [exact O|devin|].
  apply wp_bind. eapply by_id_ok; [exact D|exact O|]. intros [p|] H; [|apply wp_ret; exact O]. destruct H as [I _].
  assert (J : forall R' b, In b (pblk p) -> In b (dev_mem d ++ R')) by (intros R' b H; apply dev_mem_peers; eapply peer_in; eassumption).
  apply wp_bind. eapply wp_touch; [exact O|devin|]. apply wp_bind. eapply wp_touch; [exact O|apply J; right; left; reflexivity|].
  step1. step1. step1. step1.
  apply wp_bind. eapply wp_touch; [exact O|right; right; apply J; right; right; right; left; reflexivity|].
  apply wp_bind. eapply wp_touch; [exact O|right; right; apply J; right; right; left; reflexivity|].
  apply wp_bind. eapply wp_touch; [exact O|right; right; devin|]. steps. exact O.
Qed.
Lemma deserialize_ok d len rs added h R : owns h (dev_mem d ++ R) -> wp (mem_deserialize_peer_secret d len rs added) h (fun d' h' =>
  owns h' (dev_mem d' ++ R) /\ match (if negb (56 =? len) then None else rs), added with
                               | Some _, Some p => exists q, hp_val q = p /\ psized q /\ d' = with_peers d (q :: hd_peers d)
                               | _, _ => d' = d
                               end).
Proof.
  intros O. unfold mem_deserialize_peer_secret. apply wp_bind. eapply wp_touch; [exact O|devin|].
  destruct (negb (56 =? len)); [apply wp_ret; auto|]. step1. step1.
  apply wp_bind. eapply wp_touch; [exact O|right; devin|]. destruct rs as [rs|]; [|steps; auto].
  step1. eapply wp_mono; [apply (add_ok d rs added _ ((a, Wconcat) :: R)); eapply owns_perm; [|exact O]; perm|].
  clear O. intros d' h' (O & K). cbv beta. apply wp_bind. unfold free. eapply (wp_release _ _ Wconcat); [exact O| |discriminate|].
  { instantiate (1 := dev_mem d' ++ R). perm. }
  intros h2 O2. apply wp_ret. split; [exact O2|exact K].
Qed.
Lemma get_info_ok d info h R : owns h (dev_mem d ++ R) -> wp (mem_device_get_info d info) h (fun o h' => owns h' (optb Wtext o ++ dev_mem d ++ R)).
Proof.
  intros O. unfold mem_device_get_info. apply wp_bind. eapply wp_touch; [exact O|devin|]. apply wp_bind. eapply wp_touch; [exact O|devin|].
  step1. exact O.
Qed.
Lemma peer_info_ok d v pid h R : dmatch d v -> owns h (dev_mem d ++ R) ->
  wp (mem_peer_get_info d pid) h (fun o h' => owns h' (optb Wtext o ++ dev_mem d ++ R)).
Proof.
  intros D O. unfold mem_peer_get_info. apply wp_bind. eapply wp_touch; [exact O|devin|].
  apply wp_bind. eapply by_id_ok; [exact D|exact O|]. intros [p|] H; [|apply wp_ret; exact O]. destruct H as [I _].
  assert (J : forall R' b, In b (pblk p) -> In b (dev_mem d ++ R')) by (intros R' b H; apply dev_mem_peers; eapply peer_in; eassumption).
  apply wp_bind. eapply wp_touch; [exact O|apply J; right; left; reflexivity|].
  apply wp_bind. eapply wp_touch; [exact O|apply J; right; right; left; reflexivity|]. step1. exact O.
Qed.

(** ** sessions *)
Definition smatch (s : hsess) (info : bytes) (v : xsess) : Prop :=
  sized (hs_text s) info /\ sized (hs_ptext s) (s_pinfo v)
  /\ match hs_state s, s_st v with HHand _ _ _ _ _ _ _, Handshake _ => True | HTran _ _ _, Transport _ => True | _, _ => False end.
Lemma session_ok d info pinfo h R : owns h (dev_mem d ++ R) -> wp (mem_session d info pinfo) h (fun s h' =>
  owns h' (sess_mem s ++ dev_mem d ++ R) /\ sized (hs_text s) info /\ sized (hs_ptext s) pinfo /\ hs_dev s = hd_dev d
  /\ exists k ck hh epriv epub rs re, hs_state s = HHand k ck hh epriv epub rs re).
Proof.
  intros O. unfold mem_session. apply wp_bind. eapply wp_touch; [exact O|devin|]. step1. step1.
  apply wp_bind. eapply wp_touch; [exact O|right; devin|]. step1. step1.
  apply wp_bind. eapply wp_touch; [exact O|right; right; devin|]. steps.
  split; [eapply owns_perm; [|exact O]; unfold sess_mem, st_mem; cbn [hs_sn hs_spriv hs_spub hs_info hs_text hs_pinfo hs_ptext hs_state app]; perm|].
  cbn [hs_text hs_ptext hs_dev hs_state]. repeat split; try apply Z; try apply Z0. repeat eexists.
Qed.
Lemma initiator_ok X d v full pid info ep h R : dmatch d v -> full = (d_states v =? 4294967295) -> owns h (dev_mem d ++ R) ->
  let r := session_create_initiator X v pid ep in
  wp (mem_session_create_initiator d full pid info (option_map snd r)) h (fun o h' =>
    match o, r with
    | Some s, Some (_, sn) => owns h' (sess_mem s ++ dev_mem d ++ R) /\ smatch s info sn /\ hs_dev s = hd_dev d
    | None, None => owns h' (dev_mem d ++ R)
    | _, _ => False
    end).
Proof.
  intros D E O r. unfold mem_session_create_initiator. apply wp_bind. eapply wp_touch; [exact O|devin|].
  subst r full. unfold session_create_initiator. destruct (d_states v =? 4294967295); [apply wp_ret; exact O|].
  apply wp_bind. eapply by_id_ok; [exact D|exact O|]. intros [p|] H.
  - destruct H as [I L]. rewrite L. cbn [option_map snd s_pinfo].
    assert (J : forall R' b, In b (pblk p) -> In b (dev_mem d ++ R')) by (intros R' b H; apply dev_mem_peers; eapply peer_in; eassumption).
    apply wp_bind. eapply wp_touch; [exact O|apply J; right; left; reflexivity|].
    apply wp_bind. eapply wp_touch; [exact O|apply J; right; right; left; reflexivity|].
    apply wp_bind. eapply wp_touch; [exact O|apply J; right; right; right; left; reflexivity|].
    apply wp_bind. eapply wp_mono; [apply session_ok; exact O|]. clear O.
    intros s h' (O & A & B & C & k & ck & hh & e1 & e2 & rs & re & S). apply wp_ret. split; [exact O|].
    split; [|exact C]. unfold smatch. rewrite S. cbn [s_pinfo s_st]. auto.
  - rewrite H. apply wp_ret. exact O.
Qed.
Lemma responder_ok X d v info ep h R : owns h (dev_mem d ++ R) ->
  let r := session_create_responder X v ep in
  wp (mem_session_create_responder d info (option_map snd r)) h (fun o h' =>
    match o, r with
    | Some s, Some (_, sn) => owns h' (sess_mem s ++ dev_mem d ++ R) /\ smatch s info sn /\ hs_dev s = hd_dev d
    | None, None => owns h' (dev_mem d ++ R)
    | _, _ => False
    end).
Proof.
  intros O r. unfold mem_session_create_responder. apply wp_bind. eapply wp_touch; [exact O|devin|].
  subst r. unfold session_create_responder. destruct (d_states v =? 4294967295); [apply wp_ret; exact O|].
  cbn [option_map snd s_pinfo]. apply wp_bind. eapply wp_mono; [apply session_ok; exact O|]. clear O.
  intros s h' (O & A & B & C & k & ck & hh & e1 & e2 & rs & re & S). apply wp_ret. split; [exact O|].
  split; [|exact C]. unfold smatch. rewrite S. cbn [s_pinfo s_st]. auto.
Qed.
Lemma session_free_ok s h R : owns h (sess_mem s ++ R) -> wp (mem_session_free s) h (fun _ h' => owns h' R).
Proof.
  intros O. unfold mem_session_free, sess_mem in *. cbn [app] in O. rewrite <- ?app_assoc in O.
  destruct (hs_state s) as [k ck hh e1 e2 rs re|hh k1 k2]; cbn [st_mem app] in O; steps; exact O.
Qed.

Definition same_frame (s s' : hsess) : Prop :=
  hs_sn s' = hs_sn s /\ hs_spriv s' = hs_spriv s /\ hs_spub s' = hs_spub s /\ hs_info s' = hs_info s /\ hs_text s' = hs_text s
  /\ hs_pinfo s' = hs_pinfo s /\ hs_dev s' = hs_dev s.
Lemma same_refl s : same_frame s s.
Proof. repeat split. Qed.
Lemma split_mem_ok s init h R : owns h (sess_mem s ++ R) -> (exists k ck hh epriv epub rs re, hs_state s = HHand k ck hh epriv epub rs re) ->
  wp (mem_split s init) h (fun s' h' => owns h' (sess_mem s' ++ R) /\ same_frame s s' /\ hs_ptext s' = hs_ptext s
    /\ exists hh a b, hs_state s' = HTran hh a b).
Proof.
  intros O (k & ck & hh & e1 & e2 & rs & re & S). unfold mem_split, sess_mem in *. rewrite S in *. cbn [app st_mem] in O. rewrite <- ?app_assoc in O. cbn [app] in O.
  destruct init; steps; (split; [|split; [repeat split|split; [reflexivity|repeat eexists]]]);
    (eapply owns_perm; [|exact O]); cbn [with_state hs_sn hs_spriv hs_spub hs_info hs_text hs_pinfo hs_ptext hs_state st_mem]; perm.
Qed.
Lemma split_is_transport X init s : is_transport (split X init s) = true.
Proof. unfold split. destruct (kdf _ _ _). destruct init; reflexivity. Qed.

Lemma write_ok X s info sn m h R sn' code out : session_write X m sn = (sn', code, out) -> smatch s info sn -> owns h (sess_mem s ++ R) ->
  wp (mem_session_write s m sn sn' code) h (fun r h' =>
    owns h' (optb Wout (snd r) ++ sess_mem (fst r) ++ R) /\ smatch (fst r) info sn' /\ hs_dev (fst r) = hs_dev s).
Proof.
  intros W (T & P & S) O. unfold mem_session_write, session_write in *.
  apply wp_bind. eapply wp_touch; [exact O|apply in_or_app; left; left; reflexivity|].
  destruct (s_st sn) as [hh|t] eqn:E.
  - destruct (4 <=? h_step hh); [injection W as <- <- <-; apply wp_ret; cbn; unfold smatch; rewrite E; auto|].
    destruct (compute_next_message_len (Handshake hh) (zlen (em_msg m))) as [n|]; [|injection W as <- <- <-; apply wp_ret; cbn; unfold smatch; rewrite E; auto].
    destruct (sec_ok (conf_level (Handshake hh)) m); [|injection W as <- <- <-; apply wp_ret; cbn; unfold smatch; rewrite E; auto].
    destruct (state_handshake_write X (s_init sn) hh (em_msg m) n) as [st [e|c]] eqn:SW; injection W as <- <- <-;
      cbn [with_st s_st is_transport negb andb]; step1; step1.
    + assert (NT : is_transport st = false).
      { unfold state_handshake_write in SW. destruct (write_msg _ _ _ _ _) as [h' [e'|c']]; injection SW as <- X1; [reflexivity|discriminate]. }
      rewrite NT. steps. cbn [fst snd optb app]. split; [exact O|]. split; [|reflexivity].
      unfold smatch. cbn [with_st s_pinfo s_st]. destruct st; [|discriminate]. destruct (hs_state s); auto.
    + destruct (is_transport st) eqn:NT.
      * step1. eapply wp_mono.
        { apply (split_mem_ok s (s_init sn) _ ((a, Wout) :: R)); [eapply owns_perm; [|exact O]; perm|]. destruct (hs_state s); [repeat eexists|destruct S]. }
        clear O. intros s' h' (O & F & PT & x1 & x2 & x3 & S'). cbv beta. apply wp_ret. cbn [fst snd optb app].
        split; [eapply owns_perm; [|exact O]; perm|]. destruct F as (_ & _ & _ & _ & FT & _ & FD). split; [|exact FD].
        unfold smatch. cbn [with_st s_pinfo s_st]. rewrite FT, PT, S'. destruct st; [discriminate|]. auto.
      * steps. cbn [fst snd optb app]. split; [exact O|]. split; [|reflexivity].
        unfold smatch. cbn [with_st s_pinfo s_st]. destruct st; [|discriminate]. destruct (hs_state s); auto.
  - destruct (compute_next_message_len (Transport t) (zlen (em_msg m))) as [n|]; [|injection W as <- <- <-; apply wp_ret; cbn; unfold smatch; rewrite E; auto].
    destruct (sec_ok (conf_level (Transport t)) m); [|injection W as <- <- <-; apply wp_ret; cbn; unfold smatch; rewrite E; auto].
    destruct (state_transport_write X t (em_msg m) n) as [t' [e|c]] eqn:SW; injection W as <- <- <-; cbn [with_st s_st is_transport negb andb]; steps.
    + cbn [fst snd optb app]. split; [exact O|]. split; [|reflexivity]. unfold smatch. rewrite E. auto.
    + cbn [fst snd optb app]. split; [exact O|]. split; [|reflexivity].
      unfold smatch. cbn [with_st s_pinfo s_st]. destruct (hs_state s); auto.
Qed.

(** what a read of a handshake message does *)
Lemma read_found X init v s outlen input s' p peer : read_msg X init v s outlen input = (s', inr (p, peer)) ->
  peer = found_peer X init v s outlen input.
Proof.
  unfold read_msg, found_peer. destruct (3 <=? h_step s); [discriminate|]. destruct (negb (Bool.eqb init (h_step s mod 2 =? 1))); [discriminate|].
  destruct (negb init && negb (h_step s =? 0)).
  - destruct (negb (_ && _)); [discriminate|]. destruct (decrypt_and_hash X s 1 (firstn 48 input)) as [s1 [rs|]]; [|discriminate]. cbn [snd].
    destruct (lookup_peer_by_static v rs) as [q|]; [|discriminate]. destruct (mix_dh _ _ _ _) as [s2 [e|]]; [discriminate|].
    destruct (decrypt_and_hash X s2 0 _) as [s3 [p'|]]; [|discriminate]. intros E. injection E as _ _ E. symmetry. exact E.
  - destruct (negb (_ && _)); [discriminate|]. destruct (mix_dh _ _ _ _) as [s2 [e|]]; [discriminate|].
    destruct (decrypt_and_hash X s2 0 _) as [s3 [p'|]]; [|discriminate]. intros E. injection E as _ _ E. symmetry. exact E.
Qed.
Section Laws.
Variable X : xprims.
Hypothesis HX : xprims_ok X.
Lemma aead_len k n a c p : aead_decrypt X k n a c = Some p -> zlen c = zlen p + 16.
Proof. intros H. exact (ok_open_len _ HX _ _ _ _ _ H). Qed.
Lemma dec_hash_len s n c s' p : decrypt_and_hash X s n c = (s', Some p) -> zlen c = zlen p + 16.
Proof.
  unfold decrypt_and_hash. destruct (aead_decrypt X (h_k s) n (h_h s) c) as [q|] eqn:E; intros H; [|discriminate].
  assert (q = p) by congruence. subst. eapply aead_len. exact E.
Qed.
Lemma zlen_skipn {A} n (l : list A) : Z.of_nat n <= zlen l -> zlen (skipn n l) = zlen l - Z.of_nat n.
Proof. unfold zlen. rewrite skipn_length. lia. Qed.
Lemma read_payload init v s outlen input s' p peer : read_msg X init v s outlen input = (s', inr (p, peer)) ->
  payload_len (Handshake s) (zlen input) = Some outlen -> steps_ok (Handshake s) -> zlen p = outlen.
Proof.
  unfold read_msg, payload_len. destruct (Z.leb_spec 3 (h_step s)) as [|L3]; [discriminate|].
  destruct (negb (Bool.eqb init (h_step s mod 2 =? 1))) eqn:B; [discriminate|]. intros E Pl Sp. cbn in Sp.
  destruct (negb init && negb (h_step s =? 0)) eqn:B2.
  - apply andb_true_iff in B2. destruct B2 as [B2 B3]. destruct init; [discriminate|]. destruct (Z.eqb_spec (h_step s) 0) as [|N0]; [discriminate|].
    assert (E2 : h_step s = 2).
    { destruct (Z.eq_dec (h_step s) 1) as [E1|]; [|lia]. rewrite E1 in B. discriminate. }
    rewrite E2 in Pl. cbn [Z.eqb Pos.eqb orb] in Pl. destruct (Z.leb_spec 64 (zlen input)) as [L|]; [|discriminate]. injection Pl as <-.
    destruct (negb (_ && _)); [discriminate|]. destruct (decrypt_and_hash X s 1 (firstn 48 input)) as [s1 [rs|]]; [|discriminate].
    destruct (lookup_peer_by_static v rs) as [q|]; [|discriminate]. destruct (mix_dh _ _ _ _) as [s2 [e|]]; [discriminate|].
    destruct (decrypt_and_hash X s2 0 (skipn 48 input)) as [s3 [p'|]] eqn:D; [|discriminate]. injection E as _ E _. subst p'.
    apply dec_hash_len in D. rewrite zlen_skipn in D by lia. lia.
  - assert (Pl2 : 48 <= zlen input /\ outlen = zlen input - 48).
    { assert (O : (h_step s =? 0) || (h_step s =? 1) = true).
      { destruct (Z.eqb_spec (h_step s) 0); [reflexivity|]. destruct (Z.eqb_spec (h_step s) 1) as [|N1]; [reflexivity|]. exfalso.
        assert (E2 : h_step s = 2) by lia. rewrite E2 in B. destruct init; discriminate. }
      rewrite O in Pl. destruct (Z.leb_spec 48 (zlen input)); [|discriminate]. injection Pl as <-. lia. }
    destruct Pl2 as [L ->]. destruct (negb (_ && _)); [discriminate|]. destruct (mix_dh _ _ _ _) as [s2 [e|]]; [discriminate|].
    destruct (decrypt_and_hash X s2 0 (skipn 32 input)) as [s3 [p'|]] eqn:D; [|discriminate]. injection E as _ E _. subst p'.
    apply dec_hash_len in D. rewrite zlen_skipn in D by lia. lia.
Qed.

Definition in_turn (sn : xsess) (h : hs) : bool := Bool.eqb (s_init sn) (h_step h mod 2 =? 1) && (h_step h <? 3).
Lemma read_shape v sn hh input sn' code out outlen :
  s_st sn = Handshake hh -> steps_ok (Handshake hh) -> (4 <=? h_step hh) = false -> in_turn sn hh = true -> payload_len (Handshake hh) (zlen input) = Some outlen ->
  session_read X v sn input = (sn', code, out) ->
  s_pinfo sn' = match found_peer X (s_init sn) v hh outlen input with Some q => p_info q | None => s_pinfo sn end
  /\ ((code = RSuccess /\ exists e, out = Some e /\ zlen (em_msg e) = outlen /\ is_transport (s_st sn') = (h_step hh =? 2))
      \/ (code <> RSuccess /\ out = None /\ is_transport (s_st sn') = false)).
Proof.
  intros E Sp L4 T Pl R. unfold session_read in R. rewrite E, L4 in R. unfold in_turn in T. rewrite T, Pl in R.
  unfold state_handshake_read in R. destruct (read_msg X (s_init sn) v hh outlen input) as [h' [e|[p peer]]] eqn:RM.
  - injection R as <- <- <-. split; [reflexivity|]. right. split; [discriminate|]. split; reflexivity.
  - pose proof (read_found _ _ _ _ _ _ _ _ _ RM) as F. pose proof (read_payload _ _ _ _ _ _ _ _ RM Pl Sp) as Lp. rewrite <- F.
    destruct peer as [q|]; injection R as <- <- <-; (split; [reflexivity|]); left; (split; [reflexivity|]); eexists;
      (split; [reflexivity|]); (split; [exact Lp|]); cbn [s_st]; destruct (h_step hh =? 2); try reflexivity; apply split_is_transport.
Qed.
End Laws.

Lemma sized_nil o : sized o [] -> o = None.
Proof. intros [_ H]. apply H. reflexivity. Qed.
Definition fresh_peer (sn : xsess) : Prop :=
  s_init sn = false -> match s_st sn with Handshake h => h_step h <= 2 -> s_pinfo sn = [] | Transport _ => True end.
Lemma turn_steps sn hh : steps_ok (Handshake hh) -> in_turn sn hh = true -> s_init sn = false -> h_step hh = 0 \/ h_step hh = 2.
Proof.
  intros Sp T I. unfold in_turn in T. rewrite I in T. apply andb_true_iff in T. destruct T as [T L]. apply Z.ltb_lt in L. cbn in Sp.
  destruct Sp as [Sp|Sp]; [|lia]. destruct (Z.eq_dec (h_step hh) 1) as [E|]; [rewrite E in T; discriminate|lia].
Qed.
Lemma turn_expects sn hh len outlen : s_st sn = Handshake hh -> steps_ok (Handshake hh) -> in_turn sn hh = true -> s_init sn = false ->
  payload_len (Handshake hh) len = Some outlen -> expects sn len.
Proof.
  intros E Sp T I P. split; [exact I|]. exists hh. split; [exact E|]. unfold payload_len in P.
  destruct (turn_steps _ _ Sp T I) as [Z|Z]; rewrite Z in P; cbn [Z.eqb Pos.eqb orb] in P; [left|right]; (split; [exact Z|]);
    [destruct (Z.leb_spec 48 len)|destruct (Z.leb_spec 64 len)]; try discriminate; assumption.
Qed.
Lemma found_third X sn v hh outlen input : in_turn sn hh = true -> s_init sn = false -> h_step hh = 2 ->
  found_peer X (s_init sn) v hh outlen input = match third_key X hh outlen input with Some rs => lookup_peer_by_static v rs | None => None end.
Proof.
  intros T I E. unfold found_peer, third_key. rewrite I, E. cbn [Z.leb Z.compare Pos.compare Pos.compare_cont Z.modulo Z.eqb negb andb Bool.eqb].
  change (2 mod 2 =? 1) with false. cbn [Bool.eqb negb]. destruct (negb _); [reflexivity|].
  destruct (decrypt_and_hash X hh 1 (firstn 48 input)) as [s1 [rs|]]; reflexivity.
Qed.
Lemma found_other X sn v hh outlen input : in_turn sn hh = true -> (s_init sn = true \/ h_step hh = 0) ->
  found_peer X (s_init sn) v hh outlen input = None.
Proof.
  intros T O. unfold found_peer. destruct (3 <=? h_step hh); [reflexivity|].
  destruct (negb (Bool.eqb (s_init sn) (h_step hh mod 2 =? 1))); [reflexivity|].
  assert (E : negb (s_init sn) && negb (h_step hh =? 0) = false).
  { destruct O as [ -> | -> ]; [reflexivity|]. cbn. apply andb_false_r. }
  rewrite E. reflexivity.
Qed.

Definition encb (em : nat * option nat) : list blk := (fst em, Wencap) :: optb Wpayload (snd em).
Definition read_post (s : hsess) (info : bytes) (sn' : xsess) (out : option encap) (R : list blk) (r : hsess * option (nat * option nat)) (h' : heap) : Prop :=
  smatch (fst r) info sn' /\ hs_dev (fst r) = hs_dev s
  /\ match snd r, out with
     | Some em, Some e => owns h' (encb em ++ sess_mem (fst r) ++ R) /\ sized (snd em) (em_msg e)
     | None, None => owns h' (sess_mem (fst r) ++ R)
     | _, _ => False
     end.

Section ReadLaws.
Variable X : xprims.
Hypothesis HX : xprims_ok X.
Lemma handshake_read_ok s info sn hh d v input outlen sn' h R :
  smatch s info sn -> s_st sn = Handshake hh -> steps_ok (Handshake hh) -> fresh_peer sn -> in_turn sn hh = true ->
  (s_init sn = false -> dmatch d v /\ hs_dev s = hd_dev d /\ forall b, In b (dev_mem d) -> In b R) ->
  s_pinfo sn' = match found_peer X (s_init sn) v hh outlen input with Some q => p_info q | None => s_pinfo sn end ->
  owns h (sess_mem s ++ R) ->
  wp (mem_handshake_read s d (s_init sn) (negb (h_step hh =? 0)) (third_key X hh outlen input) sn sn') h
    (fun s' h' => owns h' (sess_mem s' ++ R) /\ smatch s' info sn' /\ hs_dev s' = hs_dev s).
Proof.
  intros (T & P & S) E Sp Fr Tu Dv PI O. unfold mem_handshake_read. step1. step1. apply wp_bind.
  assert (HH : exists k ck hh epriv epub rs re, hs_state s = HHand k ck hh epriv epub rs re).
  { rewrite E in S. destruct (hs_state s); [repeat eexists|destruct S]. }
  eapply wp_mono with (Q := fun s1 h1 => owns h1 ((a, Wpid) :: sess_mem s1 ++ R) /\ sized (hs_text s1) info /\ sized (hs_ptext s1) (s_pinfo sn')
     /\ hs_dev s1 = hs_dev s /\ exists k ck hh epriv epub rs re, hs_state s1 = HHand k ck hh epriv epub rs re).
  { destruct (s_init sn) eqn:I.
    - rewrite <- I in PI. rewrite (found_other X sn v hh outlen input Tu) in PI by (left; exact I). apply wp_ret. rewrite PI. auto.
    - destruct (Dv eq_refl) as (DM & DE & Sub). destruct DM as (Pe & PS & DT & DP).
      apply wp_bind. eapply wp_touch; [exact O| |].
      { right. apply in_or_app. right. apply Sub. rewrite DE. unfold dev_mem. cbn [In]. auto. }
      assert (Pn : s_pinfo sn = []). { unfold fresh_peer in Fr. rewrite E in Fr. apply (Fr I). destruct (turn_steps _ _ Sp Tu I) as [Z|Z]; lia. }
      destruct (turn_steps _ _ Sp Tu I) as [Z|Z].
      + rewrite Z. cbn [Z.eqb negb]. apply wp_ret. rewrite <- I in PI. rewrite (found_other X sn v hh outlen input Tu) in PI by (right; exact Z). rewrite PI. auto.
      + rewrite Z. cbn [Z.eqb Pos.eqb negb]. rewrite <- I in PI. rewrite (found_third X sn v hh outlen input Tu I Z) in PI.
        destruct (third_key X hh outlen input) as [rs|]; [|apply wp_ret; rewrite PI; auto].
        apply wp_bind. eapply wp_touch; [exact O| |]. { right. apply in_or_app. right. apply Sub. unfold dev_mem. cbn [In]. auto 10. }
        assert (Sub2 : forall b, In b (flat_map pblk (hd_peers d)) -> In b ((a, Wpid) :: sess_mem s ++ R)).
        { intros b J. right. apply in_or_app. right. apply Sub. pose proof (dev_mem_peers d [] b J) as K. rewrite app_nil_r in K. exact K. }
        apply wp_bind. eapply find_ok; [exact O|exact Sub2|].
        unfold lookup_peer_by_static in PI. rewrite <- Pe in PI. intros [p|] F.
        * destruct F as [Ip F]. rewrite F in PI.
          assert (J : forall b, In b (pblk p) -> In b ((a, Wpid) :: sess_mem s ++ R)) by (intros b H; apply Sub2; eapply peer_in; eassumption).
          apply wp_bind. eapply wp_touch; [exact O|apply J; right; left; reflexivity|].
          apply wp_bind. eapply wp_touch; [exact O|apply J; right; right; left; reflexivity|].
          step1. step1. apply wp_ret. rewrite Pn in P. apply sized_nil in P.
          split; [|split; [exact T|split; [rewrite PI; exact Z0|split; [reflexivity|exact HH]]]].
          eapply owns_perm; [|exact O]. unfold sess_mem. cbn [with_ptext hs_sn hs_spriv hs_spub hs_info hs_text hs_pinfo hs_ptext hs_state].
          rewrite P. cbn [optb]. perm.
        * rewrite F in PI. apply wp_ret. rewrite PI. auto. }
  clear O. intros s1 h1 (O & T1 & P1 & D1 & H1). cbv beta. apply wp_bind.
  destruct (is_transport (s_st sn')) eqn:TR.
  - eapply wp_mono. { apply (split_mem_ok s1 (s_init sn) _ ((a, Wpid) :: R)); [eapply owns_perm; [|exact O]; perm|exact H1]. }
    clear O. intros s2 h2 (O & F & PT & x1 & x2 & x3 & S'). cbv beta. apply wp_bind. eapply wp_release with (w := Wpid) (l' := sess_mem s2 ++ R); [exact O|perm|discriminate|].
    clear O. intros h3 O. apply wp_ret. destruct F as (_ & _ & _ & _ & FT & _ & FD). split; [exact O|]. split; [|congruence].
    unfold smatch. rewrite FT, PT, S'. destruct (s_st sn'); [discriminate|]. auto.
  - apply wp_ret. apply wp_bind. eapply wp_release with (w := Wpid) (l' := sess_mem s1 ++ R); [exact O|perm|discriminate|].
    clear O. intros h3 O. apply wp_ret. split; [exact O|]. split; [|exact D1].
    unfold smatch. destruct H1 as (k & ck & hx & e1 & e2 & rs & re & H1). rewrite H1. destruct (s_st sn'); [|discriminate]. auto.
Qed.

Lemma read_ok s info sn d v input sn' code out h R :
  smatch s info sn -> steps_ok (s_st sn) -> fresh_peer sn ->
  (expects sn (zlen input) -> dmatch d v /\ hs_dev s = hd_dev d /\ forall b, In b (dev_mem d) -> In b R) ->
  session_read X v sn input = (sn', code, out) -> owns h (sess_mem s ++ R) ->
  wp (mem_session_read X s d sn sn' code input) h (read_post s info sn' out R).
Proof.
  intros SM Sp Fr Dv SR O. unfold mem_session_read. apply wp_bind. eapply wp_touch; [exact O|apply in_or_app; left; left; reflexivity|].
  assert (Noop : forall c, session_read X v sn input = (sn, c, None) -> wp (ret (s, None)) h (read_post s info sn' out R)).
  { intros c N. rewrite N in SR. injection SR as <- _ <-. apply wp_ret. split; [exact SM|]. split; [reflexivity|exact O]. }
  assert (SR0 := SR). unfold session_read in SR.
  destruct (s_st sn) as [hh|t] eqn:E.
  - destruct (4 <=? h_step hh) eqn:L4; [eapply Noop; unfold session_read; rewrite E, L4; reflexivity|].
    fold (in_turn sn hh) in SR |- *. destruct (in_turn sn hh) eqn:Tu;
      [|unfold in_turn in Tu; eapply Noop; unfold session_read; rewrite E, L4, Tu; reflexivity].
    destruct (payload_len (Handshake hh) (zlen input)) as [outlen|] eqn:Pl;
      [|unfold in_turn in Tu; eapply Noop; unfold session_read; rewrite E, L4, Tu, Pl; reflexivity].
    clear SR Noop. destruct (read_shape X HX v sn hh input sn' code out outlen E Sp L4 Tu Pl SR0) as (PI & Res).
    cbv zeta. apply wp_bind.
    eapply wp_mono with (Q := fun o h1 => owns h1 (optb Wpayload o ++ sess_mem s ++ R) /\ (o = None <-> (0 <? outlen) = false)).
    { destruct (0 <? outlen); [step1; step1; apply wp_ret; split; [exact O|split; discriminate]|apply wp_ret; split; [exact O|tauto]]. }
    clear O. intros o h1 (O & Z). cbv beta. apply wp_bind.
    eapply wp_mono. { apply (handshake_read_ok s info sn hh d v input outlen sn' h1 (optb Wpayload o ++ R) SM E Sp Fr Tu); [|exact PI|].
      - intros I. destruct (Dv (turn_expects _ _ _ _ E Sp Tu I Pl)) as (A & B & C). repeat split; try apply A; auto. intros b J. apply in_or_app. right. auto.
      - eapply owns_perm; [|exact O]; perm. }
    clear O. intros s' h2 (O & SM' & D'). cbv beta.
    destruct Res as [(-> & e & -> & Lp & _)|(NS & -> & _)].
    + step1. step1. apply wp_ret. unfold read_post. cbn [fst snd]. split; [exact SM'|]. split; [exact D'|].
      split; [eapply owns_perm; [|exact O]; unfold encb; cbn [fst snd]; perm|]. unfold sized. rewrite Z. rewrite <- Lp, zlen_pos.
      destruct (em_msg e); split; congruence.
    + destruct code; try contradiction (NS eq_refl); apply wp_bind;
        (eapply wp_free_opt with (w := Wpayload) (l' := sess_mem s' ++ R); [exact O|perm|]); clear O; intros h3 O; apply wp_ret;
        unfold read_post; cbn [fst snd]; auto.
  - assert (Noop2 : forall (P : Prop), P -> P) by auto. cbv zeta in *.
    destruct (payload_len (Transport t) (zlen input)) as [outlen|] eqn:Pl; [|eapply Noop; unfold session_read; rewrite E, Pl; reflexivity].
    apply wp_bind.
    eapply wp_mono with (Q := fun o h1 => owns h1 (optb Wpayload o ++ sess_mem s ++ R) /\ (o = None <-> (0 <? outlen) = false)).
    { destruct (0 <? outlen); [step1; step1; apply wp_ret; split; [exact O|split; discriminate]|apply wp_ret; split; [exact O|tauto]]. }
    clear O. intros o h1 (O & Z). cbv beta. apply wp_bind. apply wp_ret. unfold payload_len in Pl. destruct (Z.leb_spec 16 (zlen input)) as [L16|]; [|discriminate]. injection Pl as <-.
    destruct (state_transport_read X t (zlen input - 16) input) as [t' [e|p]] eqn:TR; injection SR as <- <- <-.
    + apply wp_bind. eapply wp_free_opt with (w := Wpayload) (l' := sess_mem s ++ R); [exact O|perm|]. clear O. intros h3 O. apply wp_ret.
      unfold read_post; cbn [fst snd]; auto.
    + step1. step1. apply wp_ret. unfold read_post. cbn [fst snd em_msg]. split.
      { destruct SM as (A & B & C). unfold smatch. cbn [with_st s_pinfo s_st]. rewrite E in C. destruct (hs_state s); auto. }
      split; [reflexivity|]. split; [eapply owns_perm; [|exact O]; unfold encb; cbn [fst snd]; perm|].
      assert (Lp : zlen p = zlen input - 16).
      { unfold state_transport_read in TR. repeat match type of TR with context [if ?b then _ else _] => destruct b; [discriminate|] end.
        destruct (aead_decrypt _ _ _ _ _) as [q|] eqn:AD; [|discriminate]. assert (q = p) by congruence. subst q.
        apply (aead_len X HX) in AD. lia. }
      unfold sized. rewrite Z. rewrite <- Lp, zlen_pos. destruct p; split; congruence.
Qed.
End ReadLaws.

(** ** getters and messages *)
Lemma session_info_ok s info h R : owns h (sess_mem s ++ R) -> wp (mem_session_get_info s info) h (fun o h' => owns h' (optb Wtext o ++ sess_mem s ++ R)).
Proof.
  intros O. unfold mem_session_get_info. apply wp_bind. eapply wp_touch; [exact O|left; reflexivity|].
  apply wp_bind. eapply wp_touch; [exact O|do 3 right; left; reflexivity|]. step1. exact O.
Qed.
Lemma session_peer_info_ok s sn h R : owns h (sess_mem s ++ R) ->
  wp (mem_session_get_peer_info s sn) h (fun o h' => owns h' (optb Wtext o ++ sess_mem s ++ R)).
Proof.
  intros O. unfold mem_session_get_peer_info. apply wp_bind. eapply wp_touch; [exact O|left; reflexivity|].
  destruct (session_get_peer_info sn); [|apply wp_ret; exact O].
  apply wp_bind. eapply wp_touch; [exact O|do 4 right; left; reflexivity|]. step1. exact O.
Qed.
Lemma pack_ok msg h R : owns h R -> wp (mem_pack msg) h (fun em h' => owns h' (encb em ++ R) /\ sized (snd em) msg).
Proof. intros O. unfold mem_pack. steps. split; [|exact Z]. eapply owns_perm; [|exact O]. unfold encb. cbn [fst snd]. perm. Qed.
Lemma unpack_ok em out h R : owns h (encb em ++ R) -> wp (mem_unpack em out) h (fun o h' => owns h' (optb Wout o ++ encb em ++ R)).
Proof.
  intros O. unfold mem_unpack. apply wp_bind. eapply wp_touch; [exact O|left; reflexivity|].
  destruct out as [msg|]; [|apply wp_ret; exact O]. apply wp_bind.
  eapply wp_mono with (Q := fun _ h' => h' = h).
  { unfold encb in O. destruct (snd em) as [a|]; [|reflexivity]. eapply wp_touch; [exact O|right; left; reflexivity|reflexivity]. }
  intros u h' ->. cbv beta. step1. exact O.
Qed.
Lemma encap_free_ok em h R : owns h (encb em ++ R) -> wp (mem_encap_free em) h (fun _ h' => owns h' R).
Proof.
  intros O. unfold mem_encap_free, encb in *. apply wp_bind. eapply wp_touch; [exact O|left; reflexivity|].
  apply wp_bind. eapply wp_free_opt with (w := Wpayload) (l' := (fst em, Wencap) :: R); [exact O|perm|]. clear O. intros h' O.
  eapply wp_release with (w := Wencap) (l' := R); [exact O|perm|discriminate|auto].
Qed.
Lemma free_buf_ok a w h R : owns h ((a, w) :: R) -> wp (free a) h (fun _ h' => owns h' R).
Proof. intros O. eapply wp_release with (w := w) (l' := R); [exact O|perm|discriminate|auto]. Qed.

(** ** a call that uses a device after it was freed *)
Definition deadp (a : nat) (h : heap) : Prop := (a < next h)%nat /\ ~ In a (map fst (live h)).
Lemma stuck_bind {A B} (m : M A) (k : A -> M B) h : (forall a h', m h = Some (a, h') -> k a h' = None) -> bindM m k h = None.
Proof. intros K. unfold bindM. destruct (m h) as [[a h']|] eqn:E; [|reflexivity]. apply K. reflexivity. Qed.
Lemma touch_stuck a h : ~ In a (map fst (live h)) -> touch a h = None.
Proof.
  intros N. unfold touch. destruct (find_block a (live h)) eqn:F; [|reflexivity]. exfalso. apply N. unfold find_block in F.
  destruct (find _ (live h)) as [b|] eqn:G; [|discriminate]. apply find_some in G. destruct G as [I E]. apply Nat.eqb_eq in E. subst.
  apply in_map. exact I.
Qed.
Lemma dead_alloc a w h b h' : deadp a h -> alloc w h = Some (b, h') -> deadp a h'.
Proof.
  intros [A N] E. unfold alloc in E. assert (E1 : next h' = S (next h) /\ live h' = (next h, w) :: live h) by (injection E as <- <-; split; reflexivity).
  destruct E1 as [E1 E2]. unfold deadp. rewrite E1, E2. split; [lia|]. cbn [map fst]. intros [I|I]; [lia|exact (N I)].
Qed.
Lemma read_stuck X s d sn sn' code input h : expects sn (zlen input) -> deadp (hs_dev s) h ->
  mem_session_read X s d sn sn' code input h = None.
Proof.
  intros (I & hh & E & St) Dd. unfold mem_session_read. apply stuck_bind. intros u h1 T.
  assert (h1 = h). { unfold touch in T. destruct (find_block (hs_sn s) (live h)); congruence. } subst h1. clear T.
  rewrite E. assert (L4 : (4 <=? h_step hh) = false) by (apply Z.leb_gt; lia). rewrite L4.
  assert (Tu : Bool.eqb (s_init sn) (h_step hh mod 2 =? 1) && (h_step hh <? 3) = true) by (rewrite I; destruct St as [[ -> _]|[ -> _]]; reflexivity).
  rewrite Tu. assert (Pl : exists o, payload_len (Handshake hh) (zlen input) = Some o).
  { unfold payload_len. destruct St as [[ -> L]|[ -> L]]; cbn [Z.eqb Pos.eqb orb]; apply Z.leb_le in L; rewrite L; eexists; reflexivity. }
  destruct Pl as [o ->]. apply stuck_bind. intros out h1 A1.
  assert (Dd1 : deadp (hs_dev s) h1).
  { destruct (0 <? o).
    - unfold bindM in A1. destruct (alloc Wpayload h) as [[b hb]|] eqn:Al; [|discriminate]. unfold ret in A1. assert (hb = h1) by congruence. subst. eapply dead_alloc; eassumption.
    - unfold ret in A1. assert (h = h1) by congruence. subst. exact Dd. }
  apply stuck_bind. intros s1 h2 A2. exfalso. unfold mem_handshake_read in A2. rewrite I in A2.
  assert (N : mem_handshake_read s d false (negb (h_step hh =? 0)) (third_key X hh o input) sn sn' h1 = None).
  { unfold mem_handshake_read. apply stuck_bind. intros b hb Al. pose proof (dead_alloc _ _ _ _ _ Dd1 Al) as Db.
    apply stuck_bind. intros s2 hc T. exfalso. unfold bindM at 1 in T. rewrite (touch_stuck _ _ (proj2 Db)) in T. discriminate. }
  unfold mem_handshake_read in N. rewrite N in A2. discriminate.
Qed.
End Heap.

(** ** the world *)
Lemma nth_perm {A} n (l : list A) (e : A) : nth_error l n = Some e -> Permutation l (e :: del_nth n l).
Proof.
  revert n. induction l as [|x l IH]; intros [|n] E; try discriminate; cbn [nth_error del_nth] in *.
  - injection E as ->. reflexivity.
  - etransitivity; [apply perm_skip, (IH _ E)|]. apply perm_swap.
Qed.
Lemma set_perm {A} n (l : list A) (e e' : A) : nth_error l n = Some e -> Permutation (set_nth n e' l) (e' :: del_nth n l).
Proof.
  revert n. induction l as [|x l IH]; intros [|n] E; try discriminate; cbn [nth_error del_nth set_nth] in *; [reflexivity|].
  etransitivity; [apply perm_skip, (IH _ E)|]. apply perm_swap.
Qed.
Lemma nth_flat {A B} (f : A -> list B) n l e : nth_error l n = Some e -> Permutation (flat_map f l) (f e ++ flat_map f (del_nth n l)).
Proof. intros E. change (f e ++ flat_map f (del_nth n l)) with (flat_map f (e :: del_nth n l)). apply Permutation_flat_map, nth_perm. exact E. Qed.
Lemma set_flat {A B} (f : A -> list B) n l e e' : nth_error l n = Some e -> Permutation (flat_map f (set_nth n e' l)) (f e' ++ flat_map f (del_nth n l)).
Proof. intros E. change (f e' ++ flat_map f (del_nth n l)) with (flat_map f (e' :: del_nth n l)). apply Permutation_flat_map. eapply set_perm. exact E. Qed.
Lemma nth_set {A} n m (l : list A) e e' : nth_error l n = Some e -> nth_error (set_nth n e' l) m = if Nat.eqb m n then Some e' else nth_error l m.
Proof.
  revert n m. induction l as [|x l IH]; intros [|n] [|m] E; try discriminate; cbn [nth_error set_nth Nat.eqb] in *; try reflexivity. apply IH. exact E.
Qed.
Lemma forall_set {A} (P : A -> Prop) n l e : Forall P l -> P e -> Forall P (set_nth n e l).
Proof. intros F Pe. revert n. induction F as [|x l Px F IH]; intros [|n]; cbn [set_nth]; constructor; auto. Qed.
Lemma forall_del {A} (P : A -> Prop) n l : Forall P l -> Forall P (del_nth n l).
Proof. intros F. revert n. induction F as [|x l Px F IH]; intros [|n]; cbn [del_nth]; try constructor; auto. Qed.
Lemma map_set {A B} (f : A -> B) n l e e' : nth_error l n = Some e -> f e' = f e -> map f (set_nth n e' l) = map f l.
Proof.
  revert n. induction l as [|x l IH]; intros [|n] E F; try discriminate; cbn [nth_error set_nth map] in *.
  - injection E as ->. rewrite F. reflexivity.
  - f_equal. apply IH; assumption.
Qed.

Definition dblk (e : dentry) : list blk := if de_open e then dev_mem (de_mem e) else lost_mem (de_mem e).
Definition sblk (e : sentry) : list blk := if se_open e then sess_mem (se_mem e) else [].
Definition ublk (o : uobj) : list blk := match o with UBuf a w => [(a, w)] | UMsg em _ => encb em end.
Definition gone (l : list dentry) : list (nat * bool) := map (fun x => (fst x, true)) (filter (fun x => negb (snd x)) (map (fun e => (hd_dev (de_mem e), de_open e)) l)).
Definition sgood (devs : list dentry) (e : sentry) : Prop :=
  smatch (se_mem e) (se_info e) (se_val e) /\ steps_ok (s_st (se_val e)) /\ fresh_peer (se_val e)
  /\ exists de, nth_error devs (se_dev e) = Some de /\ hs_dev (se_mem e) = hd_dev (de_mem de).
Definition ugood (o : uobj) : Prop := match o with UBuf _ _ => True | UMsg em e => sized (snd em) (em_msg e) end.
Definition Inv (w : world) : Prop :=
  owns (gone (w_devs w)) (w_heap w) (flat_map dblk (w_devs w) ++ flat_map sblk (w_sess w) ++ flat_map ublk (w_user w))
  /\ Forall (fun e => dmatch (de_mem e) (de_val e)) (w_devs w) /\ Forall (sgood (w_devs w)) (w_sess w) /\ Forall ugood (w_user w).
Lemma inv_start : Inv start.
Proof. split; [|repeat split; constructor]. cbn. repeat split; constructor. Qed.

Lemma exec_ok {A} w (m : M A) k Q (P : world -> Prop) : wp m (w_heap w) Q -> (forall a h, Q a h -> P (k a h)) -> exists w', exec w m k = Some w' /\ P w'.
Proof. unfold wp, exec. destruct (m (w_heap w)) as [[a h]|]; [|intros []]. intros H K. eexists. split; [reflexivity|]. apply K. exact H. Qed.

Lemma buf_blk w o : flat_map ublk (buf w o) = optb w o.
Proof. destruct o; reflexivity. Qed.
Lemma buf_good w o : Forall ugood (buf w o).
Proof. destruct o; repeat constructor. Qed.
(** replacing a device by one at the same address *)
Lemma gone_set d e e' l : nth_error l d = Some e -> de_open e' = de_open e -> hd_dev (de_mem e') = hd_dev (de_mem e) -> gone (set_nth d e' l) = gone l.
Proof. intros E A B. unfold gone. rewrite (map_set _ _ _ _ _ E); [reflexivity|]. rewrite A, B. reflexivity. Qed.
Lemma sgood_set d e e' l s : nth_error l d = Some e -> hd_dev (de_mem e') = hd_dev (de_mem e) -> sgood l s -> sgood (set_nth d e' l) s.
Proof.
  intros E A (S1 & S2 & S3 & de & N & H). split; [exact S1|]. split; [exact S2|]. split; [exact S3|].
  rewrite (nth_set _ _ _ _ e' E). destruct (Nat.eqb_spec (se_dev s) d) as [Q|Q]; [|eauto].
  exists e'. split; [reflexivity|]. rewrite H, A. rewrite Q, E in N. injection N as ->. reflexivity.
Qed.
Lemma sgood_app l l' s : sgood l s -> sgood (l ++ l') s.
Proof.
  intros (S1 & S2 & S3 & de & N & H). repeat (split; [assumption|]). exists de. split; [|exact H].
  rewrite nth_error_app1; [exact N|]. apply nth_error_Some. congruence.
Qed.
Lemma gone_open l e : de_open e = true -> gone (l ++ [e]) = gone l.
Proof. intros E. unfold gone. rewrite map_app, filter_app. cbn [map filter snd]. rewrite E. cbn [negb]. rewrite app_nil_r. reflexivity. Qed.

(** a call on an open device *)
Lemma dev_view w d : Inv w -> dev_open w d -> exists e, nth_error (w_devs w) d = Some e /\ de_open e = true /\ dmatch (de_mem e) (de_val e)
  /\ owns (gone (w_devs w)) (w_heap w) (dev_mem (de_mem e) ++ flat_map dblk (del_nth d (w_devs w)) ++ flat_map sblk (w_sess w) ++ flat_map ublk (w_user w)).
Proof.
  intros (O & DM & _) (e & N & Op). exists e. split; [exact N|]. split; [exact Op|]. split.
  - rewrite Forall_forall in DM. apply DM. eapply nth_error_In. exact N.
  - eapply owns_perm; [|exact O]. rewrite (nth_flat dblk _ _ _ N). unfold dblk at 1. rewrite Op. rewrite <- app_assoc. reflexivity.
Qed.
Lemma dev_update w d e e' h : Inv w -> nth_error (w_devs w) d = Some e -> de_open e = true -> de_open e' = true -> hd_dev (de_mem e') = hd_dev (de_mem e) ->
  dmatch (de_mem e') (de_val e') ->
  owns (gone (w_devs w)) h (dev_mem (de_mem e') ++ flat_map dblk (del_nth d (w_devs w)) ++ flat_map sblk (w_sess w) ++ flat_map ublk (w_user w)) ->
  Inv (put_dev w d e' h).
Proof.
  intros (O & DM & SG & UG) N Op Op' HD D' O'. unfold put_dev. split; [|split; [|split]]; cbn [w_devs w_heap w_sess w_user].
  - rewrite (gone_set _ _ _ _ N) by congruence. eapply owns_perm; [|exact O']. rewrite (set_flat dblk _ _ _ e' N). unfold dblk at 2. rewrite Op'.
    rewrite <- app_assoc. reflexivity.
  - apply forall_set; assumption.
  - eapply Forall_impl; [|exact SG]. intros s S. eapply sgood_set; eassumption.
  - exact UG.
Qed.
Lemma give_ok w u h B : Inv w -> flat_map ublk u = B -> Forall ugood u ->
  owns (gone (w_devs w)) h (B ++ flat_map dblk (w_devs w) ++ flat_map sblk (w_sess w) ++ flat_map ublk (w_user w)) -> Inv (give w u h).
Proof.
  intros (O & DM & SG & UG) EB G O'. unfold give. split; [|split; [|split]]; cbn [w_devs w_heap w_sess w_user]; try assumption.
  - rewrite flat_map_app, EB. eapply owns_perm; [|exact O']. perm.
  - apply Forall_app. auto.
Qed.
Lemma sess_view w s : Inv w -> sess_open w s -> exists e, nth_error (w_sess w) s = Some e /\ se_open e = true /\ sgood (w_devs w) e
  /\ owns (gone (w_devs w)) (w_heap w) (sess_mem (se_mem e) ++ flat_map dblk (w_devs w) ++ flat_map sblk (del_nth s (w_sess w)) ++ flat_map ublk (w_user w)).
Proof.
  intros (O & _ & SG & _) (e & N & Op). exists e. split; [exact N|]. split; [exact Op|]. split.
  - rewrite Forall_forall in SG. apply SG. eapply nth_error_In. exact N.
  - eapply owns_perm; [|exact O]. pose proof (nth_flat sblk _ _ _ N) as P. unfold sblk at 2 in P. rewrite Op in P. perm.
Qed.
Lemma sess_update w s e e' u h B : Inv w -> nth_error (w_sess w) s = Some e -> sgood (w_devs w) e' -> flat_map ublk u = B -> Forall ugood u ->
  owns (gone (w_devs w)) h (B ++ sblk e' ++ flat_map dblk (w_devs w) ++ flat_map sblk (del_nth s (w_sess w)) ++ flat_map ublk (w_user w)) ->
  Inv (put_sess w s e' u h).
Proof.
  intros (O & DM & SG & UG) N S' EB G O'. unfold put_sess. split; [|split; [|split]]; cbn [w_devs w_heap w_sess w_user]; try assumption.
  - eapply owns_perm; [|exact O']. rewrite flat_map_app, EB. pose proof (set_flat sblk _ _ _ e' N) as P. perm.
  - apply forall_set; assumption.
  - apply Forall_app. auto.
Qed.
Lemma add_session w d e d' s info hsn h : Inv w -> nth_error (w_devs w) d = Some e -> de_open e = true -> dmatch (de_mem e) d' ->
  smatch hsn info s -> hs_dev hsn = hd_dev (de_mem e) -> steps_ok (s_st s) -> fresh_peer s ->
  owns (gone (w_devs w)) h (sess_mem hsn ++ dev_mem (de_mem e) ++ flat_map dblk (del_nth d (w_devs w)) ++ flat_map sblk (w_sess w) ++ flat_map ublk (w_user w)) ->
  Inv (mkWorld h (set_nth d (mkDe d' (de_mem e) (de_open e)) (w_devs w)) (w_sess w ++ [mkSe s info hsn d true]) (w_user w)).
Proof.
  intros (O & DM & SG & UG) N Op D' SM HD SO FP O'. split; [|split; [|split]]; cbn [w_devs w_heap w_sess w_user].
  - rewrite (gone_set _ _ _ _ N) by reflexivity. eapply owns_perm; [|exact O'].
    pose proof (set_flat dblk _ _ _ (mkDe d' (de_mem e) (de_open e)) N) as P. unfold dblk at 2 in P. cbn [de_open de_mem] in P. rewrite Op in P at 2.
    rewrite flat_map_app. cbn [flat_map sblk se_open se_mem]. perm.
  - apply forall_set; assumption.
  - apply Forall_app. split.
    + eapply Forall_impl; [|exact SG]. intros x S. eapply sgood_set; [exact N|reflexivity|exact S].
    + constructor; [|constructor]. split; [exact SM|]. split; [exact SO|]. split; [exact FP|]. cbn [se_dev se_mem].
      rewrite (nth_set _ _ _ _ _ N), Nat.eqb_refl. eexists. split; [reflexivity|exact HD].
  - exact UG.
Qed.
