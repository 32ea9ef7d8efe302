(** Concrete cases for C84: 5 servers, threshold 3, as in the example program. *)
From Coq Require Import ZArith Lia List Bool.
From Coq.Strings Require Import Byte.
From Verif Require Import PrimeL Fq Bytes Res Mem Sodium OprfModel OprfSpec OprfProofs ToprfModel ToprfSpec PyModel PyTdhModel PyTdhSpec PyTdh UseExamples.
Import ListNotations.
Open Scope list_scope.
Open Scope Z_scope.

Definition td_a : list Z := [7; 11].
Definition td_z : list Z := [13; 17].
Definition td_al : Z -> bool := fun _ => true.

Lemma td_facts :
  let P := rsmul toyR 77 (HashToGroup toyR toyH ex_pwd) in
  let h := mask toyR toyH (zeros 32) (renc toyR P) in
  h <> rzero toyR /\
  (forall i, 1 <= i <= 5 -> poly (5 :: td_a) i mod L <> 0 /\ poly (0 :: td_z) i mod L <> 0) /\
  (forall i, 1 <= i <= 3 -> radd toyR (rsmul toyR (poly (5 :: td_a) i mod L) P) (rsmul toyR (poly (0 :: td_z) i mod L) h) <> rzero toyR).
Proof.
  cbv zeta. split; [|split].
  - intros E. apply (f_equal (renc toyR)) in E. revert E. vm_compute. discriminate.
  - intros i Hi. assert (C : i = 1 \/ i = 2 \/ i = 3 \/ i = 4 \/ i = 5) by lia. destruct C as [ -> |[ -> |[ -> |[ -> | -> ]]]]; vm_compute; split; discriminate.
  - intros i Hi E. apply (f_equal (renc toyR)) in E. revert E. assert (C : i = 1 \/ i = 2 \/ i = 3) by lia. destruct C as [ -> |[ -> | -> ]]; vm_compute; discriminate.
Qed.

Lemma C84_returns_example : exists R H al k a z r x ssid n t (junk : list Z), ristretto_ok R /\ hashes_ok H /\ (forall m : Z, al m = true) /\
  random_scalar k /\ random_scalar r /\ zlen a = t - 1 /\ zlen z = t - 1 /\ 2 <= t <= n /\ n <= 254 /\ zlen junk = t /\ zlen x <= 255 /\ HashToGroup R H x <> rzero R /\
  let P := rsmul R r (HashToGroup R H x) in
  let h := mask R H ssid (renc R P) in
  h <> rzero R /\
  (forall i, 1 <= i <= n -> poly (k :: a) i mod L <> 0 /\ poly (0 :: z) i mod L <> 0) /\
  (forall i, 1 <= i <= t -> radd R (rsmul R (poly (k :: a) i mod L) P) (rsmul R (poly (0 :: z) i mod L) h) <> rzero R) /\ n = 5 /\ t = 3.
Proof.
  exists toyR, toyH, td_al, 5, td_a, td_z, 77, ex_pwd, (zeros 32), 5, 3, [0; 0; 0].
  split; [exact toyR_ok|]. split; [exact toyH_ok|]. split; [reflexivity|]. split; [apply small_random_scalar; lia|]. split; [apply small_random_scalar; lia|].
  split; [reflexivity|]. split; [reflexivity|]. split; [lia|]. split; [lia|]. split; [reflexivity|]. split; [vm_compute; discriminate|]. split; [exact (proj1 (proj2 input_ok))|].
  destruct td_facts as (F1 & F2 & F3). cbv zeta. split; [exact F1|]. split; [exact F2|]. split; [exact F3|]. split; reflexivity.
Qed.

Lemma C84_example : exists R H al k a z r x ssid n t junk N0 N1, ristretto_ok R /\ hashes_ok H /\
  random_scalar k /\ zlen a = t - 1 /\ zlen z = t - 1 /\ n <= 254 /\ zlen junk = t /\
  tdh_program R H al 0 0 k a z r x ssid n t junk = Ret (N0, N1) /\ n = 5 /\ t = 3 /\ N0 <> zeros 32.
Proof.
  exists toyR, toyH, td_al, 5, td_a, td_z, 77, ex_pwd, (zeros 32), 5, 3, [0; 0; 0].
  exists (renc toyR (rsmul toyR 5 (HashToGroup toyR toyH ex_pwd))), (renc toyR (rsmul toyR 5 (HashToGroup toyR toyH ex_pwd))).
  split; [exact toyR_ok|]. split; [exact toyH_ok|]. split; [apply small_random_scalar; lia|]. split; [reflexivity|]. split; [reflexivity|]. split; [lia|]. split; [reflexivity|].
  split; [|split; [reflexivity|split; [reflexivity|vm_compute; discriminate]]].
  destruct td_facts as (F1 & F2 & F3).
  apply (program_returns toyR toyH toyR_ok toyH_ok td_al 5 td_a td_z 77 ex_pwd (zeros 32) 5 3 [0; 0; 0]);
    [reflexivity|apply small_random_scalar; lia|apply small_random_scalar; lia|reflexivity|reflexivity|lia|lia|reflexivity|vm_compute; discriminate
    |exact (proj1 (proj2 input_ok))|exact F1|exact F2|exact F3].
Qed.

(** what the servers of the example get and answer *)
Definition td_begin :=
  Eval vm_compute in match tdh_begin toyR toyH td_al 0 0 5 td_a td_z 77 ex_pwd (zeros 32) 5 3 with Ret x => x | _ => ([], [], [], []) end.
Definition td_eval :=
  Eval vm_compute in match py_evaluate toyR (fst (fst (fst td_begin))) (snd (fst td_begin)) with Ret x => x | _ => [] end.
Definition td_pick : list bytes := let l := snd td_begin in [nth 4 l []; nth 0 l []; nth 3 l []; nth 1 l []].

Lemma C84_quorum_example : exists R H al k a z r x ssid n t key rb alpha betas b ps (junk : list Z), ristretto_ok R /\ hashes_ok H /\
  random_scalar k /\ zlen a = t - 1 /\ zlen z = t - 1 /\ n <= 254 /\
  tdh_begin R H al 0 0 k a z r x ssid n t = Ret (key, rb, alpha, betas) /\ py_evaluate R key alpha = Ret b /\
  NoDup ps /\ incl ps betas /\ t <= zlen ps /\ length junk = length ps /\ Forall (fun p => skipn 1 p <> zeros 32) ps /\
  map (fun p => bz (hd x00 p)) ps = [5; 1; 4; 2].
Proof.
  exists toyR, toyH, td_al, 5, td_a, td_z, 77, ex_pwd, (zeros 32), 5, 3, (fst (fst (fst td_begin))), (snd (fst (fst td_begin))), (snd (fst td_begin)), (snd td_begin), td_eval, td_pick, [0; 0; 0; 0].
  split; [exact toyR_ok|]. split; [exact toyH_ok|]. split; [apply small_random_scalar; lia|]. split; [reflexivity|]. split; [reflexivity|]. split; [lia|].
  split; [vm_compute; reflexivity|]. split; [vm_compute; reflexivity|].
  split; [|split; [|split; [|split; [|split]]]].
  - repeat constructor; vm_compute; intuition discriminate.
  - intros p Hp. unfold td_pick in Hp. cbn [In nth td_begin snd] in *. tauto.
  - vm_compute. discriminate.
  - reflexivity.
  - repeat constructor; vm_compute; discriminate.
  - vm_compute. reflexivity.
Qed.
