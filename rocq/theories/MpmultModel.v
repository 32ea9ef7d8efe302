(** Model of /repo/src/mpmult.c, function by function.
    A matrix of scalars is a function from row and column to the integer the 32 bytes denote,
    [index] a function from position to row.  All subscripts the code uses are below n: loop
    counters run over 0..n-1 and index[] is a permutation of 0..n-1 at all times
    (MpmultProofs.gaussian_index).  Loop counters that are uint8_t with bound [i<n], n <= 255,
    cannot wrap. *)
From Coq Require Import ZArith List Bool.
From Verif Require Import PrimeL Bytes Res Sodium ToprfModel.
Import ListNotations.
Open Scope list_scope.
Open Scope Z_scope.

Definition mat : Type := nat -> nat -> Z.
(** a[i][j] = v *)
Definition mset (a : mat) (i j : nat) (v : Z) : mat :=
  fun r c => if (Nat.eqb r i && Nat.eqb c j)%bool then v else a r c.

(** src/mpmult.c:17-24 cmp(a,b) > 0.  cmp compares from the most significant byte down, which
    is the order of the integers. *)
Definition cmp_gt (a b : Z) : bool := b <? a.

(** src/mpmult.c:26-32 r255div (the return code of scalar_invert is ignored) *)
Definition r255div (a b : Z) : Z := scalar_mul a (snd (scalar_invert b)).

(** src/mpmult.c:42-50: c[i], the largest element of row i *)
Definition row_max (n : nat) (a : mat) (i : nat) : Z :=
  fold_left (fun c1 j => if cmp_gt (a i j) c1 then a i j else c1) (seq 0 n) 0.

(** src/mpmult.c:54-65: search of the pivot of column j; [k] keeps its value if nothing exceeds 0 *)
Definition pivot (n : nat) (a : mat) (index : nat -> nat) (c : nat -> Z) (j k : nat) : Z * nat :=
  fold_left (fun '(pi1, k) i =>
               let pi0 := r255div (a (index i) j) (c (index i)) in
               if cmp_gt pi0 pi1 then (pi0, i) else (pi1, k))
            (seq j (n - j)) (0, k).

(** src/mpmult.c:67-70 *)
Definition swap (index : nat -> nat) (j k : nat) : nat -> nat :=
  fun p => if Nat.eqb p k then index j else if Nat.eqb p j then index k else index p.

(** src/mpmult.c:73-84: eliminate column j from the row at position i *)
Definition elim_row (n : nat) (index : nat -> nat) (j : nat) (a : mat) (i : nat) : mat :=
  let pj := r255div (a (index i) j) (a (index j) j) in
  let a := mset a (index i) j pj in
  fold_left (fun a l => mset a (index i) l
                (scalar_sub (a (index i) l) (scalar_mul pj (a (index j) l))))
            (seq (j + 1) (n - (j + 1))) a.

(** src/mpmult.c:53-86: the body of the loop over j *)
Definition gauss_step (n : nat) (c : nat -> Z) (st : mat * (nat -> nat) * nat) (j : nat)
  : mat * (nat -> nat) * nat :=
  let '(a, index, k) := st in
  let k := snd (pivot n a index c j k) in
  let index := swap index j k in
  (fold_left (elim_row n index j) (seq (j + 1) (n - (j + 1))) a, index, k).

(** src/mpmult.c:34-87 gaussian *)
Definition gaussian (n : nat) (a : mat) : mat * (nat -> nat) :=
  let c := row_max n a in
  fst (fold_left (gauss_step n c) (seq 0 (n - 1)) (a, (fun i => i), 0%nat)).

(** src/mpmult.c:92-97: the unit matrix *)
Definition unit_mat : mat := fun i j => if Nat.eqb i j then 1 else 0.

(** src/mpmult.c:102-111: forward substitution *)
Definition forward (n : nat) (a : mat) (index : nat -> nat) (b : mat) : mat :=
  fold_left (fun b i =>
    fold_left (fun b j =>
      fold_left (fun b k =>
        mset b (index j) k (scalar_sub (b (index j) k) (scalar_mul (a (index j) i) (b (index i) k))))
        (seq 0 n) b)
      (seq (i + 1) (n - (i + 1))) b)
    (seq 0 (n - 1)) b.

(** src/mpmult.c:118-128: the body of the loop over j of the back substitution, column i *)
Definition back_row (n : nat) (a : mat) (index : nat -> nat) (b : mat) (i : nat) (x : mat) (j : nat) : mat :=
  let x := mset x j i (b (index j) i) in
  let x := fold_left (fun x k =>
             mset x j i (scalar_sub (x j i) (scalar_mul (a (index j) k) (x k i))))
             (seq (j + 1) (n - (j + 1))) x in
  mset x j i (scalar_mul (x j i) (snd (scalar_invert (a (index j) j)))).

(** src/mpmult.c:113-129: column i of the result *)
Definition back_col (n : nat) (a : mat) (index : nat -> nat) (b : mat) (x : mat) (i : nat) : mat :=
  let x := mset x (n - 1) i
             (scalar_mul (b (index (n - 1)%nat) i) (snd (scalar_invert (a (index (n - 1)%nat) (n - 1)%nat)))) in
  fold_left (back_row n a index b i) (rev (seq 0 (n - 1))) x.

(** src/mpmult.c:89-130 invert; [x] is the caller's output buffer *)
Definition invert (n : nat) (a x : mat) : mat :=
  let '(a, index) := gaussian n a in
  let b := forward n a index unit_mat in
  fold_left (back_col n a index b) (seq 0 n) x.

(** src/mpmult.c:139-142: base^j by j multiplications starting from 1 *)
Fixpoint vdm_pow (j : nat) (base : Z) : Z :=
  match j with O => 1 | S j' => scalar_mul (vdm_pow j' base) base end.

(** src/mpmult.c:132-145 genVDMmatrix *)
Definition genVDMmatrix (indexes : list Z) : mat := fun i j => vdm_pow j (nth i indexes 0).

(** src/mpmult.c:147-153 invertedVDMmatrix; [out] is the caller's output buffer.
    With no dealers the local array has size zero. *)
Definition invertedVDMmatrix (indexes : list Z) (out : mat) : mat :=
  invert (length indexes) (genVDMmatrix indexes) out.

(** src/mpmult.c:155-173 toprf_mpc_mul_start.  [r] are the scalars toprf_create_shares draws,
    [buf] the caller's array of [peers] shares; result: return code and array. *)
Definition mpc_mul_start (a b : share) (peers threshold : Z) (r : list Z) (buf : list share)
  : res (Z * list share) :=
  if (negb (s_index a =? s_index b) || (peers <? threshold) || (threshold =? 0))%bool then Ok (1, buf)
  else do shares <- create_shares (scalar_mul (s_value a) (s_value b)) peers threshold r buf ;;
       Ok (0, shares).

(** src/mpmult.c:175-200 toprf_mpc_mul_finish; [junk] is the uninitialised array [inverted] *)
Definition mpc_mul_finish (indexes : list Z) (peer : Z) (shares : list share) (junk : mat) : share :=
  let inverted := invertedVDMmatrix indexes junk in
  mkShare peer
    (fold_left (fun acc i =>
        scalar_add acc (scalar_mul (s_value (nth i shares (mkShare 0 0))) (inverted 0%nat i)))
      (seq 0 (length indexes)) 0).
