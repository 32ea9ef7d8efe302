(** Model of the degree check for committed polynomials, /repo/src/tests/mpmult.c:104-179.
    It ships with the tests and calls the library's invertedVDMmatrix. *)
From Coq Require Import ZArith List Bool.
From Verif Require Import PrimeL Bytes Res Sodium MpmultModel.
Import ListNotations.
Open Scope list_scope.
Open Scope Z_scope.

(** src/tests/mpmult.c:111-117 and 123-132: the weight of A[i] (i from 0), the sum over j = 0..t of
    inverted[j][i] * delta^j; delta^j by j multiplications from 1 as in genVDMmatrix *)
Definition vsps_weight (t : nat) (delta : Z) (inverted : mat) (i : nat) : Z :=
  fold_left (fun acc j => scalar_add acc (scalar_mul (inverted j i) (vdm_pow j delta))) (seq 0 (t + 1)) 0.

(** src/tests/mpmult.c:119-138: the loop over i; the return code of the addition is ignored *)
Fixpoint vsps_loop (R : ristretto) (t : nat) (A : list bytes) (delta : Z) (inverted : mat) (order : list nat)
    (v : bytes) : res (Z * bytes) :=
  match order with
  | [] => Ok (0, v)
  | i :: order' =>
      do a <- of_opt (nth_error A i) ;;
      let '(ret, tmp) := scalarmult R (vsps_weight t delta inverted i) a in
      if ret =? 0 then
        match tmp with
        | Some g => vsps_loop R t A delta inverted order' (match core_add R v g with Some r => r | None => v end)
        | None => UB (* unreachable: a zero return code always comes with an output *)
        end
      else Ok (1, v)
  end.

(** src/tests/mpmult.c:104-142 _vsps: (return code, v).  [inverted] gives what is read at [j][i]. *)
Definition vsps (R : ristretto) (t : nat) (A : list bytes) (delta : Z) (inverted : mat) : res (Z * bytes) :=
  vsps_loop R t A delta inverted (seq 0 (t + 1)) (zeros 32).

(** The parameter of _vsps is declared inverted[t][t] (line 107) although the argument has rows of t+1
    entries: [j][i] is entry j*t+i of the flat array. *)
Definition reread (t : nat) (m : mat) : mat :=
  fun j i => let p := (j * t + i)%nat in m (p / (t + 1))%nat (p mod (t + 1))%nat.

(** src/tests/mpmult.c:144-179 vsps_check.  [A]: the elements of the array, A_1 first; [delta]: the
    scalar drawn; [junk]: the value of indexes[t], which line 152 does not set; [out]: the
    uninitialised array inverted.  With t = 0 the parameter of _vsps has type uint8_t[0][0][32]. *)
Definition vsps_check (R : ristretto) (t : nat) (A : list bytes) (delta junk : Z) (out : mat) : res Z :=
  if (t =? 0)%nat then UB else
  let left := invertedVDMmatrix (map Z.of_nat (seq 1 t) ++ [junk]) out in
  do (ret, v1) <- vsps R t A delta (reread t left) ;;
  if negb (ret =? 0) then Ok 1 else
  let right := invertedVDMmatrix (map (fun i => (Z.of_nat t + Z.of_nat i) mod 256) (seq 1 (t + 1))) left in
  do (ret, v2) <- vsps R t (skipn (t + 1) A) delta (reread t right) ;;
  if negb (ret =? 0) then Ok 1 else
  Ok (if bytes_eqb v1 v2 then 0 else 1).
