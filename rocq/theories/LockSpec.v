(** What "locked while in use" and "wiped afterwards" mean, for a list of events at the temporaries of a call.
    Memory is locked by pages (mlock(2)): locks do not nest, one unlock undoes all earlier locks of the page,
    and a lock that fails locks nothing. *)
From Coq Require Import ZArith List Bool.
From Verif Require Import Bytes Res Sodium OprfModel ToprfModel DkgModel LockModel.
Import ListNotations.
Open Scope list_scope.
Open Scope Z_scope.

(** where each temporary lies on the stack: address and size *)
Definition layout : Type := temp -> Z * Z.
Definition page (a : Z) : Z := a / 4096.
(** page [p] holds a part of [t] *)
Definition on_page (L : layout) (t : temp) (p : Z) : Prop :=
  page (fst (L t)) <= p <= page (fst (L t) + snd (L t) - 1).
Definition on_page_b (L : layout) (t : temp) (p : Z) : bool :=
  (page (fst (L t)) <=? p) && (p <=? page (fst (L t) + snd (L t) - 1)).
(** no page holds parts of both *)
Definition pages_apart (L : layout) (t u : temp) : Prop := forall p, on_page L t p -> on_page L u p -> False.

(** which pages are locked after the events, given which were locked before *)
Definition lock_event (L : layout) (locked : Z -> bool) (e : event) : Z -> bool :=
  match e with
  | Lock t => fun p => on_page_b L t p || locked p
  | Unlock t => fun p => negb (on_page_b L t p) && locked p
  | _ => locked
  end.
Definition locked_after (L : layout) (before : Z -> bool) (tr : list event) : Z -> bool := fold_left (lock_event L) tr before.

(** what a temporary holds after the events, if anything *)
Definition temp_eqb (t u : temp) : bool :=
  match t, u with
  | t_state, t_state | t_uniform, t_uniform | t_msg_prime, t_msg_prime | t_b_0, t_b_0 | t_b_i, t_b_i | t_b_ii, t_b_ii
  | t_xored, t_xored | t_H0, t_H0 | t_ir, t_ir | t_poly, t_poly | t_coeff, t_coeff => true
  | _, _ => false
  end.
Definition hold_event (t : temp) (c : option bytes) (e : event) : option bytes :=
  match e with
  | Holds u d => if temp_eqb t u then Some d else c
  | Unlock u => if temp_eqb t u then None else c
  | _ => c
  end.
Definition left_in (tr : list event) (t : temp) : option bytes := fold_left (hold_event t) tr None.

(** at every moment of the call, all pages of [t] are locked as long as it holds something *)
Definition locked_while_used (L : layout) (before : Z -> bool) (tr : list event) (t : temp) : Prop :=
  forall a b, tr = a ++ b -> forall c, left_in a t = Some c -> forall p, on_page L t p -> locked_after L before a p = true.

(** a lock was asked for and not obtained *)
Definition lock_failed (tr : list event) : Prop := exists t, In (LockFails t) tr.

(** the temporaries the library asks to lock *)
Definition guarded (t : temp) : Prop := t = t_state \/ t = t_uniform \/ t = t_H0 \/ t = t_ir \/ t = t_poly.

(** a call of one of the functions that handle secrets, with the outcomes of its locks and its random draws *)
Inductive call : Type :=
| Blind (lk1 lk2 : bool) (x : bytes) (len r : Z)
| Finalize (lk : bool) (x : bytes) (len : Z) (N : bytes)
| Unblind (lk : bool) (r : Z) (Zb : bytes)
| Start (lk : bool) (n threshold : Z) (a : list Z) (cbuf : list bytes) (sbuf : list share)
| CreateShares (secret n threshold : Z) (a : list Z) (buf : list share).

Definition events (R : ristretto) (H : hashes) (c : call) : list event :=
  match c with
  | Blind lk1 lk2 x len r => fst (Blind_run R H lk1 lk2 x len r)
  | Finalize lk x len N => fst (Finalize_run H lk x len N)
  | Unblind lk r Zb => fst (Unblind_run R lk r Zb)
  | Start lk n t a cbuf sbuf => fst (start_run R lk n t a cbuf sbuf)
  | CreateShares s n t a buf => fst (create_shares_run s n t a buf)
  end.

(** the call has no undefined behaviour *)
Definition defined (R : ristretto) (H : hashes) (c : call) : Prop :=
  match c with
  | Blind lk1 lk2 x len r => oprf_Blind R H lk1 lk2 x len r <> UB
  | Finalize lk x len N => oprf_Finalize H lk x len N <> UB
  | Unblind _ _ _ => True
  | Start lk n t a cbuf sbuf => dkg_start R lk n t a cbuf sbuf <> UB
  | CreateShares s n t a buf => create_shares s n t a buf <> UB
  end.

(** the call reports failure and has written nothing to the caller's buffers *)
Definition refused (R : ristretto) (H : hashes) (c : call) : Prop :=
  match c with
  | Blind lk1 lk2 x len r => oprf_Blind R H lk1 lk2 x len r = Ok (-1, None, None)
  | Finalize lk x len N => oprf_Finalize H lk x len N = Ok (-1, None)
  | Unblind lk r Zb => oprf_Unblind R lk r Zb = (-1, None)
  | Start lk n t a cbuf sbuf => dkg_start R lk n t a cbuf sbuf = Ok (-1, cbuf, sbuf)
  | CreateShares _ _ _ _ _ => False
  end.
