(** The memory management of the Noise XK library, /repo/src/noise_xk/src/XK.c: which blocks each call allocates, reads
    and frees, and which it overwrites before it frees them.  What the calls compute is in [XkModel]; here each call
    consults that model for its result and does what the C code then does with the heap.

    Simplifications.
    - Allocation succeeds.  Blocks of fixed-size arrays, structures and strings are all just blocks; [what] says what
      a block holds.  A block that is read or freed must be live, anything else is undefined behaviour ([None]).
    - Only reads through pointers to blocks of the library that may have been freed are modelled: the device, the list of
      peers, the session, encapsulated messages.  Reads of blocks a call allocated itself are not.
    - Arrays on the stack are not modelled.
    - The calls that take a peer ([Noise_XK_serialize_peer_secret], [Noise_XK_peer_get_info]) take the pointer that
      [Noise_XK_device_lookup_peer_by_id] returns at that moment, as the documentation of the library advises. *)
From Coq Require Import ZArith Lia List Bool.
From Verif Require Import Bytes Mem XkModel.
Import ListNotations.
Open Scope list_scope.
Open Scope Z_scope.

(** what a block holds *)
Inductive what : Set :=
  | Wdevice | Wname | Wtext | Wsk | Wspriv | Wspub | Wprologue | Whead            (* the device; [Wname]: a pointer to a string; [Wsk]: the symmetric key *)
  | Wcell | Wpeer | Wkey                                                          (* a registered peer: cell of the list, structure, public key *)
  | Wsession | Wcipher | Wchain | Wtranscript | Wepriv | Wepub | Wrs | Wre | Wsend | Wrecv
  | Wpid | Wconcat                                                                (* working memory of a call *)
  | Wout | Wpayload | Wencap.                                                     (* handed to the caller *)

(** The heap: the next fresh address, the live blocks, and what was freed so far, with [true] if the block was
    overwritten before. *)
Record heap : Set := mkHeap { next : nat; live : list (nat * what); freed : list (what * bool) }.

Definition M (A : Type) : Type := heap -> option (A * heap).
Definition ret {A} (a : A) : M A := fun h => Some (a, h).
Definition bindM {A B} (m : M A) (k : A -> M B) : M B := fun h => match m h with Some (a, h') => k a h' | None => None end.
Notation "x <- m ;; k" := (bindM m (fun x => k)) (at level 61, m at next level, right associativity).
Notation "m ;;; k" := (bindM m (fun _ => k)) (at level 61, right associativity).

Definition find_block (a : nat) (l : list (nat * what)) : option what :=
  match find (fun b => Nat.eqb (fst b) a) l with Some b => Some (snd b) | None => None end.
(** KRML_HOST_MALLOC, KRML_HOST_CALLOC *)
Definition alloc (w : what) : M nat := fun h => Some (next h, mkHeap (S (next h)) ((next h, w) :: live h) (freed h)).
(** KRML_HOST_FREE *)
Definition release (wiped : bool) (a : nat) : M unit := fun h =>
  match find_block a (live h) with
  | Some w => Some (tt, mkHeap (next h) (filter (fun b => negb (Nat.eqb (fst b) a)) (live h)) ((w, wiped) :: freed h))
  | None => None
  end.
Definition free : nat -> M unit := release false.
(** sodium_memzero, then KRML_HOST_FREE *)
Definition wipe_free : nat -> M unit := release true.
(** reading a block *)
Definition touch (a : nat) : M unit := fun h => match find_block a (live h) with Some _ => Some (tt, h) | None => None end.

(** [if (!(p == NULL)) KRML_HOST_FREE(p)] *)
Definition free_opt (o : option nat) : M unit := match o with Some a => free a | None => ret tt end.
(** a buffer that is NULL if empty: for instance XK.c:343-352; a copy of a string, for instance XK.c:355-400: NULL for the empty string *)
Definition alloc_opt (w : what) (s : bytes) : M (option nat) := if 0 <? zlen s then a <- alloc w;; ret (Some a) else ret None.

(** XK.c:283-290 and the cell of the list that holds it *)
Record hpeer : Set := mkHp { hp_val : xpeer; hp_cell : nat; hp_data : nat; hp_info : nat; hp_text : option nat; hp_key : nat }.
(** XK.c:295-307 *)
Record hdev : Set := mkHd {
  hd_dev : nat; hd_info : nat; hd_text : option nat; hd_sk : nat; hd_spriv : nat; hd_spub : nat; hd_prologue : option nat;
  hd_head : nat; hd_peers : list hpeer
}.
(** include/noise_private.h:6-84 *)
Inductive hstate : Set :=
  | HHand (k ck h epriv epub rs re : nat)
  | HTran (h send recv : nat).
Record hsess : Set := mkHsn {
  hs_sn : nat; hs_spriv : nat; hs_spub : nat; hs_info : nat; hs_text : option nat; hs_pinfo : nat; hs_ptext : option nat;
  hs_state : hstate; hs_dev : nat
}.

Definition with_peers (d : hdev) (l : list hpeer) : hdev :=
  mkHd (hd_dev d) (hd_info d) (hd_text d) (hd_sk d) (hd_spriv d) (hd_spub d) (hd_prologue d) (hd_head d) l.
Definition with_state (s : hsess) (st : hstate) : hsess :=
  mkHsn (hs_sn s) (hs_spriv s) (hs_spub s) (hs_info s) (hs_text s) (hs_pinfo s) (hs_ptext s) st (hs_dev s).
Definition with_ptext (s : hsess) (t : option nat) : hsess :=
  mkHsn (hs_sn s) (hs_spriv s) (hs_spub s) (hs_info s) (hs_text s) (hs_pinfo s) t (hs_state s) (hs_dev s).

(** ** devices *)

(** XK.c:324-426 *)
Definition mem_device_create (prologue info : bytes) : M hdev :=
  sk <- alloc Wsk;; spriv <- alloc Wspriv;; spub <- alloc Wspub;;
  prl <- alloc_opt Wprologue prologue;; text <- alloc_opt Wtext info;; name <- alloc Wname;; head <- alloc Whead;;
  dv <- alloc Wdevice;; ret (mkHd dv name text sk spriv spub prl head []).
(** XK.c:445-573; [ok]: the secret key decrypts *)
Definition mem_device_create_from_secret (ok : bool) (prologue info : bytes) : M (option hdev) :=
  spriv <- alloc Wspriv;;
  if negb ok then free spriv ;;; ret None
  else
    sk <- alloc Wsk;; spub <- alloc Wspub;;
    prl <- alloc_opt Wprologue prologue;; text <- alloc_opt Wtext info;; name <- alloc Wname;; head <- alloc Whead;;
    dv <- alloc Wdevice;; ret (Some (mkHd dv name text sk spriv spub prl head [])).

(** XK.c:575-587: the cells of the list, the last one first *)
Fixpoint mem_free_cells (l : list hpeer) : M unit :=
  match l with
  | [] => ret tt
  | p :: l' => touch (hp_cell p) ;;; mem_free_cells l' ;;; free (hp_cell p)
  end.
(** XK.c:604-618 *)
Definition mem_device_free (d : hdev) : M unit :=
  touch (hd_dev d) ;;; touch (hd_info d) ;;;
  free_opt (hd_text d) ;;; free (hd_info d) ;;;
  touch (hd_head d) ;;; mem_free_cells (hd_peers d) ;;; free (hd_head d) ;;;
  free (hd_spriv d) ;;; free (hd_spub d) ;;; free_opt (hd_prologue d) ;;; free (hd_dev d).

(** the loops that look for a peer, for instance XK.c:703-737 (by key) and 1234-1262 (by identifier) *)
Fixpoint mem_find (by_key : bool) (f : xpeer -> bool) (l : list hpeer) : M (option hpeer) :=
  match l with
  | [] => ret None
  | p :: l' =>
      touch (hp_cell p) ;;; touch (hp_data p) ;;; (if by_key then touch (hp_key p) else ret tt) ;;;
      if f (hp_val p) then ret (Some p) else mem_find by_key f l'
  end.

(** XK.c:758-815 with the push at 672-684; [p]: the peer to add *)
Definition mem_push_peer (d : hdev) (p : xpeer) : M hdev :=
  key <- alloc Wkey;; text <- alloc_opt Wtext (p_info p);; name <- alloc Wname;; data <- alloc Wpeer;; cell <- alloc Wcell;;
  ret (with_peers d (mkHp p cell data name text key :: hd_peers d)).
(** XK.c:697-834; [added]: the peer, unless the call fails *)
Definition mem_device_add_peer (d : hdev) (rs : bytes) (added : option xpeer) : M hdev :=
  touch (hd_dev d) ;;; touch (hd_head d) ;;;
  mem_find true (fun p => lbytes_eq 32 (p_s p) rs) (hd_peers d) ;;;
  match added with None => ret d | Some p => mem_push_peer d p end.

(** XK.c:894-905 and 916-927 *)
Definition mem_free_peer (p : hpeer) : M unit :=
  touch (hp_info p) ;;; free_opt (hp_text p) ;;; free (hp_info p) ;;; wipe_free (hp_key p) ;;; free (hp_data p).
(** XK.c:858-930: the first peer with the identifier; the cell of the first peer of the list is freed before the peer (in
    [pop__...], 836-847), any other cell after it *)
Fixpoint mem_unlink (first : bool) (pid : Z) (l : list hpeer) : M (list hpeer) :=
  match l with
  | [] => ret []
  | p :: l' =>
      touch (hp_cell p) ;;; touch (hp_data p) ;;;
      if p_id (hp_val p) =? pid then
        if first then free (hp_cell p) ;;; mem_free_peer p ;;; ret l' else mem_free_peer p ;;; free (hp_cell p) ;;; ret l'
      else r <- mem_unlink false pid l';; ret (p :: r)
  end.
(** XK.c:851-931 *)
Definition mem_device_remove_peer (d : hdev) (pid : Z) : M hdev :=
  if pid =? 0 then ret d
  else touch (hd_dev d) ;;; touch (hd_head d) ;;; l <- mem_unlink true pid (hd_peers d);; ret (with_peers d l).

(** XK.c:626-671: the serialized key is the caller's *)
Definition mem_serialize_device_secret (d : hdev) : M nat :=
  touch (hd_dev d) ;;; out <- alloc Wout;; touch (hd_info d) ;;; ret out.
(** XK.c:1225-1273, then 945-1007; nothing for NULL *)
Definition mem_serialize_peer_secret (d : hdev) (pid : Z) : M (option nat) :=
  touch (hd_dev d) ;;;
  p <- (if pid =? 0 then ret None else touch (hd_head d) ;;; mem_find false (fun p => p_id p =? pid) (hd_peers d));;
  match p with
  | None => ret None
  | Some p =>
      touch (hd_dev d) ;;; touch (hp_data p) ;;; keys <- alloc Wconcat;; out <- alloc Wout;;
      touch (hp_key p) ;;; touch (hp_info p) ;;; touch (hd_sk d) ;;; free keys ;;; ret (Some out)
  end.
(** XK.c:1012-1213; [rs]: the key, if it decrypts; [added]: the peer, unless the call fails *)
Definition mem_deserialize_peer_secret (d : hdev) (len : Z) (rs : option bytes) (added : option xpeer) : M hdev :=
  touch (hd_dev d) ;;;
  if negb (56 =? len) then ret d
  else
    keys <- alloc Wconcat;; touch (hd_sk d) ;;;
    match rs with
    | None => free keys ;;; ret d
    | Some rs => d' <- mem_device_add_peer d rs added;; free keys ;;; ret d'
    end.
(** XK.c:1335-1385: a copy of the name *)
Definition mem_device_get_info (d : hdev) (info : bytes) : M (option nat) :=
  touch (hd_dev d) ;;; touch (hd_info d) ;;; alloc_opt Wtext info.
(** XK.c:1225-1273, then 1465-1515 *)
Definition mem_peer_get_info (d : hdev) (pid : Z) : M (option nat) :=
  touch (hd_dev d) ;;;
  p <- (if pid =? 0 then ret None else touch (hd_head d) ;;; mem_find false (fun p => p_id p =? pid) (hd_peers d));;
  match p with
  | None => ret None
  | Some p => touch (hp_data p) ;;; touch (hp_info p) ;;; alloc_opt Wtext (p_info (hp_val p))
  end.

(** ** sessions *)

(** XK.c:1632-1843 (initiator), 1898-2058 (responder), and the session itself at 1840 and 2055 *)
Definition mem_session (d : hdev) (info pinfo : bytes) : M hsess :=
  touch (hd_spriv d) ;;; spriv <- alloc Wspriv;; touch (hd_spub d) ;;; spub <- alloc Wspub;;
  touch (hd_info d) ;;; text <- alloc_opt Wtext info;; name <- alloc Wname;;
  ptext <- alloc_opt Wtext pinfo;; pname <- alloc Wname;;
  k <- alloc Wcipher;; ck <- alloc Wchain;; h <- alloc Wtranscript;; epriv <- alloc Wepriv;; epub <- alloc Wepub;;
  rs <- alloc Wrs;; re <- alloc Wre;;
  sn <- alloc Wsession;; ret (mkHsn sn spriv spub name text pname ptext (HHand k ck h epriv epub rs re) (hd_dev d)).
(** XK.c:1553-1865; [made]: the session, unless the call fails; [full]: no identifier is left for a session *)
Definition mem_session_create_initiator (d : hdev) (full : bool) (pid : Z) (info : bytes) (made : option xsess) : M (option hsess) :=
  touch (hd_dev d) ;;;
  if full then ret None
  else
    p <- (if pid =? 0 then ret None else touch (hd_head d) ;;; mem_find false (fun p => p_id p =? pid) (hd_peers d));;
    match p, made with
    | Some p, Some s => touch (hp_data p) ;;; touch (hp_info p) ;;; touch (hp_key p) ;;; r <- mem_session d info (s_pinfo s);; ret (Some r)
    | _, _ => ret None
    end.
(** XK.c:1872-2079 *)
Definition mem_session_create_responder (d : hdev) (info : bytes) (made : option xsess) : M (option hsess) :=
  touch (hd_dev d) ;;;
  match made with
  | None => ret None
  | Some s => r <- mem_session d info (s_pinfo s);; ret (Some r)
  end.

(** XK.c:2087-2203 *)
Definition mem_session_free (s : hsess) : M unit :=
  touch (hs_sn s) ;;;
  match hs_state s with
  | HHand k ck h epriv epub rs re => free k ;;; free ck ;;; free h ;;; free epriv ;;; free epub ;;; free rs ;;; free re
  | HTran h send recv => free h ;;; free send ;;; free recv
  end ;;;
  touch (hs_info s) ;;; free_opt (hs_text s) ;;; free (hs_info s) ;;;
  touch (hs_pinfo s) ;;; free_opt (hs_ptext s) ;;; free (hs_pinfo s) ;;;
  free (hs_spriv s) ;;; free (hs_spub s) ;;; free (hs_sn s).

(** XK.c:2454-2473 and its copies at 2660, 3134 and 3596: the end of the handshake *)
Definition mem_split (s : hsess) (init : bool) : M hsess :=
  match hs_state s with
  | HHand k ck h epriv epub rs re =>
      k1 <- alloc (if init then Wsend else Wrecv);; k2 <- alloc (if init then Wrecv else Wsend);;
      free k ;;; free ck ;;; free epriv ;;; free epub ;;; free rs ;;; free re ;;;
      ret (with_state s (if init then HTran h k1 k2 else HTran h k2 k1))
  | HTran _ _ _ => ret s
  end.
Definition is_transport (st : xst) : bool := match st with Transport _ => true | Handshake _ => false end.

(** XK.c:4361-4812 with 2227-2911; [sn] and [sn']: the session before and after the call, [code]: what it returns.  The
    output buffer is allocated when the length and the level of the message are accepted. *)
Definition mem_session_write (s : hsess) (m : encap) (sn sn' : xsess) (code : rcode) : M (hsess * option nat) :=
  touch (hs_sn s) ;;;
  if match s_st sn with Handshake h => 4 <=? h_step h | Transport _ => false end then ret (s, None)
  else match compute_next_message_len (s_st sn) (zlen (em_msg m)) with
       | None => ret (s, None)
       | Some _ =>
           if sec_ok (conf_level (s_st sn)) m then
             out <- alloc Wout;;
             s' <- (if negb (is_transport (s_st sn)) && is_transport (s_st sn') then mem_split s (s_init sn) else ret s);;
             match code with
             | RSuccess => ret (s', Some out)
             | _ => free out ;;; ret (s', None)
             end
           else ret (s, None)
       end.

(** XK.c:2925-3852: the working block for the identifier; a responder reads the device (3255) and in its third message the
    list of peers (3348-3396) and stores a copy of the name of the peer it finds (3396-3441); [rs]: the key in the third
    message, [found]: the peer with that key. *)
Definition mem_handshake_read (s : hsess) (d : hdev) (init third : bool) (rs : option bytes) (sn sn' : xsess) : M hsess :=
  pid <- alloc Wpid;;
  s1 <- (if init then ret s
         else
           touch (hs_dev s) ;;;
           match third, rs with
           | true, Some rs =>
               touch (hd_head d) ;;;
               p <- mem_find true (fun p => lbytes_eq 32 (p_s p) rs) (hd_peers d);;
               match p with
               | Some p => touch (hp_data p) ;;; touch (hp_info p) ;;; t <- alloc_opt Wtext (p_info (hp_val p));; ret (with_ptext s t)
               | None => ret s
               end
           | _, _ => ret s
           end);;
  s2 <- (if is_transport (s_st sn') then mem_split s1 init else ret s1);;
  free pid ;;; ret s2.
(** the static key that the third message carries, if it decrypts (XK.c:3334-3346) *)
Definition third_key (X : xprims) (s : hs) (outlen : Z) (input : bytes) : option bytes :=
  if negb ((outlen <=? 4294967215) && (zlen input =? u32 (64 + outlen))) then None
  else snd (decrypt_and_hash X s 1 (firstn 48 input)).
(** XK.c:4824-5195; the payload and its capsule are the caller's *)
Definition mem_session_read (X : xprims) (s : hsess) (d : hdev) (sn sn' : xsess) (code : rcode) (input : bytes)
  : M (hsess * option (nat * option nat)) :=
  touch (hs_sn s) ;;;
  let go (read : M hsess) (outlen : Z) :=
    out <- (if 0 <? outlen then a <- alloc Wpayload;; ret (Some a) else ret None);;
    s' <- read;;
    match code with
    | RSuccess => em <- alloc Wencap;; ret (s', Some (em, out))
    | _ => free_opt out ;;; ret (s', None)
    end in
  match s_st sn with
  | Transport _ =>
      match payload_len (s_st sn) (zlen input) with None => ret (s, None) | Some outlen => go (ret s) outlen end
  | Handshake h =>
      if 4 <=? h_step h then ret (s, None)
      else if Bool.eqb (s_init sn) (h_step h mod 2 =? 1) && (h_step h <? 3) then
        match payload_len (s_st sn) (zlen input) with
        | None => ret (s, None)
        | Some outlen =>
            go (mem_handshake_read s d (s_init sn) (negb (h_step h =? 0)) (third_key X h outlen input) sn sn') outlen
        end
      else ret (s, None)
  end.
(** XK.c:5442-5560 *)
Definition mem_session_get_info (s : hsess) (info : bytes) : M (option nat) :=
  touch (hs_sn s) ;;; touch (hs_info s) ;;; alloc_opt Wtext info.
(** XK.c:5590-5728 *)
Definition mem_session_get_peer_info (s : hsess) (sn : xsess) : M (option nat) :=
  touch (hs_sn s) ;;;
  match session_get_peer_info sn with None => ret None | Some info => touch (hs_pinfo s) ;;; alloc_opt Wtext info end.

(** ** messages *)

(** XK.c:137-169 *)
Definition mem_pack (msg : bytes) : M (nat * option nat) := m <- alloc_opt Wpayload msg;; em <- alloc Wencap;; ret (em, m).
(** XK.c:176-216; [out]: the message, unless the level is too low *)
Definition mem_unpack (em : nat * option nat) (out : option bytes) : M (option nat) :=
  touch (fst em) ;;;
  match out with
  | None => ret None
  | Some msg => match snd em with Some a => touch a | None => ret tt end ;;; alloc_opt Wout msg
  end.
(** XK.c:129-135 *)
Definition mem_encap_free (em : nat * option nat) : M unit := touch (fst em) ;;; free_opt (snd em) ;;; free (fst em).

(** ** A program that uses the library *)

(** a device and a session the program holds, with what is in them; [false]: it has freed them *)
Record dentry : Set := mkDe { de_val : xdev; de_mem : hdev; de_open : bool }.
Record sentry : Set := mkSe { se_val : xsess; se_info : bytes; se_mem : hsess; se_dev : nat; se_open : bool }.
(** what the library handed over: a buffer, or an encapsulated message *)
Inductive uobj : Set := UBuf (a : nat) (w : what) | UMsg (em : nat * option nat) (e : encap).
Record world : Set := mkWorld { w_heap : heap; w_devs : list dentry; w_sess : list sentry; w_user : list uobj }.
Definition start : world := mkWorld (mkHeap 0 [] []) [] [] [].

(** the calls; devices, sessions and objects are named by their number in the order of creation (objects: in the list
    of those that are left); [n8], [e]: random bytes the call draws *)
Inductive call : Type :=
  | NCreate (prologue info sk spriv : bytes)
  | NCreateSecret (prologue info sk enc : bytes)
  | NAddPeer (d : nat) (info rs : bytes)
  | NRemovePeer (d : nat) (pid : Z)
  | NSerialDevice (d : nat)
  | NSerialPeer (d : nat) (pid : Z)
  | NDeserialPeer (d : nat) (name enc : bytes)
  | NDeviceInfo (d : nat)
  | NPeerInfo (d : nat) (pid : Z)
  | NInitiator (d : nat) (pid : Z) (e : bytes)
  | NResponder (d : nat) (e : bytes)
  | NPack (level : Z) (msg : bytes)
  | NUnpack (u : nat) (level : Z)
  | NWrite (s u : nat)
  | NRead (s : nat) (input : bytes)
  | NSessionInfo (s : nat)
  | NSessionPeerInfo (s : nat)
  | NRelease (u : nat)
  | NFreeSession (s : nat)
  | NFreeDevice (d : nat).

Fixpoint set_nth {A} (n : nat) (x : A) (l : list A) : list A :=
  match l, n with
  | [], _ => []
  | _ :: l', O => x :: l'
  | y :: l', S n' => y :: set_nth n' x l'
  end.
Fixpoint del_nth {A} (n : nat) (l : list A) : list A :=
  match l, n with
  | [], _ => []
  | _ :: l', O => l'
  | y :: l', S n' => y :: del_nth n' l'
  end.
Definition buf (w : what) (o : option nat) : list uobj := match o with Some a => [UBuf a w] | None => [] end.

Section Step.
Variable X : xprims.

Definition on_dev {A} (w : world) (d : nat) (k : dentry -> option A) : option A :=
  match nth_error (w_devs w) d with Some e => k e | None => None end.
Definition on_sess {A} (w : world) (s : nat) (k : sentry -> option A) : option A :=
  match nth_error (w_sess w) s with Some e => k e | None => None end.
(** run the memory part of a call, then store the results *)
Definition exec {A} (w : world) (m : M A) (k : A -> heap -> world) : option world :=
  match m (w_heap w) with Some (a, h) => Some (k a h) | None => None end.
Definition put_dev (w : world) (d : nat) (e : dentry) (h : heap) : world := mkWorld h (set_nth d e (w_devs w)) (w_sess w) (w_user w).
Definition put_sess (w : world) (s : nat) (e : sentry) (u : list uobj) (h : heap) : world :=
  mkWorld h (w_devs w) (set_nth s e (w_sess w)) (w_user w ++ u).
Definition give (w : world) (u : list uobj) (h : heap) : world := mkWorld h (w_devs w) (w_sess w) (w_user w ++ u).

(** One call; [None]: undefined behaviour *)
Definition mstep (c : call) (w : world) : option world :=
  match c with
  | NCreate prologue info sk spriv =>
      match device_create X prologue info sk spriv with
      | None => None
      | Some d => exec w (mem_device_create prologue info) (fun hd h => mkWorld h (w_devs w ++ [mkDe d hd true]) (w_sess w) (w_user w))
      end
  | NCreateSecret prologue info sk enc =>
      let r := device_create_from_secret X prologue info sk enc in
      exec w (mem_device_create_from_secret (match r with Some _ => true | None => false end) prologue info)
        (fun o h => match r, o with
                    | Some d, Some hd => mkWorld h (w_devs w ++ [mkDe d hd true]) (w_sess w) (w_user w)
                    | _, _ => mkWorld h (w_devs w) (w_sess w) (w_user w)
                    end)
  | NAddPeer d info rs => on_dev w d (fun e =>
      let r := device_add_peer (de_val e) info rs in
      exec w (mem_device_add_peer (de_mem e) rs (option_map snd r))
        (fun hd => put_dev w d (mkDe (match r with Some (d', _) => d' | None => de_val e end) hd (de_open e))))
  | NRemovePeer d pid => on_dev w d (fun e =>
      exec w (mem_device_remove_peer (de_mem e) pid) (fun hd => put_dev w d (mkDe (device_remove_peer (de_val e) pid) hd (de_open e))))
  | NSerialDevice d => on_dev w d (fun e => exec w (mem_serialize_device_secret (de_mem e)) (fun a => give w [UBuf a Wout]))
  | NSerialPeer d pid => on_dev w d (fun e => exec w (mem_serialize_peer_secret (de_mem e) pid) (fun o => give w (buf Wout o)))
  | NDeserialPeer d name enc => on_dev w d (fun e =>
      let r := deserialize_peer_secret X (de_val e) name enc in
      exec w (mem_deserialize_peer_secret (de_mem e) (zlen enc)
                (aead_decrypt X (d_sk (de_val e)) (bytes_to_nonce enc) name (skipn 8 enc)) (option_map snd r))
        (fun hd => put_dev w d (mkDe (match r with Some (d', _) => d' | None => de_val e end) hd (de_open e))))
  | NDeviceInfo d => on_dev w d (fun e => exec w (mem_device_get_info (de_mem e) (d_info (de_val e))) (fun o => give w (buf Wtext o)))
  | NPeerInfo d pid => on_dev w d (fun e => exec w (mem_peer_get_info (de_mem e) pid) (fun o => give w (buf Wtext o)))
  | NInitiator d pid ep => on_dev w d (fun e =>
      let r := session_create_initiator X (de_val e) pid ep in
      exec w (mem_session_create_initiator (de_mem e) (d_states (de_val e) =? 4294967295) pid (d_info (de_val e)) (option_map snd r))
        (fun o h => match r, o with
                    | Some (d', s), Some hsn =>
                        mkWorld h (set_nth d (mkDe d' (de_mem e) (de_open e)) (w_devs w)) (w_sess w ++ [mkSe s (d_info (de_val e)) hsn d true]) (w_user w)
                    | _, _ => mkWorld h (w_devs w) (w_sess w) (w_user w)
                    end))
  | NResponder d ep => on_dev w d (fun e =>
      let r := session_create_responder X (de_val e) ep in
      exec w (mem_session_create_responder (de_mem e) (d_info (de_val e)) (option_map snd r))
        (fun o h => match r, o with
                    | Some (d', s), Some hsn =>
                        mkWorld h (set_nth d (mkDe d' (de_mem e) (de_open e)) (w_devs w)) (w_sess w ++ [mkSe s (d_info (de_val e)) hsn d true]) (w_user w)
                    | _, _ => mkWorld h (w_devs w) (w_sess w) (w_user w)
                    end))
  | NPack level msg => exec w (mem_pack msg) (fun em => give w [UMsg em (pack_message_with_conf_level level msg)])
  | NUnpack u level =>
      match nth_error (w_user w) u with
      | Some (UMsg em e) => exec w (mem_unpack em (unpack_message_with_auth_level level e)) (fun o => give w (buf Wout o))
      | _ => None
      end
  | NWrite s u => on_sess w s (fun e =>
      match nth_error (w_user w) u with
      | Some (UMsg em m) =>
          let '(s', code, _) := session_write X m (se_val e) in
          exec w (touch (fst em) ;;; mem_session_write (se_mem e) m (se_val e) s' code)
            (fun r => put_sess w s (mkSe s' (se_info e) (fst r) (se_dev e) (se_open e)) (buf Wout (snd r)))
      | _ => None
      end)
  | NRead s input => on_sess w s (fun e => on_dev w (se_dev e) (fun de =>
      let '(s', code, out) := session_read X (de_val de) (se_val e) input in
      exec w (mem_session_read X (se_mem e) (de_mem de) (se_val e) s' code input)
        (fun r => put_sess w s (mkSe s' (se_info e) (fst r) (se_dev e) (se_open e))
                    (match snd r, out with Some em, Some m => [UMsg em m] | _, _ => [] end))))
  | NSessionInfo s => on_sess w s (fun e => exec w (mem_session_get_info (se_mem e) (se_info e)) (fun o => give w (buf Wtext o)))
  | NSessionPeerInfo s => on_sess w s (fun e => exec w (mem_session_get_peer_info (se_mem e) (se_val e)) (fun o => give w (buf Wtext o)))
  | NRelease u =>
      match nth_error (w_user w) u with
      | Some (UBuf a _) => exec w (free a) (fun _ h => mkWorld h (w_devs w) (w_sess w) (del_nth u (w_user w)))
      | Some (UMsg em _) => exec w (mem_encap_free em) (fun _ h => mkWorld h (w_devs w) (w_sess w) (del_nth u (w_user w)))
      | None => None
      end
  | NFreeSession s => on_sess w s (fun e =>
      exec w (mem_session_free (se_mem e)) (fun _ => put_sess w s (mkSe (se_val e) (se_info e) (se_mem e) (se_dev e) false) []))
  | NFreeDevice d => on_dev w d (fun e =>
      exec w (mem_device_free (de_mem e)) (fun _ => put_dev w d (mkDe (de_val e) (de_mem e) false)))
  end.

(** a program: a sequence of calls *)
Fixpoint mrun (cs : list call) (w : world) : option world :=
  match cs with
  | [] => Some w
  | c :: cs' => match mstep c w with Some w' => mrun cs' w' | None => None end
  end.
End Step.
