(** Model of the Python bindings /repo/python/pyoprf/__init__.py on top of the models of the C
    functions they call.

    Conventions.  A call returns a value ([Ret]), raises an exception ([Raise], which exception is
    not distinguished) or is undefined behaviour of the C code ([Bad]).  Python integers are
    unbounded.  Arguments the wrappers expect as bytes are byte strings (the isinstance tests
    are therefore true); a bytes object is followed in memory by one NUL byte.  [al] says which
    allocations succeed.  Random values drawn by the C code are arguments. *)
From Coq Require Import ZArith Lia List Bool.
From Coq.Strings Require Import Byte.
From Verif Require Import PrimeL Fq Bytes Res Mem Sodium OprfModel ToprfModel DkgModel WireModel TpCrypto TpModel PeerModel CheaterModel.
Import ListNotations.
Open Scope list_scope.
Open Scope Z_scope.

Inductive py (A : Type) : Type := Ret (a : A) | Raise | Bad.
Arguments Ret {A} a. Arguments Raise {A}. Arguments Bad {A}.
Definition pbind {A B} (x : py A) (f : A -> py B) : py B :=
  match x with Ret a => f a | Raise => Raise | Bad => Bad end.
Notation "'get' x <- a ;; b" := (pbind a (fun x => b)) (at level 200, x pattern, a at level 100, b at level 200).
Definition of_res {A} (x : res A) : py A := match x with Ok a => Ret a | UB => Bad end.

(** python/pyoprf/__init__.py:45-47 __check *)
Definition check (code : Z) : py unit := if code =? 0 then Ret tt else Raise.

(** an int argument without a declared type: ctypes accepts what fits 64 bits, signed or
    unsigned, and passes the low 32 bits as a C int; otherwise it raises *)
Definition c_int (x : Z) : py Z := if (- 2 ^ 63 <=? x) && (x <? 2 ^ 64) then Ret (x mod 2 ^ 32) else Raise.
(** ... received by a uint8_t parameter *)
Definition c_u8 (x : Z) : py Z := get v <- c_int x ;; Ret (v mod 256).
(** ... received by a uint64_t parameter (x86-64: the int is sign extended) *)
Definition c_u64 (x : Z) : py Z := get v <- c_int x ;; Ret (if v <? 2 ^ 31 then v else v + (2 ^ 64 - 2 ^ 32)).
(** ctypes.create_string_buffer(size), (type * count)(): zeroed memory, or an exception *)
Definition alloc (al : Z -> bool) (size : Z) : py unit := if (size <? 0) || negb (al size) then Raise else Ret tt.

(** what a fixed size output buffer holds after the call *)
Definition filled (w : option bytes) : bytes := match w with Some b => b | None => zeros 32 end.

(** python/pyoprf/__init__.py:61-64 keygen; [r] is the scalar drawn by oprf_KeyGen *)
Definition py_keygen (r : Z) : py bytes := Ret (le_bytes 32 r).

(** python/pyoprf/__init__.py:81-85 blind; the length is passed as size_t to the uint8_t
    parameter of oprf_Blind *)
Definition py_blind (R : ristretto) (H : hashes) (lk1 lk2 : bool) (r : Z) (x : bytes) : py (bytes * bytes) :=
  get (ret, wr, wb) <- of_res (oprf_Blind R H lk1 lk2 x (zlen x) r) ;;
  get _ <- check ret ;;
  Ret (match wr with Some r => le_bytes 32 r | None => zeros 32 end, filled wb).

(** python/pyoprf/__init__.py:102-113 evaluate *)
Definition py_evaluate (R : ristretto) (key blinded : bytes) : py bytes :=
  if negb (zlen key =? 32) then Raise else
  if negb (zlen blinded =? 32) then Raise else
  let '(ret, z) := oprf_Evaluate R (of_le key) blinded in
  get _ <- check ret ;; Ret (filled z).

(** python/pyoprf/__init__.py:143-154 unblind *)
Definition py_unblind (R : ristretto) (lk : bool) (r zz : bytes) : py bytes :=
  if negb (zlen r =? 32) then Raise else
  if negb (zlen zz =? 32) then Raise else
  let '(ret, n) := oprf_Unblind R lk (of_le r) zz in
  get _ <- check ret ;; Ret (filled n).

(** python/pyoprf/__init__.py:170-177 finalize; the length is passed as size_t to the uint16_t
    parameter of oprf_Finalize *)
Definition py_finalize (H : hashes) (lk : bool) (x n : bytes) : py bytes :=
  if negb (zlen n =? 32) then Raise else
  get (ret, y) <- of_res (oprf_Finalize H lk x (zlen x) n) ;;
  get _ <- check ret ;;
  Ret match y with Some b => b | None => zeros 64 end.

(** python/pyoprf/__init__.py:180-181 unblind_finalize *)
Definition py_unblind_finalize (R : ristretto) (H : hashes) (lk1 lk2 : bool) (r zz x : bytes) : py bytes :=
  get n <- py_unblind R lk1 r zz ;; py_finalize H lk2 x n.

(** python/pyoprf/__init__.py:198-204 coeff, given a list as declared: ctypes cannot convert a list and
    raises (the ValueError of line 200 is created but not raised) *)
Definition py_coeff (index : Z) (peers : list Z) : py bytes := Raise.

(** python/pyoprf/__init__.py:224-235 create_shares.  [a]: the coefficients drawn.  toprf_create_shares
    is void: the code tested by __check is whatever the return register holds, [reg]. *)
Definition py_create_shares (al : Z -> bool) (reg : Z) (a : list Z) (secret : bytes) (n t : Z) : py (list bytes) :=
  if negb (zlen secret =? 32) then Raise else
  if n <? t then Raise else
  if t <? 2 then Raise else
  get _ <- alloc al (n * 33) ;;
  get cn <- c_u8 n ;; get ct <- c_u8 t ;;
  get shares <- of_res (create_shares (of_le secret) cn ct a (repeat (mkShare 0 0) (Z.to_nat n))) ;;
  get _ <- check reg ;;
  Ret (map share_bytes shares).

(** 33 bytes as a TOPRF_Part (src/toprf.c:51-54) *)
Definition part_of (b : bytes) : part := match b with [] => mkPart 0 [] | i :: v => mkPart (bz i) v end.
Definition all_33 (l : list bytes) : bool := forallb (fun r => zlen r =? 33) l.

(** python/pyoprf/__init__.py:256-266 thresholdmult (the ValueError of line 257 is created but not raised) *)
Definition py_thresholdmult (R : ristretto) (junk : list Z) (responses : list bytes) : py bytes :=
  if negb (all_33 responses) then Raise else
  get (ret, r) <- of_res (thresholdmult R (map part_of responses) junk) ;;
  get _ <- check ret ;; Ret r.

(** python/pyoprf/__init__.py:297-316 threshold_evaluate; the number of indexes is passed as uint16_t,
    the first byte of the result is not written by toprf_Evaluate *)
Definition py_threshold_evaluate (R : ristretto) (k blinded : bytes) (self : Z) (indexes : list Z) : py bytes :=
  if negb (zlen k =? 33) then Raise else
  if negb (zlen blinded =? 32) then Raise else
  if (255 <? self) || (self <? 1) then Raise else
  if negb (forallb (fun i => (0 <? i) && (i <? 256)) indexes) then Raise else
  let idx := firstn (Z.to_nat (zlen indexes mod 2 ^ 16)) indexes in
  let '(ret, z) := toprf_Evaluate R (share_of k) blinded self idx in
  get _ <- check ret ;; Ret (x00 :: filled z).

(** python/pyoprf/__init__.py:331-342 threshold_combine (the ValueError of line 332 is created but not raised) *)
Definition py_threshold_combine (R : ristretto) (responses : list bytes) : py bytes :=
  if negb (all_33 responses) then Raise else
  get (ret, r) <- of_res (thresholdcombine R (map part_of responses) (zeros 32)) ;;
  get _ <- check ret ;; Ret r.

(** python/pyoprf/__init__.py:349-370 _3hashtdh *)
Definition py_3hashtdh (R : ristretto) (H : hashes) (lk : bool) (k z alpha ssid : bytes) : py bytes :=
  if negb (zlen k =? 33) then Raise else
  if negb (zlen z =? 33) then Raise else
  if negb (zlen alpha =? 32) then Raise else
  if 2 ^ 16 - 1 <? zlen ssid then Raise else
  get (ret, (i, v)) <- of_res (toprf_3hashtdh R H lk (share_of k) (share_of z) alpha ssid) ;;
  get _ <- check ret ;; Ret (zb i :: filled v).

(** python/pyoprf/__init__.py:378-389 dkg_start: (commitments, shares); [a]: the coefficients drawn *)
Definition py_dkg_start (R : ristretto) (al : Z -> bool) (lk : bool) (a : list Z) (n t : Z) : py (bytes * list bytes) :=
  if n <? t then Raise else
  if t <? 2 then Raise else
  get _ <- alloc al (n * 33) ;;
  get _ <- alloc al (t * 32) ;;
  get cn <- c_u8 n ;; get ct <- c_u8 t ;;
  get (ret, cs, ss) <- of_res (dkg_start R lk cn ct a (repeat (zeros 32) (Z.to_nat t)) (repeat (mkShare 0 0) (Z.to_nat n))) ;;
  get _ <- check ret ;;
  Ret (concat cs, map share_bytes ss).

(** [k] consecutive records of 33 bytes as TOPRF_Shares *)
Definition shares_in (k : Z) (b : bytes) : list share :=
  map (fun i => share_of (firstn 33 (skipn (33 * i) b))) (seq 0 (Z.to_nat k)).
(** [n] consecutive rows of [t] commitments *)
Definition rows_in (n t : Z) (b : bytes) : list (list bytes) :=
  map (fun i => rows t (skipn (32 * Z.to_nat t * i) b)) (seq 0 (Z.to_nat n)).

(** python/pyoprf/__init__.py:398-419 dkg_verify_commitments; commitments are one byte string (a list
    would not be accepted by ctypes) *)
Definition py_dkg_verify_commitments (R : ristretto) (al : Z -> bool) (n t self : Z) (commitments : bytes)
    (shares : list bytes) : py bytes :=
  if n <? t then Raise else
  if t <? 2 then Raise else
  if (self <? 1) || (n <? self) then Raise else
  if negb (zlen commitments =? n * t * 32) then Raise else
  let flat := concat shares in
  if negb (zlen flat =? n * 33) then Raise else
  get _ <- alloc al n ;;
  get cn <- c_u8 n ;; get ct <- c_u8 t ;; get cself <- c_u8 self ;;
  get (ret, fails, fails_len) <- of_res (dkg_verify_commitments R cn cself (rows_in cn ct commitments) (shares_in cn flat)
                                          (repeat 0 (Z.to_nat n))) ;;
  get _ <- check ret ;;
  Ret (firstn (Z.to_nat fails_len) (map zb fails)).

(** python/pyoprf/__init__.py:425-438 dkg_finish; line 435 raises unless self fits a byte *)
Definition py_dkg_finish (n : Z) (shares : list bytes) (self : Z) : py bytes :=
  if (self <? 1) || (n <? self) then Raise else
  let flat := concat shares in
  if negb (zlen flat =? n * 33) then Raise else
  if 255 <? self then Raise else
  get cn <- c_u8 n ;;
  Ret (share_bytes (mkShare self (dkg_finish (shares_in cn flat)))).

(** python/pyoprf/__init__.py:443-449 dkg_reconstruct: no checks; the C code reads 33 bytes per response
    (fewer than 2^31 responses) *)
Definition py_dkg_reconstruct (responses : list bytes) : py bytes :=
  let b := concat responses ++ [x00] in
  if zlen b <? 33 * zlen responses then Bad else
  Ret (le_bytes 32 (dkg_reconstruct (shares_in (zlen responses) b))).

(** * Sessions with a trusted party *)
Section SESSION.
Variable C : crypto.

(** the number of records of [unit] bytes, at most [count], in [size] bytes *)
Definition room (size unit count : Z) : nat := Z.to_nat (if unit <=? 0 then count else Z.min count (size / unit)).
(** consecutive records of 32 bytes *)
Definition rows32 (count : nat) (b : bytes) : list bytes := map (fun i => firstn 32 (skipn (32 * i) b)) (seq 0 count).

(** python/pyoprf/__init__.py:546-552 and 650-656: the state is placed at b_addr + b_addr % 32 *)
Definition placed (addr : Z) : py unit := if (addr + addr mod 32) mod 32 =? 0 then Ret tt else Raise.

(** the zeroed state structure *)
Definition tp_zero : tp := mkTp 0 0 (zeros 32) 0 0 (zeros 32) (zeros 64) [] 0 [] [] [] [] [] 0 [] 0 [].

(** python/pyoprf/__init__.py:541-578 tpdkg_start_tp: (state, message 0).  [addr]: where the state
    buffer was allocated; [sid], [sk], [now], [now']: session id, key and times read by the C code.
    The buffers hold what room there is for the n and t the C code works with. *)
Definition py_start_tp (al : Z -> bool) (addr n t ts_epsilon : Z) (proto_name : bytes) (peer_lt_pks : list bytes)
    (sid sk : bytes) (now now' : Z) : py (tp * bytes) :=
  get _ <- placed addr ;;
  get eps <- c_u64 ts_epsilon ;; get cn <- c_u8 n ;; get ct <- c_u8 t ;;
  get (ret, c, msg) <- of_res (start_tp C tp_zero eps cn ct proto_name (zeros 177) sid sk now) ;;
  get _ <- check ret ;;
  get _ <- alloc al (n * 32) ;;
  get _ <- alloc al (n * t * 32) ;;
  get _ <- alloc al (n * n * 2) ;;
  get _ <- alloc al (n * n * 256) ;;
  get _ <- alloc al ((t * t - 1) * 16) ;;
  let lt := concat peer_lt_pks in
  get _ <- alloc al (n * 8) ;;
  Ret (tp_set_bufs c (repeat (repeat (zeros 32) (Z.to_nat ct)) (room (n * t * 32) (32 * ct) cn)) (n * n)
         (zeros (Z.to_nat (n * n * 256))) (t * t - 1)
         (repeat (zeros 32) (room (n * 32) 32 cn)) (rows32 (room (zlen lt + 1) 32 cn) lt) now', msg).

(** python/pyoprf/__init__.py:596-602 tpdkg_tp_next: the value returned (None: an exception), and the
    state after the call *)
Definition py_tp_next (al : Z -> bool) (e : env) (c : tp) (msg : bytes) : py (option bytes * tp) :=
  get isz <- of_res (tp_input_size c) ;;
  if negb (zlen msg =? isz) then Ret (None, c) else
  let osz := tp_output_size c in
  if negb (al osz) then Ret (None, c) else
  get (ret, c', out) <- of_res (tp_next C e c msg (zeros (Z.to_nat osz))) ;;
  Ret (if ret =? 0 then Some out else None, c').

(** python/pyoprf/__init__.py:605-610 tpdkg_tp_peer_msg *)
Definition py_tp_peer_msg (c : tp) (base : bytes) (peer : Z) : py bytes :=
  get cp <- c_u8 peer ;;
  let '(ret, m) := tp_peer_msg c (zlen base) cp in
  get _ <- check ret ;;
  match m with
  | None => Ret []
  | Some (off, len) => of_res (rd base off len)
  end.

(** python/pyoprf/__init__.py:613-614 tpdkg_tp_not_done *)
Definition py_tp_not_done (c : tp) : bool := tp_not_done c.

(** the zeroed state structure *)
Definition peer_zero : peer C :=
  mkPeer C 0 0 (zeros 32) 0 0 0 (zeros 64) (zeros 64) (zeros 32) (zeros 32) 0 [] 0 [] [] None [] [] [] [] [] [] 0 [] 0 [] (mkShare 0 0).

(** python/pyoprf/__init__.py:645-684 tpdkg_peer_start; the lengths of the key and of message 0 are not
    checked, the C code reads 64 and 177 bytes.  The two key buffers are zeroed here; in the code they
    start with a literal (lines 660, 661), which peer step 1 overwrites before it is read. *)
Definition py_start_peer (al : Z -> bool) (addr ts_epsilon : Z) (peer_lt_sk msg0 : bytes) (now : Z) : py (peer C) :=
  get _ <- placed addr ;;
  get eps <- c_u64 ts_epsilon ;;
  let sk := firstn 64 (peer_lt_sk ++ [x00]) in
  get (ret, c) <- of_res (start_peer C peer_zero eps sk (msg0 ++ [x00]) now) ;;
  get _ <- check ret ;;
  if zlen sk <? 64 then Bad else
  let n := p_n C c in let t := p_t C c in
  get _ <- alloc al (n * 32) ;;
  get _ <- alloc al (n * 33) ;;
  get _ <- alloc al (n * t * 32) ;;
  get _ <- alloc al (n * n * 2) ;;
  get _ <- alloc al (n * 8) ;;
  let k := Z.to_nat n in
  Ret (peer_set_bufs C c (repeat (zeros 32) k) (repeat (zeros 32) k) (repeat Null k) (repeat Null k)
         (repeat (mkShare 0 0) k) (repeat (mkShare 0 0) k) (repeat (repeat (zeros 32) (Z.to_nat t)) k) (n * n) n).

(** python/pyoprf/__init__.py:695-701 tpdkg_peer_next, like [py_tp_next] *)
Definition py_peer_next (al : Z -> bool) (e : penv) (c : peer C) (msg : bytes) : py (option bytes * peer C) :=
  if negb (zlen msg =? peer_input_size C c) then Ret (None, c) else
  let osz := peer_output_size C c in
  if negb (al osz) then Ret (None, c) else
  get (ret, c', out) <- of_res (peer_next C e c msg (zeros (Z.to_nat osz))) ;;
  Ret (if ret =? 0 then Some out else None, c').

(** python/pyoprf/__init__.py:704-705 tpdkg_peer_not_done *)
Definition py_peer_not_done (c : peer C) : bool := peer_not_done C c.
End SESSION.
