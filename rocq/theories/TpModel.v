(** Model of the trusted party of /repo/src/tp-dkg.c.

    Conventions.  [input] and [out] are the caller's buffers, their lengths are input_len and
    output_len; [out] holds whatever the caller left in it.  Offsets replace pointers.  A
    handler yields (return code, new state, new output buffer), or UB.  [env] gives the values
    of time(NULL) at the calls of recv_msg ([e_r]) and send_msg ([e_s]), numbered in the order
    the loop visits them, and whether log_file is set; output to the log is not modelled except
    where it can fail.  uint8_t loop counters i<n run over [zrange 0 n]: n is 8 bits wide and
    i<n fails before i wraps. *)
From Coq Require Import ZArith Lia List Bool.
From Coq.Strings Require Import Byte.
From Verif Require Import Bytes Res Mem Sodium ToprfModel DkgModel WireModel TpCrypto.
Import ListNotations.
Open Scope list_scope.
Open Scope Z_scope.

(** src/tp-dkg.h:189-195 TP_DKG_Cheater *)
Record cheater : Type := mkCheater { ch_step : Z; ch_error : Z; ch_peer : Z; ch_other : Z; ch_invalid : Z }.

(** src/tp-dkg.h:240-262 TP_DKG_TPState.  commitments[i*t .. i*t+t-1] is row i of [t_com];
    complaints[0..complaints_len-1] and cheaters[0..cheater_len-1] are lists whose length is
    complaints_len and cheater_len; [t_cmax] is the number of entries the caller's complaints
    buffer has (n*n according to the documentation, tp-dkg.h tpdkg_tp_set_bufs). *)
Record tp : Type := mkTp {
  t_step : Z; t_prev : Z; t_sid : bytes; t_n : Z; t_t : Z; t_pk : bytes; t_sk : bytes;
  t_last : list Z; t_eps : Z; t_pks : list bytes; t_lt : list bytes;
  t_com : list (list bytes); t_enc : bytes;
  t_complaints : list Z; t_cmax : Z;
  t_cheaters : list cheater; t_chmax : Z;
  t_transcript : bytes
}.

Definition tp_step_set (c : tp) (step prev : Z) : tp :=
  mkTp step prev (t_sid c) (t_n c) (t_t c) (t_pk c) (t_sk c) (t_last c) (t_eps c) (t_pks c) (t_lt c)
    (t_com c) (t_enc c) (t_complaints c) (t_cmax c) (t_cheaters c) (t_chmax c) (t_transcript c).
Definition tp_last_set (c : tp) (l : list Z) : tp :=
  mkTp (t_step c) (t_prev c) (t_sid c) (t_n c) (t_t c) (t_pk c) (t_sk c) l (t_eps c) (t_pks c) (t_lt c)
    (t_com c) (t_enc c) (t_complaints c) (t_cmax c) (t_cheaters c) (t_chmax c) (t_transcript c).
Definition tp_pks_set (c : tp) (l : list bytes) : tp :=
  mkTp (t_step c) (t_prev c) (t_sid c) (t_n c) (t_t c) (t_pk c) (t_sk c) (t_last c) (t_eps c) l (t_lt c)
    (t_com c) (t_enc c) (t_complaints c) (t_cmax c) (t_cheaters c) (t_chmax c) (t_transcript c).
Definition tp_com_set (c : tp) (l : list (list bytes)) : tp :=
  mkTp (t_step c) (t_prev c) (t_sid c) (t_n c) (t_t c) (t_pk c) (t_sk c) (t_last c) (t_eps c) (t_pks c) (t_lt c)
    l (t_enc c) (t_complaints c) (t_cmax c) (t_cheaters c) (t_chmax c) (t_transcript c).
Definition tp_enc_set (c : tp) (e : bytes) : tp :=
  mkTp (t_step c) (t_prev c) (t_sid c) (t_n c) (t_t c) (t_pk c) (t_sk c) (t_last c) (t_eps c) (t_pks c) (t_lt c)
    (t_com c) e (t_complaints c) (t_cmax c) (t_cheaters c) (t_chmax c) (t_transcript c).
Definition tp_complaints_set (c : tp) (l : list Z) : tp :=
  mkTp (t_step c) (t_prev c) (t_sid c) (t_n c) (t_t c) (t_pk c) (t_sk c) (t_last c) (t_eps c) (t_pks c) (t_lt c)
    (t_com c) (t_enc c) l (t_cmax c) (t_cheaters c) (t_chmax c) (t_transcript c).
Definition tp_cheaters_set (c : tp) (l : list cheater) : tp :=
  mkTp (t_step c) (t_prev c) (t_sid c) (t_n c) (t_t c) (t_pk c) (t_sk c) (t_last c) (t_eps c) (t_pks c) (t_lt c)
    (t_com c) (t_enc c) (t_complaints c) (t_cmax c) l (t_chmax c) (t_transcript c).
Definition tp_transcript_set (c : tp) (x : bytes) : tp :=
  mkTp (t_step c) (t_prev c) (t_sid c) (t_n c) (t_t c) (t_pk c) (t_sk c) (t_last c) (t_eps c) (t_pks c) (t_lt c)
    (t_com c) (t_enc c) (t_complaints c) (t_cmax c) (t_cheaters c) (t_chmax c) x.

Record env : Type := mkEnv { e_log : bool; e_r : Z -> Z; e_s : Z -> Z }.

Definition hres (st : Type) : Type := res (Z * st * bytes).

Definition ascii (l : list byte) : bytes := l.
(** "OK", "NO", "tp dkg session transcript", "TP DKG for protocol " *)
Definition str_OK : bytes := [x4f; x4b].
Definition str_NO : bytes := [x4e; x4f].
Definition str_transcript : bytes :=
  [x74; x70; x20; x64; x6b; x67; x20; x73; x65; x73; x73; x69; x6f; x6e; x20; x74; x72; x61; x6e; x73; x63; x72; x69; x70; x74].
Definition str_dst : bytes :=
  [x54; x50; x20; x44; x4b; x47; x20; x66; x6f; x72; x20; x70; x72; x6f; x74; x6f; x63; x6f; x6c; x20].

(** src/tp-dkg.c:367-375 add_cheater; None is NULL (list full) *)
Definition add_cheater (c : tp) (step error peer other : Z) : option tp :=
  if t_chmax c <=? zlen (t_cheaters c) then None
  else Some (tp_cheaters_set c (t_cheaters c ++ [mkCheater step error (u8 peer) (u8 other) 0])).

(** Section of the functions that need the primitives. *)
Section TP.
Variable C : crypto.
Let S := cS C.

(** recv_msg with &ctx->last_ts[i] *)
Definition tp_recv (c : tp) (buf : bytes) (off len msgno from to : Z) (pk : bytes) (i now : Z) : res (Z * tp) :=
  do last <- getz (t_last c) i ;;
  do (ret, last') <- recv_msg S buf off len msgno from to pk (t_sid c) (t_eps c) last now ;;
  do l <- updz (t_last c) i last' ;;
  Ok (ret, tp_last_set c l).

(** src/tp-dkg.c:604-623 tpdkg_tp_set_bufs and :625-681 tpdkg_start_tp.  [c] is the caller's
    state (its buffers set), [sid], [sk] the random session id and signing key.  The protocol
    name is given by its bytes. *)
Definition start_tp (c : tp) (ts_epsilon n t : Z) (proto_name : bytes) (msg0 : bytes) (sid sk : bytes) (now : Z)
    : hres tp :=
  if (n <? 2) || (n <=? t) || (128 <? n) then Ok (1, c, msg0) else
  if zlen proto_name <? 1 then Ok (2, c, msg0) else
  if 1024 <? zlen proto_name then Ok (3, c, msg0) else
  if negb (zlen msg0 =? msg0_SIZE) then Ok (4, c, msg0) else
  let dst := blake2b (cH C) 32 (be_bytes 2 (u16 (zlen proto_name) + 20) ++ str_dst ++ proto_name) in
  let pk := sig_pk S sk in
  do msg0 <- wr msg0 hdr_SIZE pk ;;
  do msg0 <- wr msg0 (hdr_SIZE + 32) dst ;;
  do msg0 <- wr msg0 (hdr_SIZE + 64) [zb n; zb t] ;;
  do msg0 <- send_msg S msg0 0 msg0_SIZE 0 0 255 sk sid now ;;
  Ok (0, mkTp 0 (t_prev c) sid n t pk sk (t_last c) ts_epsilon (t_pks c) (t_lt c) (t_com c) (t_enc c)
          [] (t_cmax c) [] (t_chmax c) (update_transcript str_transcript msg0), msg0).

(** src/tp-dkg.c:604-623 tpdkg_tp_set_bufs; the cheater list is zeroed, last_ts set to now *)
Definition tp_set_bufs (c : tp) (com : list (list bytes)) (cmax : Z) (enc : bytes) (chmax : Z)
    (pks lt : list bytes) (now : Z) : tp :=
  mkTp (t_step c) (t_prev c) (t_sid c) (t_n c) (t_t c) (t_pk c) (t_sk c)
    (repeat now (Z.to_nat (t_n c))) (t_eps c) pks lt com enc (t_complaints c) cmax (t_cheaters c) chmax (t_transcript c).

(** src/tp-dkg.c:727-743 tp_step1_handler.  The counter is a uint8_t compared with i<=n. *)
Definition tp_step1 (e : env) (c : tp) (input out : bytes) : hres tp :=
  if negb (zlen input =? 0) then Ok (1, c, out) else
  if negb (zlen out =? t_n c * msg1_SIZE) then Ok (2, c, out) else
  if 255 <=? t_n c then UB else
  do r <- loopM (fun i out =>
                   do out <- send_msg S out ((i - 1) * msg1_SIZE) hdr_SIZE 1 0 i (t_sk c) (t_sid c) (e_s e i) ;;
                   Ok (Next out))
                (zrange 1 (Z.to_nat (t_n c))) out ;;
  match r with Next out => Ok (0, c, out) | Return code out => Ok (code, c, out) end.

(** src/tp-dkg.c:793-815, one iteration; [w] is wptr - msg3_buf *)
Definition tp_step4_body (e : env) (input : bytes) (i : Z) (s : tp * bytes * Z) : res (ctl (tp * bytes * Z)) :=
  let '(c, out, w) := s in
  let p := i * (msg2_SIZE + sign_BYTES) in
  do ltsig <- rd input (p + msg2_SIZE) sign_BYTES ;;
  do m <- rd input p msg2_SIZE ;;
  do lt <- getz (t_lt c) i ;;
  if negb (sig_verify S lt m ltsig) then Ok (Return 3 s) else
  do pk <- rd input (p + hdr_SIZE) 32 ;;
  do (ret, c) <- tp_recv c input p msg2_SIZE 2 (i + 1) 255 pk i (e_r e i) ;;
  if negb (ret =? 0) then
    match add_cheater c 4 (64 + ret) (i + 1) 255 with
    | None => Ok (Return 7 (c, out, w))
    | Some c => Ok (Next (c, out, w))
    end
  else
  do pks <- updz (t_pks c) i pk ;;
  do out <- wr out w m ;;
  Ok (Next (tp_pks_set c pks, out, w + msg2_SIZE)).

(** src/tp-dkg.c:786-821 tp_step4_handler *)
Definition tp_step4 (e : env) (c : tp) (input out : bytes) : hres tp :=
  if negb ((msg2_SIZE + sign_BYTES) * t_n c =? zlen input) then Ok (1, c, out) else
  if negb (zlen out =? msg2_SIZE * t_n c + hdr_SIZE) then Ok (2, c, out) else
  do r <- loopM (tp_step4_body e input) (zrange 0 (Z.to_nat (t_n c))) (c, out, hdr_SIZE) ;;
  match r with
  | Return code (c, out, _) => Ok (code, c, out)
  | Next (c, out, _) =>
      if 0 <? zlen (t_cheaters c) then Ok (6, c, out) else
      do out <- send_msg S out 0 (zlen out) 3 0 255 (t_sk c) (t_sid c) (e_s e 0) ;;
      Ok (0, tp_transcript_set c (update_transcript (t_transcript c) out), out)
  end.

(** src/tp-dkg.c:879-895, the body for (i,j), k = i*n+j; [w] is wptr - output.  On a rejected
    message line 888 writes to log_file without testing it for NULL. *)
Definition tp_step68_body (e : env) (input : bytes) (k : Z) (s : tp * bytes * Z) : res (ctl (tp * bytes * Z)) :=
  let '(c, out, w) := s in
  let i := k / t_n c in let j := k mod t_n c in
  let p := (j * t_n c + i) * msg4_SIZE in
  do pk <- getz (t_pks c) j ;;
  do (ret, c) <- tp_recv c input p msg4_SIZE (u8 (2 + t_step c)) (j + 1) (i + 1) pk j (e_r e k) ;;
  if negb (ret =? 0) then
    match add_cheater c (6 + (t_step c - 1) * 2) (64 + ret) (j + 1) (i + 1) with
    | None => Ok (Return 7 (c, out, w))
    | Some c => if e_log e then Ok (Next (c, out, w)) else UB
    end
  else
  do m <- rd input p msg4_SIZE ;;
  do out <- wr out w m ;;
  Ok (Next (c, out, w + msg4_SIZE)).

(** src/tp-dkg.c:871-899 tp_step68_handler.  The test of msg4_SIZE against msg5_SIZE compares
    two equal constants. *)
Definition tp_step68 (e : env) (c : tp) (input out : bytes) : hres tp :=
  if negb (zlen input =? msg4_SIZE * t_n c * t_n c) then Ok (1, c, out) else
  if negb (zlen input =? zlen out) then Ok (2, c, out) else
  do r <- loopM (tp_step68_body e input) (zrange 0 (Z.to_nat (t_n c * t_n c))) (c, out, 0) ;;
  match r with
  | Return code (c, out, _) => Ok (code, c, out)
  | Next (c, out, _) => Ok (if 0 <? zlen (t_cheaters c) then 6 else 0, c, out)
  end.

(** the t commitments of 32 bytes each in a message body *)
Definition rows (t : Z) (data : bytes) : list bytes :=
  map (fun k => firstn 32 (skipn (32 * k) data)) (seq 0 (Z.to_nat t)).

(** src/tp-dkg.c:972-990 *)
Definition tp_step12_body (e : env) (input : bytes) (i : Z) (s : tp * bytes * Z) : res (ctl (tp * bytes * Z)) :=
  let '(c, out, w) := s in
  let p := i * msg6_SIZE (t_t c) in
  do pk <- getz (t_pks c) i ;;
  do (ret, c) <- tp_recv c input p (msg6_SIZE (t_t c)) 6 (i + 1) 255 pk i (e_r e i) ;;
  if negb (ret =? 0) then
    match add_cheater c 12 (64 + ret) (i + 1) 255 with
    | None => Ok (Return 7 (c, out, w))
    | Some c => Ok (Next (c, out, w))
    end
  else
  do data <- rd input (p + hdr_SIZE) (32 * t_t c) ;;
  do com <- updz (t_com c) i (rows (t_t c) data) ;;
  do m <- rd input p (msg6_SIZE (t_t c)) ;;
  do out <- wr out w m ;;
  Ok (Next (tp_com_set c com, out, w + msg6_SIZE (t_t c))).

(** src/tp-dkg.c:965-1005 tp_step12_handler *)
Definition tp_step12 (e : env) (c : tp) (input out : bytes) : hres tp :=
  if negb (msg6_SIZE (t_t c) * t_n c =? zlen input) then Ok (1, c, out) else
  if negb (zlen out =? hdr_SIZE + zlen input) then Ok (2, c, out) else
  do r <- loopM (tp_step12_body e input) (zrange 0 (Z.to_nat (t_n c))) (c, out, hdr_SIZE) ;;
  match r with
  | Return code (c, out, _) => Ok (code, c, out)
  | Next (c, out, _) =>
      if 0 <? zlen (t_cheaters c) then Ok (6, c, out) else
      do out <- send_msg S out 0 (zlen out) 7 0 255 (t_sk c) (t_sid c) (e_s e 0) ;;
      Ok (0, tp_transcript_set c (update_transcript (t_transcript c) out), out)
  end.

(** src/tp-dkg.c:1085-1101, the body for (i,j), k = i*n+j *)
Definition tp_step14_body (e : env) (input : bytes) (k : Z) (s : tp * bytes * Z) : res (ctl (tp * bytes * Z)) :=
  let '(c, out, w) := s in
  let i := k / t_n c in let j := k mod t_n c in
  let p := (j * t_n c + i) * msg8_SIZE in
  do pk <- getz (t_pks c) j ;;
  do (ret, c) <- tp_recv c input p msg8_SIZE 8 (j + 1) (i + 1) pk j (e_r e k) ;;
  if negb (ret =? 0) then
    match add_cheater c 14 (64 + ret) (j + 1) (i + 1) with
    | None => Ok (Return 7 (c, out, w))
    | Some c => Ok (Next (c, out, w))
    end
  else
  do m <- rd input p msg8_SIZE ;;
  do out <- wr out w m ;;
  Ok (Next (c, out, w + msg8_SIZE)).

(** src/tp-dkg.c:1078-1108 tp_step14_handler *)
Definition tp_step14 (e : env) (c : tp) (input out : bytes) : hres tp :=
  if negb (zlen input =? msg8_SIZE * t_n c * t_n c) then Ok (1, c, out) else
  if negb (zlen input =? zlen out) then Ok (2, c, out) else
  do r <- loopM (tp_step14_body e input) (zrange 0 (Z.to_nat (t_n c * t_n c))) (c, out, 0) ;;
  match r with
  | Return code (c, out, _) => Ok (code, c, out)
  | Next (c, out, _) =>
      if 0 <? zlen (t_cheaters c) then Ok (6, c, out) else
      do enc <- wr (t_enc c) 0 input ;;
      Ok (0, tp_enc_set c enc, out)
  end.

(** a complaint pair (complainer, accused) as stored in 16 bits *)
Definition pair16 (complainer accused : Z) : Z := u16 (complainer * 256 + accused).

(** src/tp-dkg.c:1204-1222, complaint k of peer i; [p] is the offset of peer i's message.  The
    loop condition (k+1) < msg->len - sizeof(TP_DKG_Message) uses msg->len in network byte order
    as read on a little endian host; once false it stays false, so it is tested in the body. *)
Definition tp_step16_complaint (input : bytes) (p i lim k : Z) (c : tp) : res (ctl tp) :=
  if negb (k + 1 <? lim) then Ok (Next c) else
  do d <- getz input (p + hdr_SIZE + (k + 1)) ;;
  let accused := bz d in
  if (t_n c <? accused) || (accused <? 1) then
    match add_cheater c 16 7 (i + 1) accused with
    | None => Ok (Return 6 c)
    | Some c => Ok (Next c)
    end
  else
  let pair := pair16 (i + 1) accused in
  if existsb (Z.eqb pair) (t_complaints c) then
    match add_cheater c 16 8 (i + 1) accused with
    | None => Ok (Return 6 c)
    | Some c => Ok (Next c)
    end
  else
  if zlen (t_complaints c) <? t_cmax c then Ok (Next (tp_complaints_set c (t_complaints c ++ [pair]))) else UB.

(** src/tp-dkg.c:1189-1226 *)
Definition tp_step16_body (e : env) (input : bytes) (i : Z) (s : tp * bytes * Z) : res (ctl (tp * bytes * Z)) :=
  let '(c, out, w) := s in
  let p := i * msg9_SIZE (t_n c) in
  do pk <- getz (t_pks c) i ;;
  do (ret, c) <- tp_recv c input p (msg9_SIZE (t_n c)) 9 (i + 1) 255 pk i (e_r e i) ;;
  if negb (ret =? 0) then
    match add_cheater c 16 (64 + ret) (i + 1) 255 with
    | None => Ok (Return 6 (c, out, w))
    | Some c => Ok (Next (c, out, w))
    end
  else
  do flen <- rd input (p + off_len) 4 ;;
  do d0 <- getz input (p + hdr_SIZE) ;;
  let lim := u64 (of_le flen - hdr_SIZE) in
  if lim <? bz d0 then Ok (Return 4 (c, out, w)) else
  do r <- loopM (tp_step16_complaint input p i lim) (zrange 0 (Z.to_nat (bz d0))) c ;;
  match r with
  | Return code c => Ok (Return code (c, out, w))
  | Next c =>
      do m <- rd input p (msg9_SIZE (t_n c)) ;;
      do out <- wr out w m ;;
      Ok (Next (c, out, w + msg9_SIZE (t_n c)))
  end.

(** src/tp-dkg.c:1178-1244 tp_step16_handler *)
Definition tp_step16 (e : env) (c : tp) (input out : bytes) : hres tp :=
  if negb (msg9_SIZE (t_n c) * t_n c =? zlen input) then Ok (1, c, out) else
  if negb (zlen out =? msg10_SIZE (t_n c)) then Ok (2, c, out) else
  do r <- loopM (tp_step16_body e input) (zrange 0 (Z.to_nat (t_n c))) (tp_complaints_set c [], out, hdr_SIZE) ;;
  match r with
  | Return code (c, out, _) => Ok (code, c, out)
  | Next (c, out, _) =>
      if t_t c * t_t c <=? zlen (t_complaints c) then
        match add_cheater c 16 6 254 254 with
        | None => Ok (6, c, out)
        | Some c => Ok (5, c, out)
        end
      else
      if 0 <? zlen (t_cheaters c) then Ok (5, c, out) else
      do out <- send_msg S out 0 (zlen out) 10 0 255 (t_sk c) (t_sid c) (e_s e 0) ;;
      Ok (0, tp_transcript_set c (update_transcript (t_transcript c) out), out)
  end.

(** src/tp-dkg.c:409-410 and 1340-1346: complaints per accused; [w] bounds the counter *)
Definition count_complaints (w : Z) (n : Z) (complaints : list Z) : res (list Z) :=
  foldM (fun x ctr => let a := u8 x - 1 in do v <- getz ctr a ;; updz ctr a ((v + 1) mod w))
        complaints (repeat 0 (Z.to_nat n)).

(** src/tp-dkg.c:395-429 tpdkg_tp_input_sizes: (return value, sizes).  The counters of step 7
    are uint8_t. *)
Definition tp_input_sizes (c : tp) : res (Z * list Z) :=
  let all item := Ok (1, repeat item (Z.to_nat (t_n c))) in
  match t_step c with
  | 0 => all 0
  | 1 => all (msg2_SIZE + sign_BYTES)
  | 2 => all (msg4_SIZE * t_n c)
  | 3 => all (msg4_SIZE * t_n c)
  | 4 => all (msg6_SIZE (t_t c))
  | 5 => all (t_n c * msg8_SIZE)
  | 6 => all (msg9_SIZE (t_n c))
  | 7 => do ctr <- count_complaints 256 (t_n c) (t_complaints c) ;;
         Ok (0, map (fun k => if 0 <? k then hdr_SIZE + (1 + noise_key_SIZE) * k else 0) ctr)
  | 8 => all msg19_SIZE
  | 9 => all msg21_SIZE
  | _ => all 0
  end.

(** src/tp-dkg.c:383-393 tpdkg_tp_input_size *)
Definition tp_input_size (c : tp) : res Z :=
  do (one, sizes) <- tp_input_sizes c ;;
  if one =? 1 then do s0 <- getz sizes 0 ;; Ok (s0 * t_n c)
  else Ok (fold_left Z.add sizes 0).

(** src/tp-dkg.c:431-446 tpdkg_tp_output_size *)
Definition tp_output_size (c : tp) : Z :=
  match t_step c with
  | 0 => t_n c * msg1_SIZE
  | 1 => msg2_SIZE * t_n c + hdr_SIZE
  | 2 => msg4_SIZE * t_n c * t_n c
  | 3 => msg5_SIZE * t_n c * t_n c
  | 4 => hdr_SIZE + msg6_SIZE (t_t c) * t_n c
  | 5 => t_n c * t_n c * msg8_SIZE
  | 6 => msg10_SIZE (t_n c)
  | 7 => 0
  | 8 => msg20_SIZE
  | 9 => 0
  | _ => 0
  end.

(** src/tp-dkg.c:448-514 tpdkg_tp_peer_msg: (return value, offset of the message in the output
    buffer or None for NULL, its length).  On the error returns -1 and 1 nothing is written. *)
Definition tp_peer_msg (c : tp) (base_size peer : Z) : Z * option (Z * Z) :=
  let n := t_n c in
  if n <=? peer then (-1, None) else
  let slice off len := if base_size <? off + len then (2, Some (off, len)) else (0, Some (off, len)) in
  match t_prev c with
  | 0 => slice (peer * msg1_SIZE) msg1_SIZE
  | 1 => slice 0 (msg2_SIZE * n + hdr_SIZE)
  | 2 => slice (peer * msg4_SIZE * n) (msg4_SIZE * n)
  | 3 => slice (peer * msg5_SIZE * n) (msg5_SIZE * n)
  | 4 => slice 0 (hdr_SIZE + msg6_SIZE (t_t c) * n)
  | 5 => slice (peer * n * msg8_SIZE) (n * msg8_SIZE)
  | 6 => slice 0 (msg10_SIZE n)
  | 7 => (0, None)
  | 8 => slice 0 msg20_SIZE
  | 9 => (0, None)
  | _ => (1, None)
  end.

(** TOPRF_Share as 33 bytes *)
Definition share_of (b : bytes) : share :=
  match b with [] => mkShare 0 0 | i :: v => mkShare (bz i) (of_le v) end.
Definition share_bytes (s : share) : bytes := zb (s_index s) :: le_bytes 32 (s_value s).

(** src/tp-dkg.c:1380-1385: position of the pair in the working copy of the complaints *)
Fixpoint find_pair (x : Z) (l : list Z) (j : Z) : option Z :=
  match l with [] => None | y :: l' => if y =? x then Some j else find_pair x l' (j + 1) end.

(** src/tp-dkg.c:1372-1463: key k revealed by peer i; [kp] is the offset of the entry, [cs] the
    working copy of the complaints.  The message was accepted with sender i+1, so accused = i+1. *)
Definition tp_step18_key (e : env) (input : bytes) (p i k : Z) (s : tp * list Z) : res (ctl (tp * list Z)) :=
  let '(c, cs) := s in
  let kp := p + hdr_SIZE + (1 + noise_key_SIZE) * k in
  do b <- getz input kp ;;
  let complainer := bz b in
  do f <- getz input (p + off_from) ;;
  let accused := bz f in
  let blame c error other :=
    match add_cheater c 18 error accused other with
    | None => Ok (Return 4 (c, cs))
    | Some c => Ok (Next (c, cs))
    end in
  match find_pair (complainer * 256 + accused) cs 0 with
  | None => blame c 6 complainer
  | Some j =>
      do cs <- updz cs j 65535 ;;
      let blame c error other :=
        match add_cheater c 18 error accused other with
        | None => Ok (Return 4 (c, cs))
        | Some c => Ok (Next (c, cs))
        end in
      let m8 := ((accused - 1) * t_n c + (complainer - 1)) * msg8_SIZE in
      do tsb <- rd (t_enc c) (m8 + off_ts) 8 ;;
      do pk <- getz (t_pks c) (accused - 1) ;;
      do (ret, _) <- recv_msg S (t_enc c) m8 msg8_SIZE 8 accused complainer pk (t_sid c) (t_eps c)
                       (ntohll (of_le tsb)) (e_r e (t_n c + i * 256 + k)) ;;
      if negb (ret =? 0) then blame c (16 + ret) complainer else
      do key <- rd input (kp + 1) noise_key_SIZE ;;
      let d := m8 + hdr_SIZE + hs3_SIZE in
      do mac <- rd (t_enc c) (d + share_SIZE + mac_SIZE) hmac_SIZE ;;
      do ct <- rd (t_enc c) d (share_SIZE + mac_SIZE) ;;
      if negb (bytes_eqb mac (c_auth C key ct)) then blame c 3 complainer else
      match nz_aead_decrypt (cN C) key ct with
      | None => blame c 4 complainer
      | Some pt =>
          let sh := share_of pt in
          if negb (s_index sh =? complainer) then
            match add_cheater c 18 5 accused complainer with
            | None => Ok (Return 4 (c, cs))
            | Some c =>
                do last <- getz (t_cheaters c) (zlen (t_cheaters c) - 1) ;;
                do chs <- updz (t_cheaters c) (zlen (t_cheaters c) - 1)
                            (mkCheater (ch_step last) (ch_error last) (ch_peer last) (ch_other last) (s_index sh)) ;;
                Ok (Next (tp_cheaters_set c chs, cs))
            end
          else
          do row <- getz (t_com c) (accused - 1) ;;
          do ret <- dkg_verify_commitment (cR C) (s_index sh) accused row sh ;;
          blame c (128 + ret) complainer
      end
  end.

(** src/tp-dkg.c:1350-1466; [p] is ptr - input *)
Definition tp_step18_body (e : env) (input : bytes) (ctr : list Z) (i : Z) (s : tp * list Z * Z)
    : res (ctl (tp * list Z * Z)) :=
  let '(c, cs, p) := s in
  do k <- getz ctr i ;;
  if k =? 0 then Ok (Next (c, cs, p)) else
  let msg_len := hdr_SIZE + (1 + noise_key_SIZE) * k in
  do pk <- getz (t_pks c) i ;;
  do (ret, c) <- tp_recv c input p msg_len 11 (i + 1) 0 pk i (e_r e i) ;;
  if negb (ret =? 0) then
    match add_cheater c 18 (32 + ret) (i + 1) 254 with
    | None => Ok (Return 4 (c, cs, p))
    | Some c => Ok (Next (c, cs, p + msg_len))
    end
  else
  do r <- loopM (tp_step18_key e input p i) (zrange 0 (Z.to_nat k)) (c, cs) ;;
  match r with
  | Return code (c, cs) => Ok (Return code (c, cs, p))
  | Next (c, cs) => Ok (Next (c, cs, p + msg_len))
  end.

(** src/tp-dkg.c:1469-1473 *)
Definition tp_step18_unanswered (x : Z) (c : tp) : res (ctl tp) :=
  if x =? 65535 then Ok (Next c) else
  match add_cheater c 18 7 (x / 256) (u8 x) with
  | None => Ok (Return 4 c)
  | Some c => Ok (Next c)
  end.

(** src/tp-dkg.c:1335-1483 tp_step18_handler *)
Definition tp_step18 (e : env) (c : tp) (input out : bytes) : hres tp :=
  do isz <- tp_input_size c ;;
  if negb (zlen input =? isz) then Ok (1, c, out) else
  if negb (zlen out =? 0) then Ok (2, c, out) else
  do ctr <- count_complaints (2 ^ 32) (t_n c) (t_complaints c) ;;
  do r <- loopM (tp_step18_body e input ctr) (zrange 0 (Z.to_nat (t_n c))) (c, t_complaints c, 0) ;;
  match r with
  | Return code (c, _, _) => Ok (code, c, out)
  | Next (c, cs, _) =>
      do r <- loopM tp_step18_unanswered cs c ;;
      match r with
      | Return code c => Ok (code, c, out)
      | Next c => Ok (3, tp_step_set c 99 (t_prev c), out)
      end
  end.

(** src/tp-dkg.c:1512-1533 *)
Definition tp_step20_body (e : env) (input hash : bytes) (i : Z) (s : tp * bytes) : res (ctl (tp * bytes)) :=
  let '(c, out) := s in
  let p := i * msg19_SIZE in
  do pk <- getz (t_pks c) i ;;
  do (ret, c) <- tp_recv c input p msg19_SIZE 20 (i + 1) 0 pk i (e_r e i) ;;
  if negb (ret =? 0) then
    match add_cheater c 20 (1 + ret) (i + 1) 0 with
    | None => Ok (Return 4 (c, out))
    | Some c => do out <- wr out hdr_SIZE str_NO ;; Ok (Next (c, out))
    end
  else
  do d <- rd input (p + hdr_SIZE) 32 ;;
  if negb (bytes_eqb hash d) then
    match add_cheater c 20 1 (i + 1) 0 with
    | None => Ok (Return 4 (c, out))
    | Some c => do out <- wr out hdr_SIZE str_NO ;; Ok (Next (c, out))
    end
  else Ok (Next (c, out)).

(** src/tp-dkg.c:1501-1546 tp_step20_handler *)
Definition tp_step20 (e : env) (c : tp) (input out : bytes) : hres tp :=
  if negb (msg19_SIZE * t_n c =? zlen input) then Ok (1, c, out) else
  if negb (zlen out =? msg20_SIZE) then Ok (2, c, out) else
  let hash := blake2b (cH C) 32 (t_transcript c) in
  do out <- wr out hdr_SIZE str_OK ;;
  do r <- loopM (tp_step20_body e input hash) (zrange 0 (Z.to_nat (t_n c))) (c, out) ;;
  match r with
  | Return code (c, out) => Ok (code, c, out)
  | Next (c, out) =>
      do out <- send_msg S out 0 (zlen out) 21 0 255 (t_sk c) (t_sid c) (e_s e 0) ;;
      if zlen (t_cheaters c) =? 0 then Ok (0, c, out)
      else Ok (3, tp_step_set c 99 (t_prev c), out)
  end.

(** src/tp-dkg.c:1586-1602; an acknowledgement other than "OK" is only logged *)
Definition tp_step22_body (e : env) (input : bytes) (i : Z) (c : tp) : res (ctl tp) :=
  let p := i * msg21_SIZE in
  do pk <- getz (t_pks c) i ;;
  do (ret, c) <- tp_recv c input p msg21_SIZE 22 (i + 1) 0 pk i (e_r e i) ;;
  if negb (ret =? 0) then
    match add_cheater c 22 (64 + ret) (i + 1) 0 with
    | None => Ok (Return 6 c)
    | Some c => Ok (Next c)
    end
  else
  do d <- rd input (p + hdr_SIZE) 2 ;;
  Ok (Next c).

(** src/tp-dkg.c:1579-1607 tp_step22_handler *)
Definition tp_step22 (e : env) (c : tp) (input out : bytes) : hres tp :=
  if negb (msg21_SIZE * t_n c =? zlen input) then Ok (1, c, out) else
  if negb (zlen out =? 0) then Ok (2, c, out) else
  do r <- loopM (tp_step22_body e input) (zrange 0 (Z.to_nat (t_n c))) c ;;
  match r with
  | Return code c => Ok (code, c, out)
  | Next c => Ok (if 0 <? zlen (t_cheaters c) then 5 else 0, c, out)
  end.

(** src/tp-dkg.c:1636-1638: end of tpdkg_tp_next *)
Definition tp_finish_step (r : hres tp) : hres tp :=
  do (ret, c, out) <- r ;;
  Ok (ret, tp_step_set c (if ret =? 0 then t_step c + 1 else 99) (t_step c), out).

(** src/tp-dkg.c:1609-1639 tpdkg_tp_next *)
Definition tp_next (e : env) (c : tp) (input out : bytes) : hres tp :=
  match t_step c with
  | 0 => tp_finish_step (tp_step1 e c input out)
  | 1 => tp_finish_step (tp_step4 e c input out)
  | 2 => tp_finish_step (tp_step68 e c input out)
  | 3 => tp_finish_step (tp_step68 e c input out)
  | 4 => tp_finish_step (tp_step12 e c input out)
  | 5 => tp_finish_step (tp_step14 e c input out)
  | 6 => do (ret, c, out) <- tp_step16 e c input out ;;
         Ok (ret, tp_step_set c (t_step c + (if zlen (t_complaints c) =? 0 then 2 else 1)) (t_step c), out)
  | 7 => tp_finish_step (tp_step18 e c input out)
  | 8 => tp_finish_step (tp_step20 e c input out)
  | 9 => tp_finish_step (tp_step22 e c input out)
  | _ => Ok (99, c, out)
  end.

(** src/tp-dkg.c:588-590 tpdkg_tp_not_done *)
Definition tp_not_done (c : tp) : bool := t_step c <? 10.

End TP.
