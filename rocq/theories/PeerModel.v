(** Model of the peers of /repo/src/tp-dkg.c.  Conventions as in TpModel.v. *)
From Coq Require Import ZArith Lia List Bool.
From Coq.Strings Require Import Byte.
From Verif Require Import Bytes Res Mem Sodium ToprfModel DkgModel WireModel TpCrypto TpModel.
Import ListNotations.
Open Scope list_scope.
Open Scope Z_scope.

(** What a Noise_XK_session_t* variable of the caller's noise_outs / noise_ins arrays holds:
    the caller's uninitialised value, NULL, a live session, or a pointer to a freed session. *)
Inductive slot (A : Type) : Type := Uninit | Null | Live (s : A) | Freed.
Arguments Uninit {A}.
Arguments Null {A}.
Arguments Live {A} s.
Arguments Freed {A}.

(** What the environment supplies to one call of a peer function: log_file set, the clock
    readings of recv_msg and send_msg, the random session keys (signing, noise), the randomness
    of the noise sessions, whether sodium_mlock succeeds and the random polynomial of dkg_start. *)
Record penv : Type := mkPenv {
  pe_log : bool; pe_r : Z -> Z; pe_s : Z -> Z; pe_sk : bytes; pe_nsk : bytes;
  pe_ri : Z -> bytes; pe_rr : Z -> bytes; pe_lock : bool; pe_a : list Z
}.

Section PEER.
Variable C : crypto.
Let S := cS C.
Let N := cN C.

(** src/tp-dkg.h:144-174 TP_DKG_PeerState.  sig_pk and noise_pk are computed from sig_sk and
    noise_sk where used; complaints[0..complaints_len-1] and my_complaints[0..my_complaints_len-1]
    are lists, [p_cmax] and [p_mymax] the number of entries the caller's buffers have. *)
Record peer : Type := mkPeer {
  p_step : Z;
  p_prev : Z;
  p_sid : bytes;
  p_n : Z;
  p_t : Z;
  p_index : Z;
  p_lt_sk : bytes;
  p_sk : bytes;
  p_noise_sk : bytes;
  p_tp_pk : bytes;
  p_tp_last : Z;
  p_last : list Z;
  p_eps : Z;
  p_pks : list bytes;
  p_npks : list bytes;
  p_dev : option (nz_dev (cN C));
  p_outs : list (slot (nz_sess (cN C)));
  p_ins : list (slot (nz_sess (cN C)));
  p_com : list (list bytes);
  p_shares : list share;
  p_xshares : list share;
  p_complaints : list Z;
  p_cmax : Z;
  p_my : list Z;
  p_mymax : Z;
  p_transcript : bytes;
  p_share : share
}.

Definition peer_step_set (c : peer) (x_step : Z) (x_prev : Z) : peer :=
  mkPeer x_step x_prev (p_sid c) (p_n c) (p_t c) (p_index c) (p_lt_sk c) (p_sk c) (p_noise_sk c) (p_tp_pk c)
    (p_tp_last c) (p_last c) (p_eps c) (p_pks c) (p_npks c) (p_dev c) (p_outs c) (p_ins c) (p_com c) (p_shares
    c) (p_xshares c) (p_complaints c) (p_cmax c) (p_my c) (p_mymax c) (p_transcript c) (p_share c).

Definition peer_tp_last_set (c : peer) (x_tp_last : Z) : peer :=
  mkPeer (p_step c) (p_prev c) (p_sid c) (p_n c) (p_t c) (p_index c) (p_lt_sk c) (p_sk c) (p_noise_sk c)
    (p_tp_pk c) x_tp_last (p_last c) (p_eps c) (p_pks c) (p_npks c) (p_dev c) (p_outs c) (p_ins c) (p_com c)
    (p_shares c) (p_xshares c) (p_complaints c) (p_cmax c) (p_my c) (p_mymax c) (p_transcript c) (p_share c).

Definition peer_last_set (c : peer) (x_last : list Z) : peer :=
  mkPeer (p_step c) (p_prev c) (p_sid c) (p_n c) (p_t c) (p_index c) (p_lt_sk c) (p_sk c) (p_noise_sk c)
    (p_tp_pk c) (p_tp_last c) x_last (p_eps c) (p_pks c) (p_npks c) (p_dev c) (p_outs c) (p_ins c) (p_com c)
    (p_shares c) (p_xshares c) (p_complaints c) (p_cmax c) (p_my c) (p_mymax c) (p_transcript c) (p_share c).

Definition peer_keys_set (c : peer) (x_index : Z) (x_sk : bytes) (x_noise_sk : bytes) (x_lt_sk : bytes) : peer :=
  mkPeer (p_step c) (p_prev c) (p_sid c) (p_n c) (p_t c) x_index x_lt_sk x_sk x_noise_sk (p_tp_pk c)
    (p_tp_last c) (p_last c) (p_eps c) (p_pks c) (p_npks c) (p_dev c) (p_outs c) (p_ins c) (p_com c) (p_shares
    c) (p_xshares c) (p_complaints c) (p_cmax c) (p_my c) (p_mymax c) (p_transcript c) (p_share c).

Definition peer_dev_set (c : peer) (x_dev : option (nz_dev (cN C))) : peer :=
  mkPeer (p_step c) (p_prev c) (p_sid c) (p_n c) (p_t c) (p_index c) (p_lt_sk c) (p_sk c) (p_noise_sk c)
    (p_tp_pk c) (p_tp_last c) (p_last c) (p_eps c) (p_pks c) (p_npks c) x_dev (p_outs c) (p_ins c) (p_com c)
    (p_shares c) (p_xshares c) (p_complaints c) (p_cmax c) (p_my c) (p_mymax c) (p_transcript c) (p_share c).

Definition peer_pk_set (c : peer) (x_pks : list bytes) (x_npks : list bytes) : peer :=
  mkPeer (p_step c) (p_prev c) (p_sid c) (p_n c) (p_t c) (p_index c) (p_lt_sk c) (p_sk c) (p_noise_sk c)
    (p_tp_pk c) (p_tp_last c) (p_last c) (p_eps c) x_pks x_npks (p_dev c) (p_outs c) (p_ins c) (p_com c)
    (p_shares c) (p_xshares c) (p_complaints c) (p_cmax c) (p_my c) (p_mymax c) (p_transcript c) (p_share c).

Definition peer_outs_set (c : peer) (x_outs : list (slot (nz_sess (cN C)))) : peer :=
  mkPeer (p_step c) (p_prev c) (p_sid c) (p_n c) (p_t c) (p_index c) (p_lt_sk c) (p_sk c) (p_noise_sk c)
    (p_tp_pk c) (p_tp_last c) (p_last c) (p_eps c) (p_pks c) (p_npks c) (p_dev c) x_outs (p_ins c) (p_com c)
    (p_shares c) (p_xshares c) (p_complaints c) (p_cmax c) (p_my c) (p_mymax c) (p_transcript c) (p_share c).

Definition peer_ins_set (c : peer) (x_ins : list (slot (nz_sess (cN C)))) : peer :=
  mkPeer (p_step c) (p_prev c) (p_sid c) (p_n c) (p_t c) (p_index c) (p_lt_sk c) (p_sk c) (p_noise_sk c)
    (p_tp_pk c) (p_tp_last c) (p_last c) (p_eps c) (p_pks c) (p_npks c) (p_dev c) (p_outs c) x_ins (p_com c)
    (p_shares c) (p_xshares c) (p_complaints c) (p_cmax c) (p_my c) (p_mymax c) (p_transcript c) (p_share c).

Definition peer_com_set (c : peer) (x_com : list (list bytes)) : peer :=
  mkPeer (p_step c) (p_prev c) (p_sid c) (p_n c) (p_t c) (p_index c) (p_lt_sk c) (p_sk c) (p_noise_sk c)
    (p_tp_pk c) (p_tp_last c) (p_last c) (p_eps c) (p_pks c) (p_npks c) (p_dev c) (p_outs c) (p_ins c) x_com
    (p_shares c) (p_xshares c) (p_complaints c) (p_cmax c) (p_my c) (p_mymax c) (p_transcript c) (p_share c).

Definition peer_shares_set (c : peer) (x_shares : list share) : peer :=
  mkPeer (p_step c) (p_prev c) (p_sid c) (p_n c) (p_t c) (p_index c) (p_lt_sk c) (p_sk c) (p_noise_sk c)
    (p_tp_pk c) (p_tp_last c) (p_last c) (p_eps c) (p_pks c) (p_npks c) (p_dev c) (p_outs c) (p_ins c) (p_com
    c) x_shares (p_xshares c) (p_complaints c) (p_cmax c) (p_my c) (p_mymax c) (p_transcript c) (p_share c).

Definition peer_xshares_set (c : peer) (x_xshares : list share) : peer :=
  mkPeer (p_step c) (p_prev c) (p_sid c) (p_n c) (p_t c) (p_index c) (p_lt_sk c) (p_sk c) (p_noise_sk c)
    (p_tp_pk c) (p_tp_last c) (p_last c) (p_eps c) (p_pks c) (p_npks c) (p_dev c) (p_outs c) (p_ins c) (p_com
    c) (p_shares c) x_xshares (p_complaints c) (p_cmax c) (p_my c) (p_mymax c) (p_transcript c) (p_share c).

Definition peer_complaints_set (c : peer) (x_complaints : list Z) : peer :=
  mkPeer (p_step c) (p_prev c) (p_sid c) (p_n c) (p_t c) (p_index c) (p_lt_sk c) (p_sk c) (p_noise_sk c)
    (p_tp_pk c) (p_tp_last c) (p_last c) (p_eps c) (p_pks c) (p_npks c) (p_dev c) (p_outs c) (p_ins c) (p_com
    c) (p_shares c) (p_xshares c) x_complaints (p_cmax c) (p_my c) (p_mymax c) (p_transcript c) (p_share c).

Definition peer_my_set (c : peer) (x_my : list Z) : peer :=
  mkPeer (p_step c) (p_prev c) (p_sid c) (p_n c) (p_t c) (p_index c) (p_lt_sk c) (p_sk c) (p_noise_sk c)
    (p_tp_pk c) (p_tp_last c) (p_last c) (p_eps c) (p_pks c) (p_npks c) (p_dev c) (p_outs c) (p_ins c) (p_com
    c) (p_shares c) (p_xshares c) (p_complaints c) (p_cmax c) x_my (p_mymax c) (p_transcript c) (p_share c).

Definition peer_transcript_set (c : peer) (x_transcript : bytes) : peer :=
  mkPeer (p_step c) (p_prev c) (p_sid c) (p_n c) (p_t c) (p_index c) (p_lt_sk c) (p_sk c) (p_noise_sk c)
    (p_tp_pk c) (p_tp_last c) (p_last c) (p_eps c) (p_pks c) (p_npks c) (p_dev c) (p_outs c) (p_ins c) (p_com
    c) (p_shares c) (p_xshares c) (p_complaints c) (p_cmax c) (p_my c) (p_mymax c) x_transcript (p_share c).

Definition peer_share_set (c : peer) (x_share : share) : peer :=
  mkPeer (p_step c) (p_prev c) (p_sid c) (p_n c) (p_t c) (p_index c) (p_lt_sk c) (p_sk c) (p_noise_sk c)
    (p_tp_pk c) (p_tp_last c) (p_last c) (p_eps c) (p_pks c) (p_npks c) (p_dev c) (p_outs c) (p_ins c) (p_com
    c) (p_shares c) (p_xshares c) (p_complaints c) (p_cmax c) (p_my c) (p_mymax c) (p_transcript c) x_share.
(** recv_msg with &ctx->last_ts[i] *)
Definition peer_recv (c : peer) (buf : bytes) (off len msgno from to : Z) (pk : bytes) (i now : Z) : res (Z * peer) :=
  do last <- getz (p_last c) i ;;
  do (ret, last') <- recv_msg S buf off len msgno from to pk (p_sid c) (p_eps c) last now ;;
  do l <- updz (p_last c) i last' ;;
  Ok (ret, peer_last_set c l).

(** recv_msg with &ctx->tp_last_ts, sender 0 *)
Definition peer_recv_tp (c : peer) (buf : bytes) (off len msgno to now : Z) : res (Z * peer) :=
  do (ret, last') <- recv_msg S buf off len msgno 0 to (p_tp_pk c) (p_sid c) (p_eps c) (p_tp_last c) now ;;
  Ok (ret, peer_tp_last_set c last').

(** src/tp-dkg.c:683-725 tpdkg_start_peer: (return code, state); fields not set by it keep the
    caller's (possibly uninitialised) values *)
Definition start_peer (c : peer) (ts_epsilon : Z) (lt_sk msg0 : bytes) (now : Z) : res (Z * peer) :=
  do pk <- rd msg0 hdr_SIZE 32 ;;
  do sid <- rd msg0 off_sid sid_SIZE ;;
  do (ret, last) <- recv_msg S msg0 0 msg0_SIZE 0 0 255 pk sid ts_epsilon 0 now ;;
  let upd sid n t lt tr step com my pk dev :=
    mkPeer step (p_prev c) sid n t (p_index c) lt (p_sk c) (p_noise_sk c) pk last (p_last c) ts_epsilon
      (p_pks c) (p_npks c) dev (p_outs c) (p_ins c) (p_com c) (p_shares c) (p_xshares c)
      com (p_cmax c) my (p_mymax c) tr (p_share c) in
  if negb (ret =? 0) then
    Ok (64 + ret, upd (p_sid c) (p_n c) (p_t c) (p_lt_sk c) (p_transcript c) (p_step c) (p_complaints c) (p_my c) (p_tp_pk c) (p_dev c))
  else
  do bn <- getz msg0 (hdr_SIZE + 64) ;;
  do bt <- getz msg0 (hdr_SIZE + 65) ;;
  let n := bz bn in let t := bz bt in
  let fail code := Ok (code, upd sid n t (p_lt_sk c) (p_transcript c) (p_step c) (p_complaints c) (p_my c) pk (p_dev c)) in
  if t <? 2 then fail 1 else
  if n <=? t then fail 2 else
  if 128 <? n then fail 3 else
  do m <- rd msg0 0 msg0_SIZE ;;
  Ok (0, upd sid n t lt_sk (update_transcript str_transcript m) 0 [] [] pk None).

(** src/tp-dkg.c:564-586 tpdkg_peer_set_bufs *)
Definition peer_set_bufs (c : peer) (pks npks : list bytes) (outs ins : list (slot (nz_sess (cN C)))) (shares xshares : list share)
    (com : list (list bytes)) (cmax mymax : Z) : peer :=
  mkPeer (p_step c) (p_prev c) (p_sid c) (p_n c) (p_t c) (p_index c) (p_lt_sk c) (p_sk c) (p_noise_sk c) (p_tp_pk c)
    (p_tp_last c) (repeat 0 (Z.to_nat (p_n c))) (p_eps c) pks npks (p_dev c) outs ins com shares xshares
    (p_complaints c) cmax (p_my c) mymax (p_transcript c) (p_share c).

(** src/tp-dkg.c:157-191 tpdkg_init_noise_handshake: device, session variable, bytes written to
    msg (None: none).  The return code is ignored by the caller. *)
Definition init_noise (d : nz_dev N) (sl : slot (nz_sess N)) (name : Z) (rpk rand : bytes)
    : nz_dev N * slot (nz_sess N) * option bytes :=
  match nz_add_peer N d name rpk with
  | None => (d, sl, None)
  | Some (d', id) =>
      match nz_initiator N d' id rand with
      | None => (d', Null, None)
      | Some s =>
          match nz_write N s [] with
          | (_, None) => (d', Freed, None)
          | (s', Some m) => if zlen m =? hs1_SIZE then (d', Live s', Some m) else (d', Freed, None)
          end
      end
  end.

(** src/tp-dkg.c:193-239 tpdkg_respond_noise_handshake.  The return code is ignored by the caller. *)
Definition respond_noise (d : nz_dev N) (inmsg rand : bytes) : slot (nz_sess N) * option bytes :=
  match nz_responder N d rand with
  | None => (Null, None)
  | Some s =>
      match nz_read N s inmsg with
      | (_, None) => (Freed, None)
      | (s', Some _) =>
          match nz_write N s' [] with
          | (_, None) => (Freed, None)
          | (s'', Some m) => if zlen m =? hs2_SIZE then (Live s'', Some m) else (Freed, None)
          end
      end
  end.

(** src/tp-dkg.c:241-283 tpdkg_finish_noise_handshake.  The return code is ignored by the caller. *)
Definition finish_noise (log : bool) (d : nz_dev N) (sl : slot (nz_sess N)) (msg : bytes) : res (slot (nz_sess N)) :=
  match sl with
  | Null => Ok Null
  | Uninit | Freed => UB
  | Live s =>
      if log && negb (nz_peer_known N d s) then Ok Freed else
      match nz_read N s msg with
      | (_, None) => Ok Freed
      | (s', Some _) => Ok (Live s')
      end
  end.

(** src/tp-dkg.c:285-314 tpdkg_noise_encrypt: (return code, session, bytes written) *)
Definition noise_encrypt (sl : slot (nz_sess N)) (input : bytes) (output_len : Z)
    : res (Z * slot (nz_sess N) * bytes) :=
  match sl with
  | Null => Ok (1, Null, [])
  | Uninit | Freed => UB
  | Live s =>
      if 1024 <? zlen input then Ok (2, sl, []) else
      match nz_write N s input with
      | (s', None) => Ok (3, Live s', [])
      | (s', Some m) => if zlen m =? output_len then Ok (0, Live s', m) else Ok (4, Live s', [])
      end
  end.

(** src/tp-dkg.c:316-352 tpdkg_noise_decrypt: (return code, session, bytes written) *)
Definition noise_decrypt (sl : slot (nz_sess N)) (input : bytes) (output_len : Z)
    : res (Z * slot (nz_sess N) * bytes) :=
  match sl with
  | Null => Ok (1, Null, [])
  | Uninit | Freed => UB
  | Live s =>
      if 1024 <? zlen input then Ok (2, sl, []) else
      match nz_read N s input with
      | (s', None) => Ok (3, Live s', [])
      | (s', Some m) => if zlen m =? output_len then Ok (0, Live s', m) else Ok (5, Live s', [])
      end
  end.

(** src/tp-dkg.c:358-365 Noise_XK_session_get_key followed by a read of the 32 bytes *)
Definition session_key (sl : slot (nz_sess N)) : res bytes :=
  match sl with
  | Live s => of_opt (nz_key N s)
  | _ => UB
  end.

(** src/tp-dkg.c:746-784 peer_step23_handler *)
Definition peer_step23 (e : penv) (c : peer) (input out : bytes) : hres peer :=
  if negb (zlen input =? msg1_SIZE) then Ok (1, c, out) else
  if negb (zlen out =? msg2_SIZE + sign_BYTES) then Ok (2, c, out) else
  do b <- getz input off_to ;;
  let to := bz b in
  do (ret, c) <- peer_recv_tp c input 0 msg1_SIZE 1 to (pe_r e 0) ;;
  if negb (ret =? 0) then Ok (4 + ret, c, out) else
  if (128 <? to) || (to <? 1) then Ok (3, c, out) else
  let sk := pe_sk e in let nsk := pe_nsk e in
  do out <- wr out hdr_SIZE (sig_pk S sk) ;;
  do out <- wr out (hdr_SIZE + 32) (nz_pk N nsk) ;;
  do out <- send_msg S out 0 msg2_SIZE 2 to 255 sk (p_sid c) (pe_s e 0) ;;
  do m <- rd out 0 msg2_SIZE ;;
  do out <- wr out msg2_SIZE (sig_sign S (p_lt_sk c) m) ;;
  Ok (0, peer_keys_set c to sk nsk (zeros 64), out).

(** src/tp-dkg.c:842-865 *)
Definition peer_step5_body (e : penv) (input : bytes) (i : Z) (s : peer * bytes) : res (ctl (peer * bytes)) :=
  let '(c, out) := s in
  let p := hdr_SIZE + i * msg2_SIZE in
  do pk <- rd input (p + hdr_SIZE) 32 ;;
  do (ret, c) <- peer_recv c input p msg2_SIZE 2 (i + 1) 255 pk i (pe_r e (1 + i)) ;;
  if negb (ret =? 0) then Ok (Return (64 + ret) (c, out)) else
  do pks <- updz (p_pks c) i pk ;;
  do npk <- rd input (p + hdr_SIZE + 32) 32 ;;
  do npks <- updz (p_npks c) i npk ;;
  let c := peer_pk_set c pks npks in
  do d <- of_opt (p_dev c) ;;
  do sl <- getz (p_outs c) i ;;
  let '(d, sl, m) := init_noise d sl (i + 1) npk (pe_ri e i) in
  do outs <- updz (p_outs c) i sl ;;
  let c := peer_outs_set (peer_dev_set c (Some d)) outs in
  let w := i * msg4_SIZE in
  do out <- match m with Some m => wr out (w + hdr_SIZE) m | None => Ok out end ;;
  do out <- send_msg S out w msg4_SIZE 4 (p_index c) (i + 1) (p_sk c) (p_sid c) (pe_s e i) ;;
  Ok (Next (c, out)).

(** the end of a loop over messages *)
Definition done {A} (r : ctl (A * bytes)) : hres A :=
  match r with
  | Next (c, out) => Ok (0, c, out)
  | Return code (c, out) => Ok (code, c, out)
  end.

(** src/tp-dkg.c:823-869 peer_step5_handler.  If the device cannot be created the NULL pointer
    is used by Noise_XK_device_add_peer. *)
Definition peer_step5 (e : penv) (c : peer) (input out : bytes) : hres peer :=
  if negb (zlen input =? msg2_SIZE * p_n c + hdr_SIZE) then Ok (1, c, out) else
  if negb (zlen out =? msg4_SIZE * p_n c) then Ok (2, c, out) else
  do (ret, c) <- peer_recv_tp c input 0 (zlen input) 3 255 (pe_r e 0) ;;
  if negb (ret =? 0) then Ok (32 + ret, c, out) else
  let c := peer_transcript_set c (update_transcript (p_transcript c) input) in
  let c := peer_dev_set c (nz_create N (p_index c) (p_noise_sk c)) in
  do r <- loopM (peer_step5_body e input) (zrange 0 (Z.to_nat (p_n c))) (c, out) ;;
  done r.

(** src/tp-dkg.c:908-929 *)
Definition peer_step7_body (e : penv) (input : bytes) (i : Z) (s : peer * bytes) : res (ctl (peer * bytes)) :=
  let '(c, out) := s in
  let p := i * msg4_SIZE in
  do pk <- getz (p_pks c) i ;;
  do (ret, c) <- peer_recv c input p msg4_SIZE 4 (i + 1) (p_index c) pk i (pe_r e i) ;;
  if negb (ret =? 0) then Ok (Return (64 + ret) (c, out)) else
  do d <- of_opt (p_dev c) ;;
  do inmsg <- rd input (p + hdr_SIZE) hs1_SIZE ;;
  let '(sl, m) := respond_noise d inmsg (pe_rr e i) in
  do ins <- updz (p_ins c) i sl ;;
  let c := peer_ins_set c ins in
  let w := i * msg5_SIZE in
  do out <- match m with Some m => wr out (w + hdr_SIZE) m | None => Ok out end ;;
  do out <- send_msg S out w msg5_SIZE 5 (p_index c) (i + 1) (p_sk c) (p_sid c) (pe_s e i) ;;
  Ok (Next (c, out)).

(** src/tp-dkg.c:901-932 peer_step7_handler *)
Definition peer_step7 (e : penv) (c : peer) (input out : bytes) : hres peer :=
  if negb (zlen input =? msg4_SIZE * p_n c) then Ok (1, c, out) else
  if negb (zlen out =? msg5_SIZE * p_n c) then Ok (2, c, out) else
  do r <- loopM (peer_step7_body e input) (zrange 0 (Z.to_nat (p_n c))) (c, out) ;;
  done r.

(** src/tp-dkg.c:940-951 *)
Definition peer_step911_body (e : penv) (input : bytes) (i : Z) (c : peer) : res (ctl peer) :=
  let p := i * msg5_SIZE in
  do pk <- getz (p_pks c) i ;;
  do (ret, c) <- peer_recv c input p msg5_SIZE 5 (i + 1) (p_index c) pk i (pe_r e i) ;;
  if negb (ret =? 0) then Ok (Return (64 + ret) c) else
  do msg <- rd input (p + hdr_SIZE) hs2_SIZE ;;
  do sl <- getz (p_outs c) i ;;
  do d <- of_opt (p_dev c) ;;
  do sl <- finish_noise (pe_log e) d sl msg ;;
  do outs <- updz (p_outs c) i sl ;;
  Ok (Next (peer_outs_set c outs)).

(** src/tp-dkg.c:934-963 peer_step911_handler *)
Definition peer_step911 (e : penv) (c : peer) (input out : bytes) : hres peer :=
  if negb (zlen input =? msg5_SIZE * p_n c) then Ok (1, c, out) else
  if negb (zlen out =? msg6_SIZE (p_t c)) then Ok (2, c, out) else
  do r <- loopM (peer_step911_body e input) (zrange 0 (Z.to_nat (p_n c))) c ;;
  match r with
  | Return code c => Ok (code, c, out)
  | Next c =>
      do data <- rd out hdr_SIZE (32 * p_t c) ;;
      do (ret, coms, shares) <- dkg_start (cR C) (pe_lock e) (p_n c) (p_t c) (pe_a e) (rows (p_t c) data) (p_shares c) ;;
      if negb (ret =? 0) then Ok (4, c, out) else
      do out <- wr out hdr_SIZE (concat coms) ;;
      let c := peer_shares_set c shares in
      do out <- send_msg S out 0 (msg6_SIZE (p_t c)) 6 (p_index c) 255 (p_sk c) (p_sid c) (pe_s e 0) ;;
      Ok (0, c, out)
  end.

(** src/tp-dkg.c:1027-1073 (UNITTEST_CORRUPT not defined) *)
Definition peer_step13_body (e : penv) (input : bytes) (i : Z) (s : peer * bytes) : res (ctl (peer * bytes)) :=
  let '(c, out) := s in
  let p := hdr_SIZE + i * msg6_SIZE (p_t c) in
  let w := i * msg8_SIZE in
  do pk <- getz (p_pks c) i ;;
  do (ret, c) <- peer_recv c input p (msg6_SIZE (p_t c)) 6 (i + 1) 255 pk i (pe_r e (1 + i)) ;;
  (* line 1033 returns 64+ret where ret is the 0 of the previous call *)
  if negb (ret =? 0) then Ok (Return 64 (c, out)) else
  do data <- rd input (p + hdr_SIZE) (32 * p_t c) ;;
  do com <- updz (p_com c) i (rows (p_t c) data) ;;
  let c := peer_com_set c com in
  do sl <- getz (p_outs c) i ;;
  do (ret, sl, m) <- noise_encrypt sl [] hs3_SIZE ;;
  do outs <- updz (p_outs c) i sl ;;
  let c := peer_outs_set c outs in
  if negb (ret =? 0) then Ok (Return 5 (c, out)) else
  do out <- wr out (w + hdr_SIZE) m ;;
  do sh <- getz (p_shares c) i ;;
  do (ret, sl, ct) <- noise_encrypt sl (share_bytes sh) (share_SIZE + mac_SIZE) ;;
  do outs <- updz (p_outs c) i sl ;;
  let c := peer_outs_set c outs in
  if negb (ret =? 0) then Ok (Return 6 (c, out)) else
  do out <- wr out (w + hdr_SIZE + hs3_SIZE) ct ;;
  do key <- session_key sl ;;
  do out <- wr out (w + hdr_SIZE + hs3_SIZE + share_SIZE + mac_SIZE) (c_auth C key ct) ;;
  do out <- send_msg S out w msg8_SIZE 8 (p_index c) (i + 1) (p_sk c) (p_sid c) (pe_s e i) ;;
  Ok (Next (c, out)).

(** src/tp-dkg.c:1007-1076 peer_step13_handler *)
Definition peer_step13 (e : penv) (c : peer) (input out : bytes) : hres peer :=
  if negb (zlen input =? hdr_SIZE + msg6_SIZE (p_t c) * p_n c) then Ok (1, c, out) else
  if negb (zlen out =? p_n c * msg8_SIZE) then Ok (2, c, out) else
  do (ret, c) <- peer_recv_tp c input 0 (zlen input) 7 255 (pe_r e 0) ;;
  if negb (ret =? 0) then Ok (32 + ret, c, out) else
  let c := peer_transcript_set c (update_transcript (p_transcript c) input) in
  do r <- loopM (peer_step13_body e input) (zrange 0 (Z.to_nat (p_n c))) (c, out) ;;
  done r.

(** src/tp-dkg.c:1116-1142 *)
Definition peer_step15_body (e : penv) (input : bytes) (i : Z) (c : peer) : res (ctl peer) :=
  let p := i * msg8_SIZE in
  do pk <- getz (p_pks c) i ;;
  do (ret, c) <- peer_recv c input p msg8_SIZE 8 (i + 1) (p_index c) pk i (pe_r e i) ;;
  if negb (ret =? 0) then Ok (Return (64 + ret) c) else
  do hs <- rd input (p + hdr_SIZE) hs3_SIZE ;;
  do sl <- getz (p_ins c) i ;;
  do (ret, sl, _) <- noise_decrypt sl hs 0 ;;
  do ins <- updz (p_ins c) i sl ;;
  let c := peer_ins_set c ins in
  if negb (ret =? 0) then Ok (Return 4 c) else
  do key <- session_key sl ;;
  do ct <- rd input (p + hdr_SIZE + hs3_SIZE) (share_SIZE + mac_SIZE) ;;
  do mac <- rd input (p + hdr_SIZE + hs3_SIZE + share_SIZE + mac_SIZE) hmac_SIZE ;;
  if negb (bytes_eqb mac (c_auth C key ct)) then Ok (Return 5 c) else
  do (ret, sl, pt) <- noise_decrypt sl ct share_SIZE ;;
  do ins <- updz (p_ins c) i sl ;;
  let c := peer_ins_set c ins in
  if negb (ret =? 0) then Ok (Return 6 c) else
  do xs <- updz (p_xshares c) i (share_of pt) ;;
  Ok (Next (peer_xshares_set c xs)).

(** src/tp-dkg.c:1110-1176 peer_step15_handler (UNITTEST_CORRUPT not defined); the return code
    of dkg_verify_commitments is ignored *)
Definition peer_step15 (e : penv) (c : peer) (input out : bytes) : hres peer :=
  if negb (zlen input =? p_n c * msg8_SIZE) then Ok (1, c, out) else
  if negb (zlen out =? msg9_SIZE (p_n c)) then Ok (2, c, out) else
  do r <- loopM (peer_step15_body e input) (zrange 0 (Z.to_nat (p_n c))) c ;;
  match r with
  | Return code c => Ok (code, c, out)
  | Next c =>
      do (_, fails, fails_len) <- dkg_verify_commitments (cR C) (p_n c) (p_index c) (p_com c) (p_xshares c)
                                    (repeat 0 (Z.to_nat (p_n c))) ;;
      do out <- wr out hdr_SIZE (zb fails_len :: map zb fails) ;;
      do out <- send_msg S out 0 (msg9_SIZE (p_n c)) 9 (p_index c) 255 (p_sk c) (p_sid c) (pe_s e 0) ;;
      Ok (0, c, out)
  end.

(** src/tp-dkg.c:1277-1288, complaint k of peer i; [p] is the offset of peer i's message *)
Definition peer_step17_complaint (input : bytes) (p i lim k : Z) (c : peer) : res (ctl peer) :=
  if negb (k + 1 <? lim) then Ok (Next c) else
  do d <- getz input (p + hdr_SIZE + (k + 1)) ;;
  let accused := bz d in
  let pair := pair16 (i + 1) accused in
  if existsb (Z.eqb pair) (p_complaints c) then Ok (Next c) else
  if negb (zlen (p_complaints c) <? p_cmax c) then UB else
  let c := peer_complaints_set c (p_complaints c ++ [pair]) in
  if accused =? p_index c then
    if zlen (p_my c) <? p_mymax c then Ok (Next (peer_my_set c (p_my c ++ [i + 1]))) else UB
  else Ok (Next c).

(** src/tp-dkg.c:1265-1291 *)
Definition peer_step17_body (e : penv) (input : bytes) (i : Z) (c : peer) : res (ctl peer) :=
  let p := hdr_SIZE + i * msg9_SIZE (p_n c) in
  do pk <- getz (p_pks c) i ;;
  do (ret, c) <- peer_recv c input p (msg9_SIZE (p_n c)) 9 (i + 1) 255 pk i (pe_r e (1 + i)) ;;
  if negb (ret =? 0) then Ok (Return (32 + ret) c) else
  do flen <- rd input (p + off_len) 4 ;;
  do d0 <- getz input (p + hdr_SIZE) ;;
  let lim := u64 (of_le flen - hdr_SIZE) in
  if lim <? bz d0 then Ok (Return 5 c) else
  loopM (peer_step17_complaint input p i lim) (zrange 0 (Z.to_nat (bz d0))) c.

(** src/tp-dkg.c:1246-1298 peer_step17_handler *)
Definition peer_step17 (e : penv) (c : peer) (input out : bytes) : hres peer :=
  if negb (zlen input =? msg10_SIZE (p_n c)) then Ok (1, c, out) else
  if negb (zlen out =? 0) then Ok (2, c, out) else
  do (ret, c) <- peer_recv_tp c input 0 (zlen input) 10 255 (pe_r e 0) ;;
  if negb (ret =? 0) then Ok (16 + ret, c, out) else
  let c := peer_transcript_set c (update_transcript (p_transcript c) input) in
  do r <- loopM (peer_step17_body e input) (zrange 0 (Z.to_nat (p_n c))) c ;;
  match r with
  | Return code c => Ok (code, c, out)
  | Next c =>
      if zlen (p_complaints c) =? 0 then Ok (0, peer_step_set c (p_step c + 1) (p_step c), out)
      else Ok (0, c, out)
  end.

(** src/tp-dkg.c:516-534 tpdkg_peer_input_size *)
Definition peer_input_size (c : peer) : Z :=
  match p_step c with
  | 0 => msg1_SIZE
  | 1 => msg2_SIZE * p_n c + hdr_SIZE
  | 2 => msg4_SIZE * p_n c
  | 3 => msg5_SIZE * p_n c
  | 4 => hdr_SIZE + msg6_SIZE (p_t c) * p_n c
  | 5 => p_n c * msg8_SIZE
  | 6 => msg10_SIZE (p_n c)
  | 7 => 0
  | 8 => 0
  | 9 => msg20_SIZE
  | 10 => 0
  | _ => 1
  end.

(** src/tp-dkg.c:536-562 tpdkg_peer_output_size *)
Definition peer_output_size (c : peer) : Z :=
  match p_step c with
  | 0 => msg2_SIZE + sign_BYTES
  | 1 => msg4_SIZE * p_n c
  | 2 => msg5_SIZE * p_n c
  | 3 => msg6_SIZE (p_t c)
  | 4 => p_n c * msg8_SIZE
  | 5 => msg9_SIZE (p_n c)
  | 6 => 0
  | 7 => if 0 <? zlen (p_complaints c) then
           if 0 <? zlen (p_my c) then hdr_SIZE + zlen (p_my c) * (1 + noise_key_SIZE) else 0
         else msg19_SIZE
  | 8 => msg19_SIZE
  | 9 => msg21_SIZE
  | 10 => 0
  | _ => 1
  end.

(** src/tp-dkg.c:1313-1320, entry i of my_complaints *)
Definition peer_step17a_body (c : peer) (i : Z) (out : bytes) : res (ctl bytes) :=
  let w := hdr_SIZE + i * (1 + noise_key_SIZE) in
  do x <- getz (p_my c) i ;;
  do out <- wr out w [zb x] ;;
  do sl <- getz (p_outs c) (x - 1) ;;
  do key <- session_key sl ;;
  do out <- wr out (w + 1) key ;;
  Ok (Next out).

(** src/tp-dkg.c:1300-1333 peer_step17a_handler *)
Definition peer_step17a (e : penv) (c : peer) (input out : bytes) : hres peer :=
  if negb (zlen input =? 0) then Ok (1, c, out) else
  if negb (zlen out =? peer_output_size c) then Ok (2, c, out) else
  if zlen out =? 0 then Ok (0, c, out) else
  do r <- loopM (peer_step17a_body c) (zrange 0 (Z.to_nat (zlen (p_my c)))) out ;;
  match r with
  | Return code out => Ok (code, c, out)
  | Next out =>
      do out <- send_msg S out 0 (peer_output_size c) 11 (p_index c) 0 (p_sk c) (p_sid c) (pe_s e 0) ;;
      Ok (0, peer_step_set c 99 (p_prev c), out)
  end.

(** src/tp-dkg.c:1485-1499 peer_step19_handler *)
Definition peer_step19 (e : penv) (c : peer) (input out : bytes) : hres peer :=
  if negb (zlen input =? 0) then Ok (1, c, out) else
  if negb (zlen out =? msg19_SIZE) then Ok (2, c, out) else
  do out <- wr out hdr_SIZE (blake2b (cH C) 32 (p_transcript c)) ;;
  do out <- send_msg S out 0 msg19_SIZE 20 (p_index c) 0 (p_sk c) (p_sid c) (pe_s e 0) ;;
  Ok (0, c, out).

(** src/tp-dkg.c:1548-1577 peer_step21_handler *)
Definition peer_step21 (e : penv) (c : peer) (input out : bytes) : hres peer :=
  if negb (zlen input =? msg20_SIZE) then Ok (1, c, out) else
  if negb (zlen out =? msg21_SIZE) then Ok (2, c, out) else
  do (ret, c) <- peer_recv_tp c input 0 (zlen input) 21 255 (pe_r e 0) ;;
  if negb (ret =? 0) then Ok (4 + ret, c, out) else
  do d <- rd input hdr_SIZE 2 ;;
  if negb (bytes_eqb d str_OK) then Ok (4, c, out) else
  let c := peer_share_set c (mkShare (p_index c) (dkg_finish (firstn (Z.to_nat (p_n c)) (p_xshares c)))) in
  do out <- wr out hdr_SIZE d ;;
  do out <- send_msg S out 0 msg21_SIZE 22 (p_index c) 0 (p_sk c) (p_sid c) (pe_s e 0) ;;
  Ok (0, c, out).

(** src/tp-dkg.c:1664-1666: end of tpdkg_peer_next *)
Definition peer_finish_step (r : hres peer) : hres peer :=
  do (ret, c, out) <- r ;;
  Ok (ret, peer_step_set c (if ret =? 0 then p_step c + 1 else 99) (p_step c), out).

(** src/tp-dkg.c:1641-1667 tpdkg_peer_next *)
Definition peer_next (e : penv) (c : peer) (input out : bytes) : hres peer :=
  peer_finish_step
    match p_step c with
    | 0 => peer_step23 e c input out
    | 1 => peer_step5 e c input out
    | 2 => peer_step7 e c input out
    | 3 => peer_step911 e c input out
    | 4 => peer_step13 e c input out
    | 5 => peer_step15 e c input out
    | 6 => peer_step17 e c input out
    | 7 => peer_step17a e c input out
    | 8 => peer_step19 e c input out
    | 9 => peer_step21 e c input out
    | 10 => Ok (0, c, out)
    | _ => Ok (99, c, out)
    end.

(** src/tp-dkg.c:592-594 tpdkg_peer_not_done *)
Definition peer_not_done (c : peer) : bool := p_step c <? 11.

(** freeing a session variable: NULL is skipped *)
Definition free_slot (sl : slot (nz_sess N)) : res (slot (nz_sess N)) :=
  match sl with
  | Null => Ok Null
  | Live _ => Ok Freed
  | Uninit | Freed => UB
  end.

(** src/tp-dkg.c:596-602 tpdkg_peer_free *)
Definition peer_free (c : peer) : res peer :=
  foldM (fun i c =>
           do sl <- getz (p_ins c) i ;;
           do sl <- free_slot sl ;;
           do ins <- updz (p_ins c) i sl ;;
           let c := peer_ins_set c ins in
           do sl <- getz (p_outs c) i ;;
           do sl <- free_slot sl ;;
           do outs <- updz (p_outs c) i sl ;;
           Ok (peer_outs_set c outs))
        (zrange 0 (Z.to_nat (p_n c))) c.

End PEER.
