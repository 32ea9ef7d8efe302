(** The Noise XK library shipped with liboprf: /repo/src/noise_xk/src/Noise_XK.c (the symmetric
    operations) and /repo/src/noise_xk/src/XK.c (devices, peers, sessions, messages), in the
    configuration that liboprf builds (libsodium, no WITH_HACL).

    Simplifications, for the whole file.
    - Allocation succeeds; the blocks and their freeing are in [XkMemModel].  Arrays of fixed size (keys, hashes) are byte
      strings.  A [noise_string] (pointer to a C string, or NULL) is the byte string before its
      NUL; NULL and the empty string are both the empty byte string, as in the C code, which
      stores NULL for an empty string.
    - Pointers to a device held by sessions are arguments: reading a message takes the device in
      the state it has at that moment.
    - Random values (ephemeral keys, nonces of serialized secrets) are arguments. *)
From Coq Require Import ZArith Lia List Bool.
From Coq.Strings Require Import Byte.
From Verif Require Import Bytes Res Mem.
Import ListNotations.
Open Scope list_scope.
Open Scope Z_scope.

(** What libsodium provides. *)
Record xprims : Type := mkX {
  x_base : bytes -> bytes;                              (* crypto_scalarmult_base *)
  x_dh : bytes -> bytes -> option bytes;                (* crypto_scalarmult: secret, public; None = -1 *)
  x_seal : bytes -> bytes -> bytes -> bytes -> bytes;   (* crypto_aead_chacha20poly1305_ietf_encrypt: key, nonce, ad, plaintext *)
  x_open : bytes -> bytes -> bytes -> bytes -> option bytes; (* ..._decrypt: key, nonce, ad, ciphertext and tag *)
  x_hash : bytes -> bytes                               (* crypto_generichash with 64 bytes of output, no key *)
}.

(** The laws of these functions that the proofs use. *)
Record xprims_ok (X : xprims) : Prop := mkXok {
  ok_base_len : forall a, zlen (x_base X a) = 32;
  (* two key pairs agree on a secret; with public keys made by [x_base] the computation does not fail *)
  ok_dh : forall a b, exists k, x_dh X a (x_base X b) = Some k /\ x_dh X b (x_base X a) = Some k;
  ok_seal_len : forall k n a p, zlen (x_seal X k n a p) = zlen p + 16;
  ok_open_seal : forall k n a p, x_open X k n a (x_seal X k n a p) = Some p;
  ok_open_len : forall k n a c p, x_open X k n a c = Some p -> zlen c = zlen p + 16;
  ok_hash_len : forall m, zlen (x_hash X m) = 64
}.

(** Error codes, Noise_XK.h; return codes, src/noise_xk/include/XK.h:15-21. *)
Inductive xerr : Set := CIncorrect_transition | CInput_size | CDH_error | CDecrypt_error
  | CSaturated_nonce | CSecurity_level | CRs_rejected_by_policy | CUnknown_peer_id.
Inductive rcode : Set := RSuccess | RError (e : xerr) | RStuck (e : xerr).

(** XK.h:64-89, XK.c:108-116: encapsulated messages. *)
Inductive ac_level : Set := Auth_level (l : Z) | Conf_level (l : Z) | No_level.
Record encap : Set := mkEncap { em_level : ac_level; em_msg : bytes }.

(** XK.c:283-290 *)
Record xpeer : Set := mkXpeer { p_id : Z; p_info : bytes; p_s : bytes }.
(** XK.c:295-307.  [d_peers] is the linked list, newest first. *)
Record xdev : Set := mkXdev {
  d_info : bytes; d_sk : bytes; d_spriv : bytes; d_spub : bytes; d_prologue : bytes;
  d_states : Z; d_peers : list xpeer; d_pcount : Z
}.

(** include/noise_private.h:6-58 (struct Noise_XK_init_state_t, Noise_XK_resp_state_t): a handshake state or a
    transport state.  The flag [t_recv] exists for initiators only; it is [true] in responders. *)
Record hs : Set := mkHs {
  h_step : Z; h_k : bytes; h_ck : bytes; h_h : bytes; h_spriv : bytes; h_spub : bytes;
  h_epriv : bytes; h_epub : bytes; h_rs : bytes; h_re : bytes
}.
Record tr : Set := mkTr { t_h : bytes; t_recv : bool; t_skey : bytes; t_sn : Z; t_rkey : bytes; t_rn : Z }.
Inductive xst : Set := Handshake (s : hs) | Transport (t : tr).
(** include/noise_private.h:60-84: a session: its role, state, identifier, and the peer it talks to (0: not known) *)
Record xsess : Set := mkXsess { s_init : bool; s_st : xst; s_id : Z; s_pid : Z; s_pinfo : bytes }.

Definition set_h (s : hs) (h : bytes) : hs :=
  mkHs (h_step s) (h_k s) (h_ck s) h (h_spriv s) (h_spub s) (h_epriv s) (h_epub s) (h_rs s) (h_re s).
Definition set_keys (s : hs) (k ck : bytes) : hs :=
  mkHs (h_step s) k ck (h_h s) (h_spriv s) (h_spub s) (h_epriv s) (h_epub s) (h_rs s) (h_re s).
Definition set_step (s : hs) (n : Z) : hs :=
  mkHs n (h_k s) (h_ck s) (h_h s) (h_spriv s) (h_spub s) (h_epriv s) (h_epub s) (h_rs s) (h_re s).
Definition set_rs (s : hs) (rs : bytes) : hs :=
  mkHs (h_step s) (h_k s) (h_ck s) (h_h s) (h_spriv s) (h_spub s) (h_epriv s) (h_epub s) rs (h_re s).
Definition set_re (s : hs) (re : bytes) : hs :=
  mkHs (h_step s) (h_k s) (h_ck s) (h_h s) (h_spriv s) (h_spub s) (h_epriv s) (h_epub s) (h_rs s) re.

(** Noise_XK.c:5-19: comparison of [len] bytes without early exit *)
Definition lbytes_eq (len : nat) (a b : bytes) : bool :=
  fold_left (fun acc '(x, y) => Z.lor (Z.lxor (bz x) (bz y)) acc) (combine (firstn len a) (firstn len b)) 0 =? 0.

(** Noise_XK.c:21-26 *)
Definition bytes_to_nonce (n8 : bytes) : Z := of_le (firstn 8 n8).
(** Noise_XK.c:62-67: four zero bytes, then the counter in little endian *)
Definition nonce12 (n : Z) : bytes := zeros 4 ++ le_bytes 8 n.
(** Noise_XK.c:169-175 *)
Definition xor_key (key : bytes) (v : Z) : bytes := map (fun b => zb (Z.lxor (bz b) v)) key.
(** the protocol name "Noise_XK_25519_ChaChaPoly_BLAKE2b", XK.c:1777-1786 *)
Definition pname : bytes := map zb
  [78; 111; 105; 115; 101; 95; 88; 75; 95; 50; 53; 53; 49; 57; 95; 67; 104; 97; 67; 104; 97; 80; 111; 108; 121; 95; 66; 76; 65; 75; 69; 50; 98].

Section Model.
Variable X : xprims.

(** Noise_XK.c:52-75, 77-114 *)
Definition aead_encrypt (key : bytes) (n : Z) (aad plain : bytes) : bytes := x_seal X key (nonce12 n) aad plain.
Definition aead_decrypt (key : bytes) (n : Z) (aad cipher : bytes) : option bytes := x_open X key (nonce12 n) aad cipher.
(** Noise_XK.c:125-167 *)
Definition mix_hash (h input : bytes) : bytes := x_hash X (h ++ input).

(** Noise_XK.c:177-218: HMAC with a block of 128 bytes.  The key block is first xored with
    0x36; later with 0x36 ^ 0x5c, which undoes the first and applies the second. *)
Definition hmac (key data : bytes) : bytes :=
  let kb := if zlen key <=? 128 then key ++ zeros (128 - length key) else x_hash X key ++ zeros 64 in
  let kb := xor_key kb 54 in
  let inner := x_hash X (kb ++ data) in
  let kb := xor_key kb (Z.lxor 54 92) in
  x_hash X (kb ++ inner).

(** Noise_XK.c:220-260 with [dst3 == NULL], the only way the XK pattern calls it: [output] is a
    buffer of 65 bytes whose first 64 bytes receive each result. *)
Definition kdf (ck key : bytes) : bytes * bytes :=
  let secret := hmac ck key in
  let dst1 := hmac secret [zb 1] in
  let dst2 := hmac secret (dst1 ++ [zb 2]) in
  (dst1, dst2).

(** Noise_XK.c:281-294 *)
Definition encrypt_and_hash (s : hs) (n : Z) (msg : bytes) : hs * bytes :=
  let c := aead_encrypt (h_k s) n (h_h s) msg in
  (set_h s (mix_hash (h_h s) c), c).
(** Noise_XK.c:296-315 *)
Definition decrypt_and_hash (s : hs) (n : Z) (cipher : bytes) : hs * option bytes :=
  match aead_decrypt (h_k s) n (h_h s) cipher with
  | Some p => (set_h s (mix_hash (h_h s) cipher), Some p)
  | None => (s, None)
  end.
(** Noise_XK.c:317-345 *)
Definition mix_dh (sec pub : bytes) (s : hs) : hs * option xerr :=
  match x_dh X sec pub with
  | Some dh => let '(ck, t) := kdf (h_ck s) dh in (set_keys s (firstn 32 t) ck, None)
  | None => (s, Some CDH_error)
  end.

(** The messages of the XK pattern.  [payload_len] and [outlen] are 32-bit.
    A failure leaves the hash, the keys and the remote keys as far as they were changed.

    XK.c:2252-2350 (initiator, first message), 2351-2425 (initiator, third message),
    2546-2632 (responder, second message) *)
Definition write_msg (init : bool) (s : hs) (payload : bytes) (outlen : Z) : hs * (xerr + bytes) :=
  if 3 <=? h_step s then (s, inl CIncorrect_transition)
  else if negb (Bool.eqb init (h_step s mod 2 =? 0)) then (s, inl CIncorrect_transition)
  else if init && negb (h_step s =? 0) then
    if negb ((zlen payload <=? 4294967215) && (outlen =? u32 (64 + zlen payload))) then (s, inl CInput_size)
    else
      let '(s1, c1) := encrypt_and_hash s 1 (h_spub s) in
      let '(s2, e) := mix_dh (h_spriv s1) (h_re s1) s1 in
      match e with
      | Some e => (s2, inl e)
      | None => let '(s3, c2) := encrypt_and_hash s2 0 payload in (set_step s3 (h_step s + 1), inr (c1 ++ c2))
      end
  else
    if negb ((zlen payload <=? 4294967215) && (outlen =? u32 (48 + zlen payload))) then (s, inl CInput_size)
    else
      let s1 := set_h s (mix_hash (h_h s) (h_epub s)) in
      let '(s2, e) := mix_dh (h_epriv s1) (if init then h_rs s1 else h_re s1) s1 in
      match e with
      | Some e => (s2, inl e)
      | None => let '(s3, c2) := encrypt_and_hash s2 0 payload in (set_step s3 (h_step s + 1), inr (h_epub s ++ c2))
      end.

(** XK.c:2448-2486 and its three copies at 2654, 3128 and 3590: the two transport keys; the initiator sends with the first *)
Definition split (init : bool) (s : hs) : xst :=
  let '(k1, k2) := kdf (h_ck s) [] in
  let k1 := firstn 32 k1 in let k2 := firstn 32 k2 in
  Transport (if init then mkTr (h_h s) false k1 0 k2 0 else mkTr (h_h s) true k2 0 k1 0).

(** XK.c:2227-2911: a failed handshake operation leaves the session in step 4 *)
Definition state_handshake_write (init : bool) (s : hs) (payload : bytes) (outlen : Z) : xst * (xerr + bytes) :=
  let '(s', r) := write_msg init s payload outlen in
  match r with
  | inl e => (Handshake (set_step s' 4), inl e)
  | inr m => (if h_step s =? 2 then split init s' else Handshake s', inr m)
  end.

(** XK.c:1225-1273 *)
Definition lookup_peer_by_id (d : xdev) (id : Z) : option xpeer :=
  if id =? 0 then None else find (fun p => p_id p =? id) (d_peers d).
(** XK.c:1285-1330 *)
Definition lookup_peer_by_static (d : xdev) (s : bytes) : option xpeer :=
  find (fun p => lbytes_eq 32 (p_s p) s) (d_peers d).

(** XK.c:2960-3035 (initiator, second message), 3236-3315 (responder, first message),
    3316-3500 (responder, third message: the static key of the initiator must be registered) *)
Definition read_msg (init : bool) (d : xdev) (s : hs) (outlen : Z) (input : bytes) : hs * (xerr + bytes * option xpeer) :=
  if 3 <=? h_step s then (s, inl CIncorrect_transition)
  else if negb (Bool.eqb init (h_step s mod 2 =? 1)) then (s, inl CIncorrect_transition)
  else if negb init && negb (h_step s =? 0) then
    if negb ((outlen <=? 4294967215) && (zlen input =? u32 (64 + outlen))) then (s, inl CInput_size)
    else
      let msg1 := firstn 48 input in let msg2 := skipn 48 input in
      let '(s1, r1) := decrypt_and_hash s 1 msg1 in
      match r1 with
      | None => (s1, inl CDecrypt_error)
      | Some rs =>
          let s1 := set_rs s1 rs in
          match lookup_peer_by_static d rs with
          | None => (s1, inl CRs_rejected_by_policy)
          | Some peer =>
              let '(s2, e) := mix_dh (h_epriv s1) (h_rs s1) s1 in
              match e with
              | Some e => (s2, inl e)
              | None =>
                  let '(s3, r) := decrypt_and_hash s2 0 msg2 in
                  match r with
                  | None => (s3, inl CDecrypt_error)
                  | Some p => (set_step s3 (h_step s + 1), inr (p, Some peer))
                  end
              end
          end
      end
  else
    if negb ((outlen <=? 4294967215) && (zlen input =? u32 (48 + outlen))) then (s, inl CInput_size)
    else
      let tk := firstn 32 input in let body := skipn 32 input in
      let s1 := set_re (set_h s (mix_hash (h_h s) tk)) tk in
      let '(s2, e) := mix_dh (if init then h_epriv s1 else h_spriv s1) (h_re s1) s1 in
      match e with
      | Some e => (s2, inl e)
      | None =>
          let '(s3, r) := decrypt_and_hash s2 0 body in
          match r with
          | None => (s3, inl CDecrypt_error)
          | Some p => (set_step s3 (h_step s + 1), inr (p, None))
          end
      end.

(** XK.c:3346-3449: the registered peer that a responder finds while it reads the third message, whether or not the
    rest of the message is then accepted *)
Definition found_peer (init : bool) (d : xdev) (s : hs) (outlen : Z) (input : bytes) : option xpeer :=
  if 3 <=? h_step s then None
  else if negb (Bool.eqb init (h_step s mod 2 =? 1)) then None
  else if negb init && negb (h_step s =? 0) then
    if negb ((outlen <=? 4294967215) && (zlen input =? u32 (64 + outlen))) then None
    else match snd (decrypt_and_hash s 1 (firstn 48 input)) with
         | None => None
         | Some rs => lookup_peer_by_static d rs
         end
  else None.

(** XK.c:2925-3852.  The peer found in step 2 becomes the peer of the session; its name is stored as soon as it is
    found (3441), so a session that then rejects the message keeps the name, but not the identifier. *)
Definition state_handshake_read (sn : xsess) (s : hs) (d : xdev) (outlen : Z) (input : bytes) : xsess * (xerr + bytes) :=
  let '(s', r) := read_msg (s_init sn) d s outlen input in
  match r with
  | inl e =>
      let pinfo := match found_peer (s_init sn) d s outlen input with Some q => p_info q | None => s_pinfo sn end in
      (mkXsess (s_init sn) (Handshake (set_step s' 4)) (s_id sn) (s_pid sn) pinfo, inl e)
  | inr (p, peer) =>
      let st := if h_step s =? 2 then split (s_init sn) s' else Handshake s' in
      match peer with
      | Some q => (mkXsess (s_init sn) st (s_id sn) (p_id q) (p_info q), inr p)
      | None => (mkXsess (s_init sn) st (s_id sn) (s_pid sn) (s_pinfo sn), inr p)
      end
  end.

(** XK.c:3855-4075 *)
Definition state_transport_write (t : tr) (p : bytes) (clen : Z) : tr * (xerr + bytes) :=
  if negb ((zlen p <=? 4294967279) && (clen =? u32 (zlen p + 16))) then (t, inl CInput_size)
  else if 18446744073709551615 <=? t_sn t then (t, inl CSaturated_nonce)
  else (mkTr (t_h t) (t_recv t) (t_skey t) (u64 (t_sn t + 1)) (t_rkey t) (t_rn t), inr (aead_encrypt (t_skey t) (t_sn t) [] p)).

(** XK.c:4078-4338 *)
Definition state_transport_read (t : tr) (plen : Z) (c : bytes) : tr * (xerr + bytes) :=
  if negb ((plen <=? 4294967279) && (zlen c =? u32 (plen + 16))) then (t, inl CInput_size)
  else if 18446744073709551615 <=? t_rn t then (t, inl CSaturated_nonce)
  else match aead_decrypt (t_rkey t) (t_rn t) [] c with
       | None => (t, inl CDecrypt_error)
       | Some p => (mkTr (t_h t) true (t_skey t) (t_sn t) (t_rkey t) (u64 (t_rn t + 1)), inr p)
       end.

(** XK.c:137-169 and 171-174 *)
Definition pack_message_with_conf_level (level : Z) (msg : bytes) : encap := mkEncap (Conf_level level) msg.
Definition pack_message (msg : bytes) : encap := pack_message_with_conf_level 5 msg.
(** XK.c:176-216, 218-230; None = false *)
Definition unpack_message_with_auth_level (level : Z) (m : encap) : option bytes :=
  if zlen (em_msg m) =? 0 then Some (em_msg m)
  else match em_level m with
       | Auth_level l => if level <=? l then Some (em_msg m) else None
       | _ => None
       end.
Definition unpack_message (m : encap) : option bytes := unpack_message_with_auth_level 2 m.

(** XK.c:4389-4408, 4499-4520 and the copies for responders *)
Definition sec_ok (clevel : Z) (m : encap) : bool :=
  if zlen (em_msg m) =? 0 then true
  else match em_level m with
       | Conf_level r => ((2 <=? r) && (r <=? clevel)) || ((r =? 1) && ((clevel =? r) || (3 <=? clevel))) || (r =? 0)
       | _ => false
       end.
(** XK.c:4391-4396 (transport), 4504-4511 (handshake) *)
Definition conf_level (st : xst) : Z :=
  match st with Transport _ => 5 | Handshake s => if h_step s =? 0 then 2 else if h_step s =? 1 then 1 else 5 end.
(** XK.c:4876-4882 and copies, 4861 (transport) *)
Definition auth_level (st : xst) : Z :=
  match st with Transport _ => 2 | Handshake s => if h_step s =? 0 then 0 else 2 end.

(** XK.c:5204-5320, also inlined at 4377-4386 and 4466-4490; None = false *)
Definition compute_next_message_len (st : xst) (len : Z) : option Z :=
  match st with
  | Transport _ => if len <=? 4294967279 then Some (u32 (len + 16)) else None
  | Handshake s =>
      if h_step s =? 0 then if len <=? 4294967215 then Some (u32 (len + 48)) else None
      else if h_step s =? 1 then if len <=? 4294967215 then Some (u32 (len + 48)) else None
      else if h_step s =? 2 then if len <=? 4294967215 then Some (u32 (len + 64)) else None
      else None
  end.

Definition with_st (sn : xsess) (st : xst) : xsess := mkXsess (s_init sn) st (s_id sn) (s_pid sn) (s_pinfo sn).

(** XK.c:4361-4812.  The output is [None] (NULL, length 0) unless the code is [RSuccess]. *)
Definition session_write (m : encap) (sn : xsess) : xsess * rcode * option bytes :=
  match s_st sn with
  | Transport t =>
      match compute_next_message_len (s_st sn) (zlen (em_msg m)) with
      | None => (sn, RError CInput_size, None)
      | Some outlen =>
          if sec_ok (conf_level (s_st sn)) m then
            let '(t', r) := state_transport_write t (em_msg m) outlen in
            match r with
            | inr c => (with_st sn (Transport t'), RSuccess, Some c)
            | inl e => (sn, RError e, None)
            end
          else (sn, RError CSecurity_level, None)
      end
  | Handshake s =>
      if 4 <=? h_step s then (sn, RStuck CIncorrect_transition, None)
      else
        match compute_next_message_len (s_st sn) (zlen (em_msg m)) with
        | None => (sn, RError CInput_size, None)
        | Some outlen =>
            if sec_ok (conf_level (s_st sn)) m then
              let '(st, r) := state_handshake_write (s_init sn) s (em_msg m) outlen in
              match r with
              | inr c => (with_st sn st, RSuccess, Some c)
              | inl e => (with_st sn st, RStuck e, None)
              end
            else (sn, RError CSecurity_level, None)
        end
  end.

(** XK.c:4824-5195: the length of the payload of a message that arrives *)
Definition payload_len (st : xst) (inlen : Z) : option Z :=
  match st with
  | Transport _ => if 16 <=? inlen then Some (inlen - 16) else None
  | Handshake s =>
      if (h_step s =? 0) || (h_step s =? 1) then if 48 <=? inlen then Some (inlen - 48) else None
      else if h_step s =? 2 then if 64 <=? inlen then Some (inlen - 64) else None
      else None
  end.

(** XK.c:4824-5195; [d]: the device the session belongs to, as it is now *)
Definition session_read (d : xdev) (sn : xsess) (input : bytes) : xsess * rcode * option encap :=
  match s_st sn with
  | Transport t =>
      match payload_len (s_st sn) (zlen input) with
      | None => (sn, RError CInput_size, None)
      | Some outlen =>
          let '(t', r) := state_transport_read t outlen input in
          match r with
          | inr p => (with_st sn (Transport t'), RSuccess, Some (mkEncap (Auth_level (auth_level (s_st sn))) p))
          | inl e => (sn, RError e, None)
          end
      end
  | Handshake s =>
      if 4 <=? h_step s then (sn, RStuck CIncorrect_transition, None)
      else if Bool.eqb (s_init sn) (h_step s mod 2 =? 1) && (h_step s <? 3) then
        match payload_len (s_st sn) (zlen input) with
        | None => (sn, RError CInput_size, None)
        | Some outlen =>
            let '(sn', r) := state_handshake_read sn s d outlen input in
            match r with
            | inr p => (sn', RSuccess, Some (mkEncap (Auth_level (auth_level (s_st sn))) p))
            | inl e => (sn', RStuck e, None)
            end
        end
      else (sn, RError CIncorrect_transition, None)
  end.

(** XK.c:5325-5378 *)
Inductive status : Set := Handshake_read | Handshake_write | Transport_status.
Definition session_get_status (sn : xsess) : status :=
  match s_st sn with
  | Transport _ => Transport_status
  | Handshake s => if Bool.eqb (s_init sn) (h_step s mod 2 =? 0) then Handshake_write else Handshake_read
  end.
(** XK.c:5390-5420 *)
Definition session_get_hash (sn : xsess) : bytes := match s_st sn with Handshake s => h_h s | Transport t => t_h t end.
(** XK.c:5567-5582 *)
Definition session_get_peer_id (sn : xsess) : Z := s_pid sn.
(** XK.c:5590-5728; None = false *)
Definition session_get_peer_info (sn : xsess) : option bytes := if negb (s_pid sn =? 0) then Some (s_pinfo sn) else None.
(** XK.c:5734-5777 *)
Definition session_reached_max_security (sn : xsess) : bool :=
  match s_st sn with Transport t => if s_init sn then t_recv t else true | Handshake _ => false end.
(** XK.c:5422-5437 *)
Definition session_get_id (sn : xsess) : Z := s_id sn.
(** XK.c:5204-5318; None = false *)
Definition session_compute_next_message_len (sn : xsess) (len : Z) : option Z := compute_next_message_len (s_st sn) len.

(** * Devices *)

(** XK.c:324-426 *)
Definition device_create (prologue info sk spriv : bytes) : option xdev :=
  Some (mkXdev info sk spriv (x_base X spriv) prologue 1 [] 1).

(** XK.c:445-566: the static secret key arrives encrypted with [sk], the name as additional data *)
Definition device_create_from_secret (prologue info sk enc : bytes) : option xdev :=
  match aead_decrypt sk (bytes_to_nonce enc) info (firstn 48 (skipn 8 enc)) with
  | None => None
  | Some spriv => Some (mkXdev info sk spriv (x_base X spriv) prologue 1 [] 1)
  end.

(** XK.c:626-671; [n8]: eight random bytes *)
Definition serialize_device_secret (d : xdev) (n8 : bytes) : bytes :=
  firstn 8 n8 ++ aead_encrypt (d_sk d) (bytes_to_nonce n8) (d_info d) (d_spriv d).

(** XK.c:697-834 *)
Definition device_add_peer (d : xdev) (info rs : bytes) : option (xdev * xpeer) :=
  let b1 := d_pcount d =? 4294967295 in
  let b2 := match lookup_peer_by_static d rs with Some _ => true | None => false end in
  if b1 || b2 then None
  else
    let p := mkXpeer (d_pcount d) info rs in
    Some (mkXdev (d_info d) (d_sk d) (d_spriv d) (d_spub d) (d_prologue d) (d_states d) (p :: d_peers d) (u32 (d_pcount d + 1)), p).

(** XK.c:851-931: unlinks the first peer with this identifier *)
Fixpoint unlink (pid : Z) (l : list xpeer) : list xpeer :=
  match l with
  | [] => []
  | p :: l' => if p_id p =? pid then l' else p :: unlink pid l'
  end.
Definition device_remove_peer (d : xdev) (pid : Z) : xdev :=
  if pid =? 0 then d
  else mkXdev (d_info d) (d_sk d) (d_spriv d) (d_spub d) (d_prologue d) (d_states d) (unlink pid (d_peers d)) (d_pcount d).

(** XK.c:945-1007 *)
Definition serialize_peer_secret (d : xdev) (p : xpeer) (n8 : bytes) : bytes :=
  firstn 8 n8 ++ aead_encrypt (d_sk d) (bytes_to_nonce n8) (p_info p) (p_s p).
(** XK.c:1012-1213 *)
Definition deserialize_peer_secret (d : xdev) (name enc : bytes) : option (xdev * xpeer) :=
  if negb (56 =? zlen enc) then None
  else match aead_decrypt (d_sk d) (bytes_to_nonce enc) name (skipn 8 enc) with
       | None => None
       | Some rs => device_add_peer d name rs
       end.

Definition count_session (d : xdev) : xdev :=
  mkXdev (d_info d) (d_sk d) (d_spriv d) (d_spub d) (d_prologue d) (u32 (d_states d + 1)) (d_peers d) (d_pcount d).

(** XK.c:1553-1865; [epriv]: 32 random bytes.  The name has 33 bytes and is padded with zeros. *)
Definition initial_hash : bytes := pname ++ zeros 31.
Definition session_create_initiator (d : xdev) (pid : Z) (epriv : bytes) : option (xdev * xsess) :=
  let epub := x_base X epriv in
  if d_states d =? 4294967295 then None
  else match lookup_peer_by_id d pid with
       | None => None
       | Some peer =>
           let h := mix_hash (mix_hash initial_hash (d_prologue d)) (p_s peer) in
           Some (count_session d,
             mkXsess true (Handshake (mkHs 0 (zeros 32) initial_hash h (d_spriv d) (d_spub d) epriv epub (p_s peer) (zeros 32)))
               (d_states d) pid (p_info peer))
       end.

(** XK.c:1872-2079 *)
Definition session_create_responder (d : xdev) (epriv : bytes) : option (xdev * xsess) :=
  let epub := x_base X epriv in
  if d_states d =? 4294967295 then None
  else
    let h := mix_hash (mix_hash initial_hash (d_prologue d)) (d_spub d) in
    Some (count_session d,
      mkXsess false (Handshake (mkHs 0 (zeros 32) initial_hash h (d_spriv d) (d_spub d) epriv epub (zeros 32) (zeros 32)))
        (d_states d) 0 []).

End Model.
