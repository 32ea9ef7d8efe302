(** What the Noise XK library is for, independently of how it is written.

    Part 1 is the Noise protocol framework (revision 34 of the specification by Perrin,
    noiseprotocol.org), transcribed from its sections 4, 5 and 7: cipher states, symmetric states,
    handshake states, the tokens of message patterns, and the pattern XK, with the 25519,
    ChaChaPoly and BLAKE2b functions as parameters.  Part 2 is what an application sees of a
    session that follows it.  The remaining parts specify the channel and the registry of peers. *)
From Coq Require Import ZArith List Bool.
From Coq.Strings Require Import Byte.
From Verif Require Import Bytes Res Mem XkModel.
Import ListNotations.
Open Scope list_scope.
Open Scope Z_scope.

Section Noise.
Variable X : xprims.

(** * Part 1: the framework *)

(** Section 4: functions.  HASHLEN = 64 and BLOCKLEN = 128 (BLAKE2b), DHLEN = 32 (25519). *)
Definition HASH (m : bytes) : bytes := x_hash X m.
(** RFC 2104, quoted by section 4.3 *)
Definition xor_bytes (a b : bytes) : bytes := map (fun '(x, y) => zb (Z.lxor (bz x) (bz y))) (combine a b).
Definition HMAC (key text : bytes) : bytes :=
  let K0 := if 128 <? zlen key then HASH key ++ zeros (128 - 64) else key ++ zeros (128 - length key) in
  HASH (xor_bytes K0 (repeat (zb 92) 128) ++ HASH (xor_bytes K0 (repeat (zb 54) 128) ++ text)).
Definition HKDF (ck ikm : bytes) : bytes * bytes :=
  let temp_key := HMAC ck ikm in
  let output1 := HMAC temp_key [zb 1] in
  let output2 := HMAC temp_key (output1 ++ [zb 2]) in
  (output1, output2).
(** section 12.3: the 96-bit nonce is 32 bits of zeros and the little-endian 64-bit n *)
Definition ENCRYPT (k : bytes) (n : Z) (ad plaintext : bytes) : bytes := x_seal X k (zeros 4 ++ le_bytes 8 n) ad plaintext.
Definition DECRYPT (k : bytes) (n : Z) (ad ciphertext : bytes) : option bytes := x_open X k (zeros 4 ++ le_bytes 8 n) ad ciphertext.

(** Section 5.1: CipherState.  2^64-1 is reserved: using it is an error. *)
Record cipher_state : Set := mkCS { cs_k : option bytes; cs_n : Z }.
Definition EncryptWithAd (c : cipher_state) (ad p : bytes) : option (cipher_state * bytes) :=
  match cs_k c with
  | None => Some (c, p)
  | Some k => if cs_n c =? 2 ^ 64 - 1 then None else Some (mkCS (Some k) (cs_n c + 1), ENCRYPT k (cs_n c) ad p)
  end.
Definition DecryptWithAd (c : cipher_state) (ad m : bytes) : option (cipher_state * bytes) :=
  match cs_k c with
  | None => Some (c, m)
  | Some k =>
      if cs_n c =? 2 ^ 64 - 1 then None
      else match DECRYPT k (cs_n c) ad m with
           | Some p => Some (mkCS (Some k) (cs_n c + 1), p)
           | None => None
           end
  end.

(** Section 5.2: SymmetricState *)
Record sym_state : Set := mkSS { ss_c : cipher_state; ss_ck : bytes; ss_h : bytes }.
Definition InitializeSymmetric (name : bytes) : sym_state :=
  let h := if zlen name <=? 64 then name ++ zeros (64 - length name) else HASH name in
  mkSS (mkCS None 0) h h.
Definition MixKey (s : sym_state) (ikm : bytes) : sym_state :=
  let '(ck, temp_k) := HKDF (ss_ck s) ikm in mkSS (mkCS (Some (firstn 32 temp_k)) 0) ck (ss_h s).
Definition MixHash (s : sym_state) (data : bytes) : sym_state := mkSS (ss_c s) (ss_ck s) (HASH (ss_h s ++ data)).
Definition EncryptAndHash (s : sym_state) (p : bytes) : option (sym_state * bytes) :=
  match EncryptWithAd (ss_c s) (ss_h s) p with
  | Some (c, m) => Some (MixHash (mkSS c (ss_ck s) (ss_h s)) m, m)
  | None => None
  end.
Definition DecryptAndHash (s : sym_state) (m : bytes) : option (sym_state * bytes) :=
  match DecryptWithAd (ss_c s) (ss_h s) m with
  | Some (c, p) => Some (MixHash (mkSS c (ss_ck s) (ss_h s)) m, p)
  | None => None
  end.
Definition Split (s : sym_state) : cipher_state * cipher_state :=
  let '(k1, k2) := HKDF (ss_ck s) [] in (mkCS (Some (firstn 32 k1)) 0, mkCS (Some (firstn 32 k2)) 0).

(** Section 5.3: HandshakeState.  A key pair is (private, public). *)
Inductive token : Set := TE | TS | TEE | TES | TSE | TSS.
Record hand_state : Set := mkHS {
  hs_sym : sym_state; hs_s : bytes * bytes; hs_e : bytes * bytes;
  hs_rs : option bytes; hs_re : option bytes; hs_initiator : bool; hs_patterns : list (list token)
}.
Definition set_sym (s : hand_state) (y : sym_state) : hand_state :=
  mkHS y (hs_s s) (hs_e s) (hs_rs s) (hs_re s) (hs_initiator s) (hs_patterns s).
Definition DH (pair : bytes * bytes) (pub : option bytes) : option bytes :=
  match pub with Some q => x_dh X (fst pair) q | None => None end.
(** the key pair and public key that a DH token names *)
Definition dh_of (t : token) (s : hand_state) : option bytes :=
  match t with
  | TEE => DH (hs_e s) (hs_re s)
  | TES => if hs_initiator s then DH (hs_e s) (hs_rs s) else DH (hs_s s) (hs_re s)
  | TSE => if hs_initiator s then DH (hs_s s) (hs_re s) else DH (hs_e s) (hs_rs s)
  | TSS => DH (hs_s s) (hs_rs s)
  | TE | TS => None
  end.
Definition write_token (t : token) (s : hand_state) : option (hand_state * bytes) :=
  match t with
  | TE => Some (set_sym s (MixHash (hs_sym s) (snd (hs_e s))), snd (hs_e s))
  | TS => match EncryptAndHash (hs_sym s) (snd (hs_s s)) with Some (y, m) => Some (set_sym s y, m) | None => None end
  | _ => match dh_of t s with Some k => Some (set_sym s (MixKey (hs_sym s) k), []) | None => None end
  end.
Definition read_token (t : token) (s : hand_state) (msg : bytes) : option (hand_state * bytes) :=
  match t with
  | TE =>
      let re := firstn 32 msg in
      Some (mkHS (MixHash (hs_sym s) re) (hs_s s) (hs_e s) (hs_rs s) (Some re) (hs_initiator s) (hs_patterns s), skipn 32 msg)
  | TS =>
      let len := match cs_k (ss_c (hs_sym s)) with Some _ => 48%nat | None => 32%nat end in
      match DecryptAndHash (hs_sym s) (firstn len msg) with
      | Some (y, rs) => Some (mkHS y (hs_s s) (hs_e s) (Some rs) (hs_re s) (hs_initiator s) (hs_patterns s), skipn len msg)
      | None => None
      end
  | _ => match dh_of t s with Some k => Some (set_sym s (MixKey (hs_sym s) k), msg) | None => None end
  end.
Fixpoint write_tokens (ts : list token) (s : hand_state) : option (hand_state * bytes) :=
  match ts with
  | [] => Some (s, [])
  | t :: ts' =>
      match write_token t s with
      | Some (s1, m1) => match write_tokens ts' s1 with Some (s2, m2) => Some (s2, m1 ++ m2) | None => None end
      | None => None
      end
  end.
Fixpoint read_tokens (ts : list token) (s : hand_state) (msg : bytes) : option (hand_state * bytes) :=
  match ts with
  | [] => Some (s, msg)
  | t :: ts' => match read_token t s msg with Some (s1, rest) => read_tokens ts' s1 rest | None => None end
  end.
Definition pop_pattern (s : hand_state) : hand_state :=
  mkHS (hs_sym s) (hs_s s) (hs_e s) (hs_rs s) (hs_re s) (hs_initiator s) (tl (hs_patterns s)).
Definition WriteMessage (s : hand_state) (payload : bytes) : option (hand_state * bytes) :=
  match write_tokens (hd [] (hs_patterns s)) s with
  | Some (s1, m1) =>
      match EncryptAndHash (hs_sym s1) payload with
      | Some (y, m2) => Some (pop_pattern (set_sym s1 y), m1 ++ m2)
      | None => None
      end
  | None => None
  end.
Definition ReadMessage (s : hand_state) (msg : bytes) : option (hand_state * bytes) :=
  match read_tokens (hd [] (hs_patterns s)) s msg with
  | Some (s1, rest) =>
      match DecryptAndHash (hs_sym s1) rest with
      | Some (y, p) => Some (pop_pattern (set_sym s1 y), p)
      | None => None
      end
  | None => None
  end.

(** Section 7.5: XK:  <- s  ...  -> e, es  <- e, ee  -> s, se *)
Definition XK : list (list token) := [[TE; TES]; [TE; TEE]; [TS; TSE]].
(** the ASCII text "Noise_XK_25519_ChaChaPoly_BLAKE2b" *)
Definition protocol_name : bytes :=
  [x4e; x6f; x69; x73; x65; x5f; x58; x4b; x5f; x32; x35; x35; x31; x39; x5f; x43; x68; x61; x43; x68; x61;
   x50; x6f; x6c; x79; x5f; x42; x4c; x41; x4b; x45; x32; x62].
(** [Initialize]: the prologue and the static key of the responder, known beforehand, are hashed *)
Definition Initialize (initiator : bool) (prologue : bytes) (s e : bytes * bytes) (rs : option bytes) : hand_state :=
  let y := MixHash (InitializeSymmetric protocol_name) prologue in
  let y := MixHash y (if initiator then match rs with Some q => q | None => [] end else snd s) in
  mkHS y s e rs None initiator XK.

(** * Part 2: a session as an application sees it *)

Inductive nsess : Set :=
  | NHandshake (s : hand_state)
  | NTransport (h : bytes) (send recv : cipher_state)
  | NDead.

Definition my_turn (s : hand_state) : bool := Bool.eqb (hs_initiator s) (Nat.odd (length (hs_patterns s))).
(** how many bytes the next message is longer than its payload *)
Definition overhead (n : nsess) : Z :=
  match n with
  | NHandshake s => if (length (hs_patterns s) =? 1)%nat then 64 else 48
  | _ => 16
  end.
(** after the last pattern the two cipher states of [Split] are for the two directions *)
Definition advance (s : hand_state) : nsess :=
  match hs_patterns s with
  | [] => let '(c1, c2) := Split (hs_sym s) in
          if hs_initiator s then NTransport (ss_h (hs_sym s)) c1 c2 else NTransport (ss_h (hs_sym s)) c2 c1
  | _ => NHandshake s
  end.

(** what an application may ask of a session *)
Inductive xop : Type :=
  | OWrite (p : bytes)              (* send a payload *)
  | ORead (d : xdev) (m : bytes)    (* read a message; [d]: the device as it is then *)
  | OHash.                          (* ask for the handshake hash once the handshake is over *)

(** Sending when it is the other side's turn ends the session; messages that are too short, and
    payloads too long for a 32-bit length, are refused.  A responder accepts only initiators whose
    static key is registered at the device. *)
Definition nstep (o : xop) (n : nsess) : nsess * option bytes :=
  match o with
  | OHash => (n, match n with NTransport h _ _ => Some h | _ => None end)
  | OWrite p =>
      match n with
      | NHandshake s =>
          if 4294967215 <? zlen p then (n, None)
          else if my_turn s then
            match WriteMessage s p with
            | Some (s', m) => (advance s', Some m)
            | None => (NDead, None)
            end
          else (NDead, None)
      | NTransport h snd rcv =>
          if 4294967279 <? zlen p then (n, None)
          else match EncryptWithAd snd [] p with
               | Some (snd', m) => (NTransport h snd' rcv, Some m)
               | None => (n, None)
               end
      | NDead => (NDead, None)
      end
  | ORead d m =>
      match n with
      | NHandshake s =>
          if my_turn s then (n, None)
          else if zlen m <? overhead n then (n, None)
          else match ReadMessage s m with
               | Some (s', p) =>
                   let accepted := hs_initiator s || (negb (length (hs_patterns s) =? 1)%nat)
                     || existsb (fun q => bytes_eqb (p_s q) (match hs_rs s' with Some k => k | None => [] end)) (d_peers d) in
                   if accepted then (advance s', Some p) else (NDead, None)
               | None => (NDead, None)
               end
      | NTransport h snd rcv =>
          if zlen m <? overhead n then (n, None)
          else match DecryptWithAd rcv [] m with
               | Some (rcv', p) => (NTransport h snd rcv', Some p)
               | None => (n, None)
               end
      | NDead => (NDead, None)
      end
  end.

(** the same requests put to the library *)
Definition mstep (o : xop) (s : xsess) : xsess * option bytes :=
  match o with
  | OHash => (s, match session_get_status s with Transport_status => Some (session_get_hash s) | _ => None end)
  | OWrite p =>
      let '(s', _, m) := session_write X (pack_message_with_conf_level 0 p) s in (s', m)
  | ORead d m =>
      let '(s', _, r) := session_read X d s m in
      (s', match r with Some e => unpack_message_with_auth_level 0 e | None => None end)
  end.

Fixpoint answers {S : Type} (step : xop -> S -> S * option bytes) (ops : list xop) (s : S) : list (option bytes) :=
  match ops with
  | [] => []
  | o :: ops' => let '(s', r) := step o s in r :: answers step ops' s'
  end.
(** the lengths of arguments are 32-bit numbers; registered keys have 32 bytes *)
Definition op_ok (o : xop) : Prop :=
  match o with
  | OWrite p => zlen p < 2 ^ 32
  | ORead d m => zlen m <= 2 ^ 32 - 64 /\ Forall (fun q => zlen (p_s q) = 32) (d_peers d)
  | OHash => True
  end.

(** * Part 3: two ends of a channel

    [true] is the initiator.  Messages of each direction arrive in the order sent. *)
Inductive event : Set := Send (who : bool) (p : bytes) | Deliver (who : bool).

(** what should happen: two queues of payloads *)
Fixpoint queues (es : list event) (to_resp to_init : list bytes) : list (option bytes) :=
  match es with
  | [] => []
  | Send true p :: es' => queues es' (to_resp ++ [p]) to_init
  | Send false p :: es' => queues es' to_resp (to_init ++ [p])
  | Deliver false :: es' => match to_resp with [] => None :: queues es' [] to_init | p :: q => Some p :: queues es' q to_init end
  | Deliver true :: es' => match to_init with [] => None :: queues es' to_resp [] | p :: q => Some p :: queues es' to_resp q end
  end.
(** what does happen: two sessions, two queues of messages.  [None] is also the answer when the
    library refuses; a message it cannot send is not put in the queue. *)
Fixpoint channel (es : list event) (di dr : xdev) (si sr : xsess) (to_resp to_init : list bytes) : list (option bytes) :=
  match es with
  | [] => []
  | Send true p :: es' =>
      let '(si', _, m) := session_write X (pack_message p) si in
      channel es' di dr si' sr (to_resp ++ match m with Some c => [c] | None => [] end) to_init
  | Send false p :: es' =>
      let '(sr', _, m) := session_write X (pack_message p) sr in
      channel es' di dr si sr' to_resp (to_init ++ match m with Some c => [c] | None => [] end)
  | Deliver false :: es' =>
      match to_resp with
      | [] => None :: channel es' di dr si sr [] to_init
      | c :: q =>
          let '(sr', _, r) := session_read X dr sr c in
          match r with Some e => unpack_message e | None => None end :: channel es' di dr si sr' q to_init
      end
  | Deliver true :: es' =>
      match to_init with
      | [] => None :: channel es' di dr si sr to_resp []
      | c :: q =>
          let '(si', _, r) := session_read X di si c in
          match r with Some e => unpack_message e | None => None end :: channel es' di dr si' sr to_resp q
      end
  end.
Definition payload_of (e : event) : bytes := match e with Send _ p => p | Deliver _ => [] end.

(** * Part 4: the registry of peers *)
Inductive rop : Set :=
  | RAdd (name key : bytes)        (* device_add_peer *)
  | RRestore (name blob : bytes)   (* deserialize_peer_secret *)
  | RRemove (id : Z)
  | RSession (pid : Z) (epriv : bytes).  (* device_create_... session: pid 0 for a responder *)
Definition rop_ok (o : rop) : Prop := match o with RAdd _ key => zlen key = 32 | _ => True end.

(** the device and the entry that the request created, if any *)
Definition rstep (o : rop) (d : xdev) : xdev * option xpeer :=
  match o with
  | RAdd name key => match device_add_peer d name key with Some (d', p) => (d', Some p) | None => (d, None) end
  | RRestore name blob => match deserialize_peer_secret X d name blob with Some (d', p) => (d', Some p) | None => (d, None) end
  | RRemove id => (device_remove_peer d id, None)
  | RSession pid e =>
      match (if pid =? 0 then session_create_responder X d e else session_create_initiator X d pid e) with
      | Some (d', _) => (d', None)
      | None => (d, None)
      end
  end.
Fixpoint rrun (ops : list rop) (d : xdev) : xdev * list (rop * option xpeer) :=
  match ops with
  | [] => (d, [])
  | o :: ops' => let '(d1, r) := rstep o d in let '(d2, tr) := rrun ops' d1 in (d2, (o, r) :: tr)
  end.
(** an entry is live after a history when some request of the history created it and no later
    request removed its identifier *)
Definition live (tr : list (rop * option xpeer)) (p : xpeer) : Prop :=
  exists before o after, tr = before ++ (o, Some p) :: after /\ forall r, ~ In (RRemove (p_id p), r) after.
(** the identifiers given out by a history, in order *)
Fixpoint ids_of (tr : list (rop * option xpeer)) : list Z :=
  match tr with
  | [] => []
  | (_, Some p) :: tr' => p_id p :: ids_of tr'
  | _ :: tr' => ids_of tr'
  end.

(** * Part 5: histories of one session *)

(** any request to a session: a packed message to send, or bytes that arrived (and the device as
    it is then); any return code; what came out *)
Inductive gop : Type := GWrite (m : encap) | GRead (d : xdev) (input : bytes).
Inductive gout : Set := GMessage (c : bytes) | GPayload (e : encap) | GNothing.
Definition gstep (o : gop) (s : xsess) : xsess * rcode * gout :=
  match o with
  | GWrite m => let '(s', c, r) := session_write X m s in (s', c, match r with Some b => GMessage b | None => GNothing end)
  | GRead d i => let '(s', c, r) := session_read X d s i in (s', c, match r with Some e => GPayload e | None => GNothing end)
  end.
Fixpoint grun (ops : list gop) (s : xsess) : xsess * list (gop * rcode * gout) :=
  match ops with
  | [] => (s, [])
  | o :: ops' => let '(s1, c, r) := gstep o s in let '(s2, tr) := grun ops' s1 in (s2, (o, c, r) :: tr)
  end.
Definition succeeded (e : gop * rcode * gout) : bool := match e with (_, RSuccess, _) => true | _ => false end.
(** lengths are 32-bit numbers *)
Definition gop_ok (o : gop) : Prop := match o with GWrite m => zlen (em_msg m) < 2 ^ 32 | GRead _ i => zlen i < 2 ^ 32 end.
Definition in_transport (s : xsess) : Prop := session_get_status s = Transport_status.
(** a session that can never do anything again *)
Definition dead (s : xsess) : Prop :=
  forall o, gop_ok o -> gstep o s = (s, RStuck CIncorrect_transition, GNothing).

(** Noise specification, section 7.7, the row XK: the security properties of the payload of each
    message: authentication of the sender, confidentiality against active attackers *)
Definition payload_security (i : nat) : Z * Z := match i with O => (0, 2) | 1%nat => (2, 1) | _ => (2, 5) end.
(** what each message adds to its payload *)
Definition message_overhead (i : nat) : Z := match i with O | 1%nat => 48 | 2%nat => 64 | _ => 16 end.
(** Is a requested confidentiality level met by the level provided?  Level 1 (encryption to an
    ephemeral recipient) is not part of the order: level 2 (encryption to a known recipient,
    forward secrecy for the sender only) does not provide it. *)
Definition conf_met (requested provided : Z) : Prop :=
  requested = 0 \/ (requested = 1 /\ (provided = 1 \/ 3 <= provided)) \/ (2 <= requested <= provided).

(** the payloads and messages of the successful sends / receipts of a history *)
Definition sent (tr : list (gop * rcode * gout)) : list (bytes * bytes) :=
  flat_map (fun e => match e with (GWrite m, RSuccess, GMessage c) => [(em_msg m, c)] | _ => [] end) tr.
Definition received (tr : list (gop * rcode * gout)) : list (bytes * bytes) :=
  flat_map (fun e => match e with (GRead _ c, RSuccess, GPayload m) => [(em_msg m, c)] | _ => [] end) tr.

(** a session that some device created and that was then used in any way *)
Definition session_of (s : xsess) : Prop :=
  exists d pid e d' s0 ops tr,
    (session_create_responder X d e = Some (d', s0) \/ session_create_initiator X d pid e = Some (d', s0))
    /\ Forall gop_ok ops /\ grun ops s0 = (s, tr).
(** a device that was created from a key and whose registry was then changed in any way *)
Definition device_of (d : xdev) : Prop :=
  exists prologue info sk spriv d0 ops tr,
    device_create X prologue info sk spriv = Some d0 /\ Forall rop_ok ops /\ rrun ops d0 = (d, tr).
(** a request that does not fit the 32-bit lengths of messages *)
Definition oversized (o : gop) : Prop :=
  match o with GWrite m => 4294967215 < zlen (em_msg m) | GRead _ i => 4294967263 < zlen i end.

(** what is asked of the [k]-th message of a session: it is as long as its payload and the overhead
    together; its payload is sent only when the security it gets meets the level asked for, and is
    received with the authentication level of the specification *)
Definition good (k : nat) (e : gop * rcode * gout) : Prop :=
  match e with
  | (GWrite m, RSuccess, GMessage c) =>
      zlen c = zlen (em_msg m) + message_overhead k /\ zlen c < 2 ^ 32
      /\ (em_msg m <> [] -> exists r, em_level m = Conf_level r /\ conf_met r (snd (payload_security k)))
  | (GRead _ i, RSuccess, GPayload p) =>
      zlen i = zlen (em_msg p) + message_overhead k /\ em_level p = Auth_level (fst (payload_security k))
  | (_, RSuccess, _) => False
  | _ => True
  end.

(** the number of successful requests before position [n] of a history is the index of the message *)
Definition index (tr : list (gop * rcode * gout)) (n : nat) : nat := length (filter succeeded (firstn n tr)).

(** two devices that know each other's keys and use the same prologue *)
Definition honest_pair (di dr : xdev) (pid : Z) (peer entry : xpeer) : Prop :=
  d_prologue di = d_prologue dr
  /\ d_spub di = x_base X (d_spriv di) /\ d_spub dr = x_base X (d_spriv dr)
  /\ lookup_peer_by_id di pid = Some peer /\ p_s peer = d_spub dr
  /\ lookup_peer_by_static dr (d_spub di) = Some entry.


End Noise.
