(** What a cheater report says, and what an entry of the list of cheaters stands for.
    [e], [c] and [input] are the clocks, the state and the messages of the call of the trusted
    party that made the entry. *)
From Coq Require Import ZArith List Bool.
From Coq.Strings Require Import Byte.
From Verif Require Import Bytes Res Mem Sodium ToprfModel DkgModel DkgSpec WireModel WireSpec TpCrypto TpModel CheaterModel TpSpec BlameSpec.
Import ListNotations.
Open Scope list_scope.
Open Scope Z_scope.

(** the fault named by a text of tpdkg_recv_err, for a message [f] of which length, number, sender,
    recipient, key, session, window, recorded time stamp and clock are as given *)
Definition fault (S : sigs) (f : fields) (len msgno from to : Z) (pk sid : bytes) (window recorded now : Z) (why : recv_text) : Prop :=
  match why with
  | InvalidLen => f_len f <> len
  | InvalidMsgno => f_msgno f <> msgno
  | InvalidSender => f_from f <> from
  | InvalidRecipient => f_to f <> to
  | InvalidSessionid => f_sid f <> sid
  | Expired => ~ fresh window recorded (f_ts f) now
  | InvalidSignature => sig_verify S pk (header (f_msgno f) (f_len f) (f_from f) (f_to f) (f_ts f) (f_sid f)) (f_sig f) <> true
  | NoError | InvalidCode => False
  end.
(** the [len] bytes at [off] have this fault *)
Definition faulty (S : sigs) (buf : bytes) (off len msgno from to : Z) (pk sid : bytes) (window recorded now : Z) (why : recv_text) : Prop :=
  exists f, fields_ok f /\ rd buf off len = Ok (encode f) /\ fault S f len msgno from to pk sid window recorded now why.

(** the message from peer [p] for peer [o] (255: for all, 0: for the trusted party) that is judged in
    a step: offset, length, number, index of the reading of the clock *)
Definition slot (n t step p o : Z) : option (Z * Z * Z * Z) :=
  match step with
  | 4 => Some (239 * (p - 1), 175, 2, p - 1)
  | 8 => Some (159 * ((p - 1) * n + (o - 1)), 159, 4, (o - 1) * n + (p - 1))
  | 10 => Some (159 * ((p - 1) * n + (o - 1)), 159, 5, (o - 1) * n + (p - 1))
  | 12 => Some ((111 + 32 * t) * (p - 1), 111 + 32 * t, 6, p - 1)
  | 14 => Some (256 * ((p - 1) * n + (o - 1)), 256, 8, (o - 1) * n + (p - 1))
  | 16 => Some ((112 + n) * (p - 1), 112 + n, 9, p - 1)
  | 20 => Some (143 * (p - 1), 143, 20, p - 1)
  | 22 => Some (113 * (p - 1), 113, 22, p - 1)
  | _ => None
  end.
(** the key that must have signed it: in step 4 the one announced in the message itself *)
Definition key_of (c : tp) (input : bytes) (step p : Z) (pk : bytes) : Prop :=
  if step =? 4 then rd input (239 * (p - 1) + 111) 32 = Ok pk else getz (t_pks c) (p - 1) = Ok pk.
(** the recorded time stamp of the sender: the one before the call, or that of an earlier message of
    the same sender in this call *)
Definition seen (c : tp) (input : bytes) (step p o last : Z) : Prop :=
  getz (t_last c) (p - 1) = Ok last \/
  (step = 8 \/ step = 10 \/ step = 14) /\
  exists o' off len msgno clk f, 1 <= o' < o /\ slot (t_n c) (t_t c) step p o' = Some (off, len, msgno, clk) /\
    fields_ok f /\ rd input off len = Ok (encode f) /\ last = f_ts f.
Definition bad_message (C : crypto) (e : env) (c : tp) (input : bytes) (step p o : Z) (why : recv_text) : Prop :=
  1 <= p <= t_n c /\
  exists off len msgno clk pk last, slot (t_n c) (t_t c) step p o = Some (off, len, msgno, clk) /\
    key_of c input step p pk /\ seen c input step p o last /\
    faulty (cS C) input off len msgno p o pk (t_sid c) (t_eps c) last (e_r e clk) why.

(** complaint number [k] (from 0) of peer [p] is about peer [o] *)
Definition complains_at (C : crypto) (e : env) (c : tp) (input : bytes) (p k o : Z) : Prop :=
  1 <= p <= t_n c /\
  (exists pk last, getz (t_pks c) (p - 1) = Ok pk /\ getz (t_last c) (p - 1) = Ok last /\
    accepted C input ((112 + t_n c) * (p - 1)) (112 + t_n c) pk (t_sid c) 9 p 255 (t_eps c) last (e_r e (p - 1))) /\
  (exists count, getz input ((112 + t_n c) * (p - 1) + 111) = Ok count /\ 0 <= k < bz count) /\
  getz input ((112 + t_n c) * (p - 1) + 112 + k) = Ok (zb o) /\ is_byte o.
Definition complains (C : crypto) (e : env) (c : tp) (input : bytes) (p o : Z) : Prop := exists k, complains_at C e c input p k o.

(** [b] complained about [a] *)
Definition complaint (c : tp) (b a : Z) : Prop := In (b * 256 + a) (t_complaints c).
(** the message with the share from [a] for [b] that the trusted party kept has this fault; its own
    time stamp serves as the recorded one *)
Definition bad_share_message (C : crypto) (e : env) (c : tp) (a b : Z) (why : recv_text) : Prop :=
  exists pk f clk, getz (t_pks c) (a - 1) = Ok pk /\ fields_ok f /\ rd (t_enc c) (share_off (t_n c) a b) 256 = Ok (encode f) /\
    fault (cS C) f 256 8 a b pk (t_sid c) (t_eps c) (f_ts f) (e_r e clk) why.
Definition bad_reveal_message (C : crypto) (e : env) (c : tp) (input : bytes) (a : Z) (why : recv_text) : Prop :=
  exists pk last, getz (t_pks c) (a - 1) = Ok pk /\ getz (t_last c) (a - 1) = Ok last /\
    faulty (cS C) input (reveal_off (t_complaints c) a) (reveal_size (t_complaints c) a) 11 a 0 pk (t_sid c) (t_eps c) last (e_r e (a - 1)) why.
(** [a] revealed [key] to answer the complaint of [b] *)
Definition revealed (C : crypto) (e : env) (c : tp) (input : bytes) (a b : Z) (key : bytes) : Prop :=
  1 <= a <= t_n c /\ complaint c b a /\ reveal_accepted C e c input a /\ answers c input a b key.
(** under [key] the authenticator of the encrypted share is wrong *)
Definition wrong_mac (C : crypto) (c : tp) (a b : Z) (key : bytes) : Prop :=
  exists ct mac, rd (t_enc c) (share_off (t_n c) a b + 111 + 64) 49 = Ok ct /\
    rd (t_enc c) (share_off (t_n c) a b + 111 + 64 + 49) 32 = Ok mac /\ mac <> c_auth C key ct.
(** the authenticator is right, but the share does not decrypt *)
Definition undecryptable (C : crypto) (c : tp) (a b : Z) (key : bytes) : Prop :=
  exists ct, rd (t_enc c) (share_off (t_n c) a b + 111 + 64) 49 = Ok ct /\
    rd (t_enc c) (share_off (t_n c) a b + 111 + 64 + 49) 32 = Ok (c_auth C key ct) /\ nz_aead_decrypt (cN C) key ct = None.
(** the share from [a] for [b] decrypts, and fits the commitments of [a] (a share of one's own is not checked) *)
Definition fits (C : crypto) (a b : Z) (row : list bytes) (sh : share) : Prop := a = b \/ matches (cR C) b row (s_value sh).
Definition opened (C : crypto) (e : env) (c : tp) (input : bytes) (a b : Z) (row : list bytes) (sh : share) : Prop :=
  exists key, revealed C e c input a b key /\ opens C c a b key sh /\ getz (t_com c) (a - 1) = Ok row.

(** the digest that peer [p] sent in step 20 is not that of the trusted party's transcript *)
Definition digest_differs (C : crypto) (e : env) (c : tp) (input : bytes) (p : Z) : Prop :=
  1 <= p <= t_n c /\
  (exists pk last, getz (t_pks c) (p - 1) = Ok pk /\ getz (t_last c) (p - 1) = Ok last /\
    accepted C input (143 * (p - 1)) 143 pk (t_sid c) 20 p 0 (t_eps c) last (e_r e (p - 1))) /\
  exists d, rd input (143 * (p - 1) + 111) 32 = Ok d /\ d <> blake2b (cH C) 32 (t_transcript c).

(** When the text of a report is true.
    A message that reveals several keys is judged as a whole: the peer printed by [KeyMsgInvalid] as
    the recipient of the share is 254 and stands for nobody.  A peer is happy ([KeyForHappyPeer])
    if it has no complaint that is still open: none at all, or one that was answered before. *)
Definition true_report (C : crypto) (e : env) (c : tp) (input : bytes) (r : report) : Prop :=
  match r with
  | MessageInvalid step p o why => bad_message C e c input step p o why
  | TooManyComplaints => exists l, NoDup l /\ t_t c * t_t c <= zlen l /\ forall x, In x l -> complains C e c input (complainer_of x) (accused_of x)
  | InvalidAccused p o => complains C e c input p o /\ ~ 1 <= o <= t_n c
  | DuplicateComplaint p o => exists k k', k < k' /\ complains_at C e c input p k o /\ complains_at C e c input p k' o
  | ShareMsgInvalid a b why => (exists key, revealed C e c input a b key) /\ bad_share_message C e c a b why
  | KeyMsgInvalid a _ why => 1 <= a <= t_n c /\ bad_reveal_message C e c input a why
  | NotComplainedAbout a b => reveal_accepted C e c input a /\ (exists k, names_at c input a k b) /\ ~ complaint c b a
  | KeyForHappyPeer a b =>
      1 <= a <= t_n c /\ reveal_accepted C e c input a /\
      exists k, names_at c input a k b /\ (~ complaint c b a \/ exists k', k' < k /\ names_at c input a k' b)
  | HmacFailed a b => exists key, revealed C e c input a b key /\ wrong_mac C c a b key
  | BadShareIndex a index b => index <> b /\ exists row sh, opened C e c input a b row sh /\ s_index sh = index
  | Unverified a b => complaint c b a /\ (~ reveal_accepted C e c input a \/ no_answer c input a b)
  | InvalidParameters a b => exists row sh, opened C e c input a b row sh /\ s_index sh = b /\ ~ usable (cR C) row
  | FalselyAccused a b => exists row sh, opened C e c input a b row sh /\ s_index sh = b /\ fits C a b row sh
  | CaughtCheating a b => exists row sh, opened C e c input a b row sh /\ s_index sh = b /\ ~ fits C a b row sh
  | TranscriptMismatch p => digest_differs C e c input p
  | BadCode16 _ | BadCode18 _ | BadCode20 _ | BadStep _ => False
  end.

(** What an entry stands for: the fact that made the trusted party record it. *)
Inductive happened (C : crypto) (e : env) (c : tp) (input : bytes) : cheater -> Prop :=
| hap_message step r p o : In step [4; 8; 10; 12; 14; 16; 22] -> refused r -> bad_message C e c input step p o (recv_err r) ->
    happened C e c input (mkCheater step (64 + r) p o 0)
| hap_too_many l : NoDup l -> t_t c * t_t c <= zlen l -> (forall x, In x l -> complains C e c input (complainer_of x) (accused_of x)) ->
    happened C e c input (mkCheater 16 6 254 254 0)
| hap_invalid_accused p o : complains C e c input p o -> ~ 1 <= o <= t_n c -> happened C e c input (mkCheater 16 7 p o 0)
| hap_duplicate p o k k' : k < k' -> complains_at C e c input p k o -> complains_at C e c input p k' o ->
    happened C e c input (mkCheater 16 8 p o 0)
| hap_share_message r a b key : refused r -> revealed C e c input a b key -> bad_share_message C e c a b (recv_err r) ->
    happened C e c input (mkCheater 18 (16 + r) a b 0)
| hap_reveal_message r a : refused r -> 1 <= a <= t_n c -> bad_reveal_message C e c input a (recv_err r) ->
    happened C e c input (mkCheater 18 (32 + r) a 254 0)
| hap_mac a b key : revealed C e c input a b key -> wrong_mac C c a b key -> happened C e c input (mkCheater 18 3 a b 0)
| hap_decrypt a b key : revealed C e c input a b key -> undecryptable C c a b key -> happened C e c input (mkCheater 18 4 a b 0)
| hap_index a b row sh : opened C e c input a b row sh -> s_index sh <> b -> happened C e c input (mkCheater 18 5 a b (s_index sh))
| hap_happy a b k : 1 <= a <= t_n c -> reveal_accepted C e c input a -> names_at c input a k b ->
    (~ complaint c b a \/ exists k', k' < k /\ names_at c input a k' b) -> happened C e c input (mkCheater 18 6 a b 0)
| hap_unanswered a b : complaint c b a -> (~ reveal_accepted C e c input a \/ no_answer c input a b) ->
    happened C e c input (mkCheater 18 7 b a 0)
| hap_parameters a b row sh : opened C e c input a b row sh -> s_index sh = b -> ~ usable (cR C) row ->
    happened C e c input (mkCheater 18 127 a b 0)
| hap_false a b row sh : opened C e c input a b row sh -> s_index sh = b -> fits C a b row sh ->
    happened C e c input (mkCheater 18 128 a b 0)
| hap_caught a b row sh : opened C e c input a b row sh -> s_index sh = b -> ~ fits C a b row sh ->
    happened C e c input (mkCheater 18 129 a b 0)
| hap_digest p : digest_differs C e c input p -> happened C e c input (mkCheater 20 1 p 0 0)
| hap_digest_message r p : refused r -> bad_message C e c input 20 p 0 (recv_err r) ->
    happened C e c input (mkCheater 20 (1 + r) p 0 0).

(** the entries whose report is worded wrongly *)
Definition misreported (ch : cheater) : Prop :=
  ch_step ch = 18 /\ In (ch_error ch) [3; 4; 5; 7; 127] \/
  ch_step ch <> 18 /\ ch_step ch <> 20 /\ In (ch_error ch) [65; 71] \/
  ch_step ch = 20 /\ ch_error ch <> 1.
