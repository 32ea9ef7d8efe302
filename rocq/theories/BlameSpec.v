(** Vocabulary of the properties of complaint resolution (step 7) and of cheater reports. *)
From Coq Require Import ZArith List Bool.
From Coq.Strings Require Import Byte.
From Verif Require Import Bytes Res Mem Sodium ToprfModel DkgModel DkgSpec WireModel WireSpec TpCrypto TpModel CheaterModel TpSpec.
Import ListNotations.
Open Scope list_scope.
Open Scope Z_scope.

(** the recipient accepts the [len] bytes at [off]: header fields, signature, freshness *)
Definition accepted (C : crypto) (input : bytes) (off len : Z) (pk sid : bytes) (msgno from to eps last now : Z) : Prop :=
  exists m ts body, rd input off len = Ok m /\ signed (cS C) pk sid msgno from to ts body m /\ fresh eps last ts now.

(** The message in which peer [a] reveals its keys: a header and, for each complaint against it, the
    index of a complainer (1 byte) and a key (32 bytes).  Peers nobody complains about send nothing. *)
Definition reveal_size (complaints : list Z) (a : Z) : Z :=
  if accusations a complaints =? 0 then 0 else 111 + 33 * accusations a complaints.
(** its position in the input of the trusted party: after the messages of the peers before [a] *)
Definition reveal_off (complaints : list Z) (a : Z) : Z :=
  fold_right Z.add 0 (map (reveal_size complaints) (zrange 1 (Z.to_nat (a - 1)))).

(** the trusted party accepts the reveal message of peer [a] *)
Definition reveal_accepted (C : crypto) (e : env) (c : tp) (input : bytes) (a : Z) : Prop :=
  exists pk last, getz (t_pks c) (a - 1) = Ok pk /\ getz (t_last c) (a - 1) = Ok last /\
    accepted C input (reveal_off (t_complaints c) a) (reveal_size (t_complaints c) a) pk (t_sid c) 11 a 0 (t_eps c) last (e_r e (a - 1)).

(** entry [k] of the reveal message of [a] is for complainer [b] *)
Definition names_at (c : tp) (input : bytes) (a k b : Z) : Prop :=
  0 <= k < accusations a (t_complaints c) /\ getz input (reveal_off (t_complaints c) a + 111 + 33 * k) = Ok (zb b).
(** the reveal message of [a] answers the complaint of [b] with this key (the first entry for b counts) *)
Definition answers (c : tp) (input : bytes) (a b : Z) (key : bytes) : Prop :=
  exists k, names_at c input a k b /\ (forall k', 0 <= k' < k -> ~ names_at c input a k' b) /\
    rd input (reveal_off (t_complaints c) a + 111 + 33 * k + 1) 32 = Ok key.
Definition no_answer (c : tp) (input : bytes) (a b : Z) : Prop := forall k, ~ names_at c input a k b.

(** position of the message with the encrypted share from [a] for [b] among those the trusted party keeps *)
Definition share_off (n a b : Z) : Z := ((a - 1) * n + (b - 1)) * msg8_SIZE.
(** that message is signed by [a] and has a sensible time stamp *)
Definition share_kept (C : crypto) (c : tp) (a b : Z) : Prop :=
  exists pk m ts body, getz (t_pks c) (a - 1) = Ok pk /\ rd (t_enc c) (share_off (t_n c) a b) msg8_SIZE = Ok m /\
    signed (cS C) pk (t_sid c) 8 a b ts body m /\ 0 < ts /\ 0 <= t_eps c /\ ts + t_eps c < 2 ^ 64.
(** under [key] it authenticates and decrypts to the share [sh] *)
Definition opens (C : crypto) (c : tp) (a b : Z) (key : bytes) (sh : share) : Prop :=
  exists ct pt, rd (t_enc c) (share_off (t_n c) a b + 111 + 64) 49 = Ok ct /\
    rd (t_enc c) (share_off (t_n c) a b + 111 + 64 + 49) 32 = Ok (c_auth C key ct) /\
    nz_aead_decrypt (cN C) key ct = Some pt /\ sh = share_of pt.

(** the peer a report names as the culprit (0: nobody) *)
Definition blames (ch : cheater) : Z := snd (cheater_msg ch).

(** the cheaters recorded by a call *)
Definition recorded (c c' : tp) (new : list cheater) : Prop := t_cheaters c' = t_cheaters c ++ new.

(** The entries the trusted party can add to the list of cheaters.
    [refused r]: the code with which a received message is refused. *)
Definition refused (r : Z) : Prop := 1 <= r <= 7.
Inductive recordable (n : Z) : cheater -> Prop :=
| rec_message step r p o : 1 <= p <= n -> In step [4; 8; 10; 12; 14; 16; 22] -> refused r -> recordable n (mkCheater step (64 + r) p o 0)
| rec_too_many : recordable n (mkCheater 16 6 254 254 0)
| rec_bad_complaint e p o : 1 <= p <= n -> In e [7; 8] -> recordable n (mkCheater 16 e p o 0)
| rec_share_message r p o : 1 <= p <= n -> refused r -> recordable n (mkCheater 18 (16 + r) p o 0)
| rec_reveal_message r p o : 1 <= p <= n -> refused r -> recordable n (mkCheater 18 (32 + r) p o 0)
| rec_reveal e p o i : 1 <= p <= n -> In e [3; 4; 5; 6; 7; 127; 128; 129] -> recordable n (mkCheater 18 e p o i)
| rec_digest r p o : 1 <= p <= n -> 0 <= r <= 7 -> recordable n (mkCheater 20 (1 + r) p o 0).
(** entries for which the report names nobody *)
Definition unnamed (ch : cheater) : Prop :=
  ch_step ch <> 18 /\ ch_step ch <> 20 /\ (ch_error ch = 65 \/ ch_error ch = 71) \/
  ch_step ch = 16 /\ ch_error ch = 6 \/
  ch_step ch = 20 /\ ch_error ch <> 1.
