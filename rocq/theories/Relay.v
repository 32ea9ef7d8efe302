(** C101: somebody on the network, without any key of the participants, who sits between every two peers.
    Everything is computed from the traffic and from secrets of its own ([sk i j], [nsk i j]: the session
    and the Noise secret key with which it poses as peer [j] towards peer [i]; [rnd]).  This is no code of the library; the offsets are those of the messages in
    src/tp-dkg.c:50-64 and src/tp-dkg.h:108-117 (header 111 bytes: signature 64, the rest 47), the order of
    the rounds is that of tpdkg_tp_next and tpdkg_peer_next (src/tp-dkg.c:1609-1667). *)
From Coq Require Import ZArith List Bool.
From Coq.Strings Require Import Byte.
From Verif Require Import PrimeL Bytes Res Mem Sodium ToprfModel ToprfSpec DkgModel DkgSpec WireModel WireSpec TpCrypto TpModel PeerModel TpRun TpSpec SafeSpec MitmSpec OutsiderSpec.
Import ListNotations.
Open Scope list_scope.
Open Scope Z_scope.

Section RELAY.
Variable C : crypto.
Variable n t : Z.
Variables sk nsk : Z -> Z -> bytes.
Variable rnd : bytes.
Local Notation N := (cN C).

Definition sent (h : traffic) (k : nat) : bytes := snd (nth k (tr_rounds h) ([], [])).
Definition said (h : traffic) (k : nat) : bytes := hd [] (fst (nth k (tr_rounds h) ([], []))).
(** what peer [i] sent to peer [j] in round [k], messages of [size] bytes: [len] bytes at [off] *)
Definition from_to (h : traffic) (k : nat) (i j size off len : Z) : bytes := slice ((i * n + j) * size + off) len (sent h k).

(** the Noise key of [k] as [i] believes it: its own key, or one of the relay's *)
Definition believed (h : traffic) (i k : Z) : bytes := if k =? i then slice (i * 239 + 143) 32 (sent h 0) else nz_pk N (nsk i k).
(** the device with which it poses as [j] towards [i], after [k] peers were registered; the id of [i] in it *)
Fixpoint dev (h : traffic) (i j : Z) (k : nat) : option (nz_dev N) :=
  match k with
  | O => nz_create N (j + 1) (nsk i j)
  | S k' =>
      match dev h i j k' with
      | Some d => match nz_add_peer N d (Z.of_nat k' + 1) (believed h i (Z.of_nat k')) with Some (d', _) => Some d' | None => None end
      | None => None
      end
  end.
Definition id_in (h : traffic) (i j : Z) : Z :=
  match dev h i j (Z.to_nat i) with
  | Some d => match nz_add_peer N d (i + 1) (believed h i i) with Some (_, z) => z | None => 0 end
  | None => 0
  end.
(** it answers the handshake of [i] with [j] ... *)
Definition resp (h : traffic) (i j : Z) : option (nz_sess N * bytes) :=
  match dev h i j (Z.to_nat n) with Some d => answer C d rnd (from_to h 1 i j 159 111 48) | None => None end.
(** ... and starts one with [i] in the place of [j] *)
Definition init1 (h : traffic) (i j : Z) : option (nz_sess N * bytes) :=
  match dev h i j (Z.to_nat (i + 1)) with
  | Some d => match nz_initiator N d (id_in h i j) rnd with Some s => match nz_write N s [] with (s1, Some m) => Some (s1, m) | _ => None end | None => None end
  | None => None
  end.
Definition init3 (h : traffic) (i j : Z) : option (nz_sess N * bytes) :=
  match init1 h i j with
  | Some (s1, _) =>
      match nz_read N s1 (from_to h 2 i j 159 111 48) with
      | (s2, Some _) => match nz_write N s2 [] with (s3, Some m) => Some (s3, m) | _ => None end
      | _ => None
      end
  | None => None
  end.
(** the share [i] dealt to [j] *)
Definition seen (h : traffic) (i j : Z) : bytes :=
  match resp h i j with
  | Some (s, _) => match opened C s (from_to h 4 i j 256 111 64) (from_to h 4 i j 256 175 49) with Some b => b | None => [] end
  | None => []
  end.
(** the share [j] dealt to [i], encrypted for [i] *)
Definition passed (h : traffic) (i j : Z) : bytes :=
  match init3 h i j with
  | Some (s3, m3) =>
      match nz_write N s3 (seen h j i) with
      | (s4, Some ct) => m3 ++ ct ++ match nz_key N s4 with Some k => c_auth C k ct | None => [] end
      | _ => []
      end
  | None => []
  end.

Definition part (r : option (nz_sess N * bytes)) : bytes := match r with Some (_, m) => m | None => [] end.
(** the message at [off] in [b], [size] bytes, with a signature of its own and with another body *)
Definition again (i j : Z) (body m : bytes) : bytes := sig_sign (cS C) (sk i j) (slice 64 47 m) ++ slice 64 47 m ++ body.
Definition each (at_ size : Z) (body : Z -> Z -> bytes -> bytes) (i : Z) (b : bytes) : bytes :=
  slice 0 at_ b ++ concat (map (fun j => let m := slice (at_ + j * size) size b in if j =? i then m else again i j (body i j (skipn 111 m)) m) (zrange 0 (Z.to_nat n))).
Definition to_peer (h : traffic) (i : Z) (b : bytes) : bytes :=
  match length (tr_rounds h) with
  | 1%nat => each 111 175 (fun i j _ => sig_pk (cS C) (sk i j) ++ nz_pk N (nsk i j)) i b
  | 2%nat => each 0 159 (fun i j _ => part (init1 h i j)) i b
  | 3%nat => each 0 159 (fun i j _ => part (resp h i j)) i b
  | 4%nat => each 111 (msg6_SIZE t) (fun _ _ m => m) i b
  | 5%nat => each 0 256 (fun i j _ => passed h i j) i b
  | 6%nat => each 111 (msg9_SIZE n) (fun _ _ m => m) i b
  | _ => b
  end.
(** the digest the trusted party will compare with *)
Definition digest (h : traffic) : bytes :=
  blake2b (cH C) 32 (fold_left update_transcript [tr_start h; said h 1; said h 4; said h 6] str_transcript).
Definition to_tp (h : traffic) (b : bytes) : bytes :=
  match length (tr_rounds h) with
  | 7%nat => concat (map (fun i => slice (i * 143) 111 b ++ digest h) (zrange 0 (Z.to_nat n)))
  | _ => b
  end.
(** peer [i]'s contribution to the key: from the first [t] shares it dealt to others *)
Definition secret_of (h : traffic) (i : Z) : Z :=
  dkg_reconstruct (firstn (Z.to_nat t) (map (fun j => share_of (seen h i j)) (filter (fun j => negb (j =? i)) (zrange 0 (Z.to_nat n))))).
Definition guess (h : traffic) : Z := fold_right (fun i s => secret_of h i + s) 0 (zrange 0 (Z.to_nat n)) mod L.
Definition relay : outsider :=
  mkOutsider to_tp (fun h ms => map (fun x => to_peer h (fst x) (snd x)) (combine (zrange 0 (Z.to_nat n)) ms)) guess.
End RELAY.
