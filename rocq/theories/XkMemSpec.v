(** Vocabulary for the properties of the memory management of the Noise library ([XkMemModel]): how a program may use
    the library, and the memory that belongs to what it holds. *)
From Coq Require Import ZArith Lia List Bool Permutation.
From Verif Require Import Bytes Mem XkModel XkMemModel.
Import ListNotations.
Open Scope list_scope.
Open Scope Z_scope.

(** ** use of the library *)

Definition dev_open (w : world) (d : nat) : Prop := exists e, nth_error (w_devs w) d = Some e /\ de_open e = true.
Definition sess_open (w : world) (s : nat) : Prop := exists e, nth_error (w_sess w) s = Some e /\ se_open e = true.
Definition holds (w : world) (u : nat) : Prop := exists o, nth_error (w_user w) u = Some o.
Definition holds_message (w : world) (u : nat) : Prop := exists em e, nth_error (w_user w) u = Some (UMsg em e).

(** The program passes only devices, sessions and objects that it got from the library and has not freed. *)
Definition allowed (c : call) (w : world) : Prop :=
  match c with
  | NCreate _ _ _ _ | NCreateSecret _ _ _ _ | NPack _ _ => True
  | NAddPeer d _ _ | NRemovePeer d _ | NSerialDevice d | NSerialPeer d _ | NDeserialPeer d _ _ | NDeviceInfo d | NPeerInfo d _
  | NInitiator d _ _ | NResponder d _ | NFreeDevice d => dev_open w d
  | NUnpack u _ => holds_message w u
  | NWrite s u => sess_open w s /\ holds_message w u
  | NRead s _ | NSessionInfo s | NSessionPeerInfo s | NFreeSession s => sess_open w s
  | NRelease u => holds w u
  end.
(** The documented use: besides, a device is freed only after all sessions created from it. *)
Definition documented (c : call) (w : world) : Prop :=
  allowed c w /\ forall d, c = NFreeDevice d -> forall s e, nth_error (w_sess w) s = Some e -> se_dev e = d -> se_open e = false.

(** A program all of whose calls follow a rule *)
Fixpoint obeys (X : xprims) (rule : call -> world -> Prop) (cs : list call) (w : world) : Prop :=
  match cs with
  | [] => True
  | c :: cs' => rule c w /\ forall w', mstep X c w = Some w' -> obeys X rule cs' w'
  end.

(** A responder is given a message of the handshake, long enough, when it is its turn to read one. *)
Definition expects (sn : xsess) (len : Z) : Prop :=
  s_init sn = false /\ exists h, s_st sn = Handshake h /\ (h_step h = 0 /\ 48 <= len \/ h_step h = 2 /\ 64 <= len).
(** This happens after the device of the session was freed. *)
Definition device_gone (c : call) (w : world) : Prop :=
  exists s input e de, c = NRead s input /\ nth_error (w_sess w) s = Some e /\ nth_error (w_devs w) (se_dev e) = Some de
    /\ de_open de = false /\ expects (se_val e) (zlen input).

(** ** memory that belongs to what the program holds *)

(** a string takes a block unless it is empty *)
Definition text (w : what) (s : bytes) : list what := match s with [] => [] | _ => [w] end.
Definition of_peer (p : xpeer) : list what := [Wpeer; Wname; Wkey] ++ text Wtext (p_info p).
Definition of_device (d : xdev) : list what :=
  [Wdevice; Wname; Wsk; Wspriv; Wspub; Whead] ++ text Wtext (d_info d) ++ text Wprologue (d_prologue d)
  ++ flat_map (fun p => Wcell :: of_peer p) (d_peers d).
(** what stays behind when a device is freed: its symmetric key, and the peers that were still registered *)
Definition left_by_device (d : xdev) : list what := Wsk :: flat_map of_peer (d_peers d).
Definition of_session (info : bytes) (s : xsess) : list what :=
  [Wsession; Wspriv; Wspub; Wname; Wname] ++ text Wtext info ++ text Wtext (s_pinfo s)
  ++ match s_st s with
     | Handshake _ => [Wcipher; Wchain; Wtranscript; Wepriv; Wepub; Wrs; Wre]
     | Transport _ => [Wtranscript; Wsend; Wrecv]
     end.
Definition of_object (o : uobj) : list what := match o with UBuf _ w => [w] | UMsg _ e => Wencap :: text Wpayload (em_msg e) end.

Definition in_use (w : world) : list what :=
  flat_map (fun e => if de_open e then of_device (de_val e) else left_by_device (de_val e)) (w_devs w)
  ++ flat_map (fun e => if se_open e then of_session (se_info e) (se_val e) else []) (w_sess w)
  ++ flat_map of_object (w_user w).

(** everything was freed *)
Definition all_freed (w : world) : Prop :=
  Forall (fun e => de_open e = false) (w_devs w) /\ Forall (fun e => se_open e = false) (w_sess w) /\ w_user w = [].
(** the blocks that hold keys from which messages could be read or forged *)
Definition secret (w : what) : bool :=
  match w with Wsk | Wspriv | Wcipher | Wchain | Wepriv | Wsend | Wrecv => true | _ => false end.
