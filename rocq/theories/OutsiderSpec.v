(** Vocabulary of C101: the driver of src/tests/tp-dkg.c with somebody on the network who sees all
    messages and may replace them, but has none of the participants' keys. *)
From Coq Require Import ZArith List.
From Coq.Strings Require Import Byte.
From Verif Require Import PrimeL Bytes Res Mem Sodium ToprfModel ToprfSpec DkgModel DkgSpec WireModel TpCrypto TpModel PeerModel TpRun RunSpec.
Import ListNotations.
Open Scope list_scope.
Open Scope Z_scope.

(** What was on the network so far: the start message, and for each round the messages the trusted party
    sent, one for each peer, and the bytes the peers sent, one after the other. *)
Record traffic : Type := mkTraffic { tr_start : bytes; tr_rounds : list (list bytes * bytes) }.
(** Somebody who replaces what the peers sent to the trusted party, and what the trusted party sent to
    the peers (knowing in both cases the rounds before), and in the end makes a guess at the key. *)
Record outsider : Type := mkOutsider {
  o_to_tp : traffic -> bytes -> bytes;
  o_to_peers : traffic -> list bytes -> list bytes;
  o_guess : traffic -> Z }.
(** one that only watches *)
Definition watcher (guess : traffic -> Z) : outsider := mkOutsider (fun _ b => b) (fun _ l => l) guess.

(** src/tests/tp-dkg.c:467-543, as TpRun.round, with [o] on the network *)
Definition meddled_round (C : crypto) (w : sched) (o : outsider) (r : run C) (h : traffic) : res (option (run C * traffic)) :=
  let c := r_tp C r in
  do (ret, c', out) <- tp_next C (s_tp w (t_step c)) c (o_to_tp o h (r_net C r)) (s_buf w 0 (t_step c) (tp_output_size c)) ;;
  if negb (ret =? 0) then Ok None else
  do ms <- dispatch_all c' out (zrange 0 (Z.to_nat (t_n c'))) ;;
  match ms with
  | None => Ok None
  | Some ms =>
      do p1 <- getz (r_peers C r) 1 ;;
      if negb (peer_not_done C p1) then Ok (Some (mkRun C c' (r_peers C r) [], mkTraffic (tr_start h) (tr_rounds h ++ [(ms, [])]))) else
      do x <- peers_loop C w 11 (r_peers C r) (o_to_peers o h ms) ;;
      Ok (match x with None => None | Some (ps', net) => Some (mkRun C c' ps' net, mkTraffic (tr_start h) (tr_rounds h ++ [(ms, net)])) end)
  end.
(** the main loop: None if a call of the trusted party or of a peer reported an error *)
Fixpoint meddled (C : crypto) (w : sched) (o : outsider) (fuel : nat) (r : run C) (h : traffic) : res (option (run C * traffic)) :=
  match fuel with
  | O => Ok (Some (r, h))
  | S fuel' =>
      if negb (tp_not_done (r_tp C r)) then Ok (Some (r, h)) else
      do x <- meddled_round C w o r h ;;
      match x with None => Ok None | Some (r', h') => meddled C w o fuel' r' h' end
  end.

(** [nsk i j]: the Noise secret keys somebody uses who poses as peer [j] towards peer [i].  For every peer
    [i], the public keys that belong to them and the peer's own key are different from each other. *)
Definition relay_keys (C : crypto) (x : ceremony C) (w : sched) (nsk : Z -> Z -> bytes) : Prop :=
  let n := h_n C x in
  forall i j k, 0 <= i < n -> 0 <= j < n -> 0 <= k < n -> j <> k ->
  nz_pk (cN C) (if j =? i then pe_nsk (s_peer w i 0) else nsk i j) <> nz_pk (cN C) (if k =? i then pe_nsk (s_peer w i 0) else nsk i k).

(** What one expects of a session of honest parties with [o] on the network: if nobody notices anything,
    that is all calls of the driver's loop return 0 and the trusted party is done, then [o] does not end
    up with the key that any quorum of the shares reconstructs. *)
Definition kept_out (C : crypto) (x : ceremony C) (w : sched) (o : outsider) : Prop :=
  forall c msg0 r0 r h qs,
    start_tp C (h_tp C x) (h_eps C x) (h_n C x) (h_t C x) (h_name C x) (h_msg0 C x) (h_sid C x) (h_sk C x) (h_now C x) = Ok (0, c, msg0) ->
    begin C x = Ok (Some r0) -> meddled C w o 10 r0 (mkTraffic msg0 []) = Ok (Some (r, h)) -> tp_not_done (r_tp C r) = false ->
    quorum (h_t C x) (map (p_share C) (r_peers C r)) qs -> dkg_reconstruct qs <> o_guess o h.
