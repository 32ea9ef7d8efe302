(** Vocabulary of C94: the same session with other long-term keys. *)
From Coq Require Import ZArith List Bool.
From Coq.Strings Require Import Byte.
From Verif Require Import Bytes Res Mem Sodium WireModel TpCrypto TpModel PeerModel TpRun TpSpec RunSpec.
Import ListNotations.
Open Scope list_scope.
Open Scope Z_scope.

(** a function applied to a result, if there is one *)
Definition in_result {A B} (f : A -> B) (r : res A) : res B := match r with Ok a => Ok (f a) | UB => UB end.

(** the same trusted party, except that it knows other long-term public keys *)
Definition knowing (l : list bytes) (c : tp) : tp :=
  mkTp (t_step c) (t_prev c) (t_sid c) (t_n c) (t_t c) (t_pk c) (t_sk c) (t_last c) (t_eps c) (t_pks c) l
    (t_com c) (t_enc c) (t_complaints c) (t_cmax c) (t_cheaters c) (t_chmax c) (t_transcript c).

(** the same history: return codes, outputs and states, except for the long-term keys in the states *)
Definition knowing_all (l : list bytes) (outs : list (Z * tp * bytes)) : list (Z * tp * bytes) :=
  map (fun o => (fst (fst o), knowing l (snd (fst o)), snd o)) outs.

(** Two inputs of the trusted party with the messages in which n peers announce their session keys:
    each is 175 bytes and followed by 64 bytes, the signature under the long-term key; they differ in
    the signatures only. *)
Definition same_announcements (n : Z) (a b : bytes) : Prop :=
  zlen a = zlen b /\ forall p, 1 <= p <= n -> rd a (239 * (p - 1)) 175 = rd b (239 * (p - 1)) 175.

(** all the signatures are valid under the keys [l] *)
Definition all_vouched (C : crypto) (l : list bytes) (n : Z) (input : bytes) : Prop :=
  forall p, 1 <= p <= n -> exists lt m s, getz l (p - 1) = Ok lt /\ rd input (239 * (p - 1)) 175 = Ok m /\
    rd input (239 * (p - 1) + 175) 64 = Ok s /\ sig_verify (cS C) lt m s = true.

(** the same peer, except that it holds another long-term key *)
Definition holding (C : crypto) (k : bytes) (c : peer C) : peer C :=
  mkPeer C (p_step C c) (p_prev C c) (p_sid C c) (p_n C c) (p_t C c) (p_index C c) k (p_sk C c) (p_noise_sk C c) (p_tp_pk C c)
    (p_tp_last C c) (p_last C c) (p_eps C c) (p_pks C c) (p_npks C c) (p_dev C c) (p_outs C c) (p_ins C c) (p_com C c) (p_shares C c) (p_xshares C c)
    (p_complaints C c) (p_cmax C c) (p_my C c) (p_mymax C c) (p_transcript C c) (p_share C c).

(** the same session, except that the peers have other long-term keys (their public parts are known to
    the trusted party, see [begin]) *)
Definition signing_with (C : crypto) (l : Z -> bytes) (x : ceremony C) : ceremony C :=
  mkCeremony C (h_n C x) (h_t C x) (h_name C x) (h_sid C x) (h_sk C x) (h_eps C x) (h_msg0 C x) (h_now C x) (h_tp C x)
    (h_com C x) (h_enc C x) (h_chmax C x) (h_pks C x) (h_bufs C x) l (h_peps C x) (h_pnow C x) (h_peer C x) (h_pb C x).

(** the same parties and messages under way, except that the trusted party knows other long-term keys *)
Definition run_knowing (C : crypto) (l : list bytes) (r : run C) : run C := mkRun C (knowing l (r_tp C r)) (r_peers C r) (r_net C r).
