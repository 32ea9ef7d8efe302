(** Vocabulary of the honest run (C44): setting up a session, what the parties are given, and when
    the clocks are good enough. *)
From Coq Require Import ZArith List Bool.
From Coq.Strings Require Import Byte.
From Verif Require Import Bytes Res Mem Sodium ToprfModel ToprfSpec DkgModel WireModel WireSpec TpCrypto TpModel PeerModel TpRun.
Import ListNotations.
Open Scope list_scope.
Open Scope Z_scope.

(** the buffers a peer is given with tpdkg_peer_set_bufs *)
Record pbufs (C : crypto) : Type := mkPbufs {
  b_pks : list bytes; b_npks : list bytes;
  b_outs : list (slot (nz_sess (cN C))); b_ins : list (slot (nz_sess (cN C)));
  b_shares : list share; b_xshares : list share; b_com : list (list bytes)
}.

(** Everything the parties of a session are given before the first message.  Peers are counted
    from 0.  [h_tp], [h_peer]: the (uninitialised) state variables; [h_now]: the clock when
    tpdkg_start_tp writes message 0; [h_bufs]: when tpdkg_tp_set_bufs is called; [h_pnow]: when
    peer i reads message 0. *)
Record ceremony (C : crypto) : Type := mkCeremony {
  h_n : Z; h_t : Z; h_name : bytes; h_sid : bytes; h_sk : bytes; h_eps : Z; h_msg0 : bytes; h_now : Z; h_tp : tp;
  h_com : list (list bytes); h_enc : bytes; h_chmax : Z; h_pks : list bytes; h_bufs : Z;
  h_lt : Z -> bytes; h_peps : Z -> Z; h_pnow : Z -> Z; h_peer : Z -> peer C; h_pb : Z -> pbufs C
}.

Section SETUP.
Variable C : crypto.
Variable x : ceremony C.

(** src/tests/tp-dkg.c:418-421 and 446-454: peer i reads message 0 and gets its buffers; None: an
    error was reported *)
Definition begin_peer (msg0 : bytes) (i : Z) : res (option (peer C)) :=
  do (ret, p) <- start_peer C (h_peer C x i) (h_peps C x i) (h_lt C x i) msg0 (h_pnow C x i) ;;
  let b := h_pb C x i in
  Ok (if ret =? 0 then Some (peer_set_bufs C p (b_pks C b) (b_npks C b) (b_outs C b) (b_ins C b) (b_shares C b) (b_xshares C b) (b_com C b)
                               (p_n C p * p_n C p) (p_n C p)) else None).
Fixpoint begin_peers (msg0 : bytes) (is : list Z) : res (option (list (peer C))) :=
  match is with
  | [] => Ok (Some [])
  | i :: is' =>
      do p <- begin_peer msg0 i ;;
      do r <- begin_peers msg0 is' ;;
      Ok (match p, r with Some p, Some l => Some (p :: l) | _, _ => None end)
  end.

(** src/tests/tp-dkg.c:384-454: the trusted party starts a session and publishes message 0, every
    peer reads it; all get buffers of the documented sizes; nothing has been sent yet.  The trusted
    party knows the peers' long-term public keys. *)
Definition begin : res (option (run C)) :=
  do (ret, c, msg0) <- start_tp C (h_tp C x) (h_eps C x) (h_n C x) (h_t C x) (h_name C x) (h_msg0 C x) (h_sid C x) (h_sk C x) (h_now C x) ;;
  if negb (ret =? 0) then Ok None else
  let c := tp_set_bufs c (h_com C x) (t_n c * t_n c) (h_enc C x) (h_chmax C x) (h_pks C x)
             (map (fun i => sig_pk (cS C) (h_lt C x i)) (zrange 0 (Z.to_nat (h_n C x)))) (h_bufs C x) in
  do ps <- begin_peers msg0 (zrange 0 (Z.to_nat (h_n C x))) ;;
  Ok (match ps with None => None | Some l => Some (mkRun C c l []) end).

Variable w : sched.

(** each time stamp (first component) is fresh for its reader, whose clock shows the second component;
    [recorded] is the last time stamp accepted before *)
Fixpoint all_fresh (window recorded : Z) (l : list (Z * Z)) : Prop :=
  match l with [] => True | (ts, now) :: l' => fresh window recorded ts now /\ all_fresh window ts l' end.

(** what peer i reads from the trusted party: message 0 and the messages written in steps 0, 1, 4, 6 and 8 *)
Definition from_tp (i : Z) : list (Z * Z) :=
  [(h_now C x, h_pnow C x i); (e_s (s_tp w 0) (i + 1), pe_r (s_peer w i 0) 0); (e_s (s_tp w 1) 0, pe_r (s_peer w i 1) 0);
   (e_s (s_tp w 4) 0, pe_r (s_peer w i 4) 0); (e_s (s_tp w 6) 0, pe_r (s_peer w i 6) 0); (e_s (s_tp w 8) 0, pe_r (s_peer w i 9) 0)].
(** what the trusted party reads from peer j: one message in steps 0, 3, 5, 8 and 9 of the peer, n messages in steps 1, 2 and 4 *)
Definition to_tp (j : Z) : list (Z * Z) :=
  let each s s' := map (fun i => (pe_s (s_peer w j s) i, e_r (s_tp w s') (i * h_n C x + j))) (zrange 0 (Z.to_nat (h_n C x))) in
  [(pe_s (s_peer w j 0) 0, e_r (s_tp w 1) j)] ++ each 1 2 ++ each 2 3 ++ [(pe_s (s_peer w j 3) 0, e_r (s_tp w 4) j)] ++ each 4 5 ++
  [(pe_s (s_peer w j 5) 0, e_r (s_tp w 6) j); (pe_s (s_peer w j 8) 0, e_r (s_tp w 8) j); (pe_s (s_peer w j 9) 0, e_r (s_tp w 9) j)].
(** what peer i reads from peer j *)
Definition between (i j : Z) : list (Z * Z) :=
  [(pe_s (s_peer w j 0) 0, pe_r (s_peer w i 1) (1 + j)); (pe_s (s_peer w j 1) i, pe_r (s_peer w i 2) j); (pe_s (s_peer w j 2) i, pe_r (s_peer w i 3) j);
   (pe_s (s_peer w j 3) 0, pe_r (s_peer w i 4) (1 + j)); (pe_s (s_peer w j 4) i, pe_r (s_peer w i 5) j); (pe_s (s_peer w j 5) 0, pe_r (s_peer w i 6) (1 + j))].

(** The parties were given valid parameters and buffers of the documented sizes, the clocks are good
    enough for every message to be fresh, the peers drew different Noise keys and polynomials with
    t nonzero coefficients, and memory can be locked. *)
Record honest : Prop := mkHonest {
  hp_n : 2 <= h_t C x < h_n C x /\ h_n C x <= 128;
  hp_name : 1 <= zlen (h_name C x) <= 1024;
  hp_sid : zlen (h_sid C x) = 32;
  hp_msg0 : zlen (h_msg0 C x) = msg0_SIZE;
  hp_com : zlen (h_com C x) = h_n C x;
  hp_enc : zlen (h_enc C x) = h_n C x * h_n C x * msg8_SIZE;
  hp_pks : zlen (h_pks C x) = h_n C x;
  hp_pb : forall i, 0 <= i < h_n C x -> let b := h_pb C x i in
    zlen (b_pks C b) = h_n C x /\ zlen (b_npks C b) = h_n C x /\ zlen (b_outs C b) = h_n C x /\ zlen (b_ins C b) = h_n C x /\
    zlen (b_shares C b) = h_n C x /\ zlen (b_xshares C b) = h_n C x /\ zlen (b_com C b) = h_n C x;
  hp_out : forall party step k, 0 <= k -> zlen (s_buf w party step k) = k;
  hp_clock : is_u64 (h_now C x) /\ (forall s k, is_u64 (e_s (s_tp w s) k)) /\ (forall i s k, is_u64 (pe_s (s_peer w i s) k));
  hp_from_tp : forall i, 0 <= i < h_n C x -> all_fresh (h_peps C x i) 0 (from_tp i);
  hp_to_tp : forall j, 0 <= j < h_n C x -> all_fresh (h_eps C x) (h_bufs C x) (to_tp j);
  hp_between : forall i j, 0 <= i < h_n C x -> 0 <= j < h_n C x -> all_fresh (h_peps C x i) 0 (between i j);
  hp_keys : forall i j, 0 <= i < h_n C x -> 0 <= j < h_n C x -> i <> j ->
    nz_pk (cN C) (pe_nsk (s_peer w i 0)) <> nz_pk (cN C) (pe_nsk (s_peer w j 0));
  hp_a : forall i, 0 <= i < h_n C x -> zlen (pe_a (s_peer w i 3)) = h_t C x /\ Forall random_scalar (pe_a (s_peer w i 3));
  hp_lock : forall i, 0 <= i < h_n C x -> pe_lock (s_peer w i 3) = true
}.
End SETUP.

(** the same session, except that the trusted party gets its buffers [d] seconds later *)
Definition later (C : crypto) (x : ceremony C) (d : Z) : ceremony C :=
  mkCeremony C (h_n C x) (h_t C x) (h_name C x) (h_sid C x) (h_sk C x) (h_eps C x) (h_msg0 C x) (h_now C x) (h_tp C x)
    (h_com C x) (h_enc C x) (h_chmax C x) (h_pks C x) (h_bufs C x + d) (h_lt C x) (h_peps C x) (h_pnow C x) (h_peer C x) (h_pb C x).
