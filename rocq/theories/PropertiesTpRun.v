(** Property C44: an honest run succeeds and produces a usable shared key. *)
From Coq Require Import ZArith List Bool Sorted.
From Coq.Strings Require Import Byte.
From Verif Require Import PrimeL Bytes Res Mem Sodium ToprfModel ToprfSpec DkgModel WireModel WireSpec TpCrypto TpModel PeerModel TpRun TpSpec RunSpec Honest HonestExamples.
Import ListNotations.
Open Scope list_scope.
Open Scope Z_scope.

(** For every n <= 128, every threshold 2 <= t < n, all keys, polynomials, buffers and clocks that meet
    the conditions of [honest]: starting the session succeeds for all parties; the rounds (step of the
    trusted party, delivery, steps of the peers) end with the trusted party and all peers finished and
    without an error on either side; nobody is on the list of cheaters and nothing is left to deliver;
    peer i holds a share with index i+1; and any t of these shares, in any order, reconstruct the sum of
    the secrets the peers drew. *)
Theorem C44_honest_run : forall C, crypto_ok C -> forall x w, honest C x w -> exists r0 r,
  begin C x = Ok (Some r0) /\ rounds C w 10 r0 = Ok (Some r) /\
  tp_not_done (r_tp C r) = false /\ t_cheaters (r_tp C r) = [] /\ t_complaints (r_tp C r) = [] /\ r_net C r = [] /\
  zlen (r_peers C r) = h_n C x /\
  (forall i, 0 <= i < h_n C x -> exists p, nth_error (r_peers C r) (Z.to_nat i) = Some p /\ peer_not_done C p = false /\ s_index (p_share C p) = i + 1 /\
     p_complaints C p = [] /\ p_n C p = h_n C x /\ p_t C p = h_t C x) /\
  forall qs, quorum (h_t C x) (map (p_share C) (r_peers C r)) qs ->
    dkg_reconstruct qs = zsum (map (fun i => hd 0 (pe_a (s_peer w i 3))) (zrange 0 (Z.to_nat (h_n C x)))) mod L.
Proof. exact honest_run. Qed.
Print Assumptions C44_honest_run.

Example C44_nonvacuous : exists C x w, crypto_ok C /\ honest C x w /\ h_n C x = 3 /\ h_t C x = 2.
Proof. exact C44_example. Qed.

(** The condition on the clocks ([all_fresh] in [honest]) holds if all time stamps and clock readings
    of the session lie within one window, the stamps of each sender do not decrease, and (see the next
    theorem) no peer's first stamp is earlier than the reading [r] of the trusted party's clock when it
    gets its buffers. *)
Theorem C44_clocks : forall window T l r, 0 < window -> 0 < T -> T + 2 * window < 2 ^ 64 -> window < T ->
  (r = 0 \/ T <= r <= T + window) -> Forall (fun p => T <= fst p <= T + window /\ T <= snd p <= T + window) l -> Sorted Z.le (r :: map fst l) ->
  all_fresh window r l.
Proof. exact orderly_fresh. Qed.
Print Assumptions C44_clocks.

Example C44_clocks_nonvacuous : Forall (fun p => 5000 <= fst p <= 5000 + 60 /\ 5000 <= snd p <= 5000 + 60) [(5010, 5012); (5020, 5019)] /\ Sorted Z.le [5001; 5010; 5020].
Proof. exact C44_clocks_example. Qed.

(** As stated, with clock readings that are merely within the freshness window, the property is false:
    the trusted party takes its own clock, at the time it gets its buffers, for the last time stamp seen
    from each peer.  In a session that meets all conditions, let it get the buffers one second later, so
    that the peers' clocks are one second behind (the window is an hour): it refuses the first messages
    and reports all (honest) peers as cheaters. *)
Theorem C44_slow_clock_refuted : exists C x w r0 r1 ret c out, crypto_ok C /\ honest C x w /\
  begin C (later C x 1) = Ok (Some r0) /\ rounds C w 1 r0 = Ok (Some r1) /\
  tp_next C (s_tp w (t_step (r_tp C r1))) (r_tp C r1) (r_net C r1) (s_buf w 0 (t_step (r_tp C r1)) (tp_output_size (r_tp C r1))) = Ok (ret, c, out) /\
  ret <> 0 /\ map ch_peer (t_cheaters c) = [1; 2; 3].
Proof. exact C44_slow_clock_refutation. Qed.
Print Assumptions C44_slow_clock_refuted.
