(** Property theorems C85: a peer that follows the protocol is blamed only for a complaint that nobody answered.
    Vocabulary: FairSpec.v, TpSpec.v, SafeSpec.v, GoodSpec.v. *)
From Coq Require Import ZArith Lia List Bool.
From Coq.Strings Require Import Byte.
From Verif Require Import PrimeL Bytes Res Mem Sodium ToprfModel ToprfSpec DkgModel DkgSpec WireModel WireSpec TpCrypto TpModel PeerModel TpSpec BlameSpec SafeSpec GoodSpec FairSpec.
From Verif Require Import Fair FairStart FairExamples.
Import ListNotations.
Open Scope list_scope.
Open Scope Z_scope.

(** C85.  However far the session of the trusted party got and whatever the other peers sent. *)
Theorem C85_blamed_unanswered : forall C, crypto_ok C -> forall c calls before last k p pcalls pouts ch,
  session C c calls before last -> alongside C c calls (before ++ [last]) k p pcalls pouts ->
  In ch (t_cheaters (snd (fst last))) -> blames ch = k + 1 ->
  unanswered (snd (fst last)) (k + 1) ch \/
  exists e input out p' w, nth_error calls 7 = Some (e, input, out) /\ nth_error pouts 5 = Some (0, p', w) /\ second_key C (snd (fst last)) input (k + 1) p' ch.
Proof. exact fair. Qed.
Print Assumptions C85_blamed_unanswered.

(** What a session of C85 starts from, [tp_wf] to [al_transcript] in [session] and [alongside], is what
    the calls that start it leave behind: tpdkg_start_tp and tpdkg_tp_set_bufs, tpdkg_start_peer on the
    message it wrote and tpdkg_peer_set_bufs, with buffers of the documented sizes. *)
Theorem C85_start : forall C c0 eps n t name buf sid sk now c msg0 com enc chmax pks lt now2 p0 peps plt pnow p1 ppks npks outs ins shares xshares pcom,
  crypto_ok C -> start_tp C c0 eps n t name buf sid sk now = Ok (0, c, msg0) -> 1 <= t -> zlen sid = 32 -> is_u64 now ->
  zlen com = n -> Forall (fun row => zlen row = t) com -> zlen enc = n * n * msg8_SIZE -> 0 <= chmax -> zlen pks = n -> zlen lt = n ->
  start_peer C p0 peps plt msg0 pnow = Ok (0, p1) ->
  zlen ppks = n -> zlen npks = n -> zlen outs = n -> zlen ins = n -> zlen shares = n -> zlen xshares = n -> zlen pcom = n -> Forall (fun row => zlen row = t) pcom ->
  Forall (fun sl => sl = Uninit \/ sl = Null) outs -> Forall (fun sl => sl = Uninit \/ sl = Null) ins ->
  let c := tp_set_bufs c com (n * n) enc chmax pks lt now2 in
  let p := peer_set_bufs C p1 ppks npks outs ins shares xshares pcom (n * n) n in
  (tp_wf c /\ t_step c = 0 /\ t_complaints c = [] /\ t_cheaters c = [] /\ t_eps c = eps /\ (forall k, 0 <= k < n -> getz (t_last c) k = Ok now2) /\ t_n c = n /\ t_t c = t) /\
  peer_fresh C p /\ p_n C p = t_n c /\ p_t C p = t_t c /\ p_sid C p = t_sid c /\ p_tp_pk C p = t_pk c /\ p_transcript C p = t_transcript c /\ 2 <= t.
Proof. exact start_both. Qed.
Print Assumptions C85_start.

Example C85_nonvacuous : exists c calls before ret c' out' (p1 : peer toyC) pcalls1 pouts1 (p2 : peer toyC) pcalls2 pouts2,
  let outs := before ++ [(ret, c', out')] in
  crypto_ok toyC /\ session toyC c calls before (ret, c', out') /\
  alongside toyC c calls outs 1 p1 pcalls1 pouts1 /\ alongside toyC c calls outs 2 p2 pcalls2 pouts2 /\
  t_n c = 4 /\ length before = 7%nat /\ ret = 3 /\ t_complaints c' = [2 * 256 + 4] /\
  map (fun ch => (ch_step ch, ch_error ch, ch_peer ch, ch_other ch)) (t_cheaters c') = [(18, 32 + 6, 4, 254); (18, 7, 2, 4)].
Proof. exact C85_example. Qed.

Example C85_start_nonvacuous : exists c0 eps n t name buf sid sk now c msg0 com (enc : bytes) chmax pks lt (p0 : peer toyC) peps plt pnow p1 ppks npks (outs ins : list (slot (nz_sess (cN toyC)))) (shares xshares : list share) pcom,
  crypto_ok toyC /\ start_tp toyC c0 eps n t name buf sid sk now = Ok (0, c, msg0) /\ 1 <= t /\ zlen sid = 32 /\ is_u64 now /\
  zlen com = n /\ Forall (fun row : list bytes => zlen row = t) com /\ zlen enc = n * n * msg8_SIZE /\ 0 <= chmax /\ zlen (A := bytes) pks = n /\ zlen (A := bytes) lt = n /\
  start_peer toyC p0 peps plt msg0 pnow = Ok (0, p1) /\
  zlen (A := bytes) ppks = n /\ zlen (A := bytes) npks = n /\ zlen outs = n /\ zlen ins = n /\ zlen shares = n /\ zlen xshares = n /\ zlen pcom = n /\ Forall (fun row : list bytes => zlen row = t) pcom /\
  Forall (fun sl => sl = Uninit \/ sl = Null) outs /\ Forall (fun sl => sl = Uninit \/ sl = Null) ins /\ n = 3 /\ t = 2.
Proof. exact C85_start_example. Qed.
