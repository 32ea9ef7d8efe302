(** The honest run, part 1: the messages and the states of all parties after every step, as explicit
    functions of what the parties are given. *)
From Coq Require Import ZArith Lia List Bool.
From Coq.Strings Require Import Byte.
From Verif Require Import PrimeL Bytes Res Mem Sodium ToprfModel ToprfSpec DkgModel DkgSpec DkgProofs WireModel WireSpec WireProofs TpCrypto TpModel PeerModel
  TpFrame PeerFrame TpRun TpSpec TpMsg TpContent TpControl RunSpec HonestMsg.
Import ListNotations.
Open Scope list_scope.
Open Scope Z_scope.

(** what the two ends of the channel from one peer to another hold at each stage, and what they say *)
Record link (C : crypto) : Type := mkLink {
  l_o1 : nz_sess (cN C); l_m1 : bytes; l_r2 : nz_sess (cN C); l_m2 : bytes; l_o2 : nz_sess (cN C); l_o3 : nz_sess (cN C); l_m3 : bytes;
  l_o4 : nz_sess (cN C); l_ct : bytes; l_key : bytes; l_r3 : nz_sess (cN C); l_r4 : nz_sess (cN C)
}.

(** everything the run depends on *)
Record world : Type := mkWorld {
  wC : crypto; wW : sched; wn : Z; wt : Z; wsid : bytes; wtsk : bytes; weps : Z; wnow : Z; wbufs : Z; wtr0 : bytes; wtpv : Z;
  wcom : list (list bytes); wenc : bytes; wchmax : Z; wpks : list bytes;
  wlt : Z -> bytes; wpeps : Z -> Z; wB : Z -> pbufs wC;
  wpv : Z -> Z; wix : Z -> Z; wsk0 : Z -> bytes; wnsk0 : Z -> bytes; wsh0 : Z -> share;
  wdv : Z -> Z -> nz_dev (cN wC); wlk : Z -> Z -> link wC; wfl : Z -> list Z
}.

Section STATES.
Variable W : world.
Notation C := (wC W).
Notation S := (cS (wC W)).
Notation N := (cN (wC W)).
Notation w := (wW W).
Notation n := (wn W).
Notation t := (wt W).
Notation sid := (wsid W).
Notation E := (s_tp (wW W)).
Notation Q := (s_peer (wW W)).

Definition tpk := sig_pk S (wtsk W).
Definition sk (i : Z) := pe_sk (Q i 0).
Definition nsk (i : Z) := pe_nsk (Q i 0).
Definition pk (i : Z) := sig_pk S (sk i).
Definition npk (i : Z) := nz_pk N (nsk i).
Definition co (i : Z) := pe_a (Q i 3).
Definition sh (i j : Z) : share := mkShare (j + 1) (poly (co i) (j + 1) mod L).
Definition coms (i : Z) : list bytes := commitments_of (cR C) (co i).
Definition lk := wlk W.

(** messages; [st i s k]: time stamp k of peer i in step s *)
Definition st (i s k : Z) := pe_s (Q i s) k.
Definition mk (k : bytes) := mk_msg S sid k.
Definition M1 (i : Z) := mk (wtsk W) 1 0 (i + 1) (e_s (E 0) (i + 1)) [].
Definition M2 (i : Z) := mk (sk i) 2 (i + 1) 255 (st i 0 0) (pk i ++ npk i).
Definition M2s (i : Z) := M2 i ++ sig_sign S (wlt W i) (M2 i).
Definition B3 := mk (wtsk W) 3 0 255 (e_s (E 1) 0) (blocks M2 n).
Definition M4 (i j : Z) := mk (sk i) 4 (i + 1) (j + 1) (st i 1 j) (l_m1 _ (lk i j)).
Definition M5 (i j : Z) := mk (sk i) 5 (i + 1) (j + 1) (st i 2 j) (l_m2 _ (lk j i)).
Definition M6 (i : Z) := mk (sk i) 6 (i + 1) 255 (st i 3 0) (concat (coms i)).
Definition B7 := mk (wtsk W) 7 0 255 (e_s (E 4) 0) (blocks M6 n).
Definition mac (i j : Z) := c_auth C (l_key _ (lk i j)) (l_ct _ (lk i j)).
Definition M8 (i j : Z) := mk (sk i) 8 (i + 1) (j + 1) (st i 4 j) (l_m3 _ (lk i j) ++ l_ct _ (lk i j) ++ mac i j).
Definition M9 (i : Z) := mk (sk i) 9 (i + 1) 255 (st i 5 0) (zb 0 :: map zb (wfl W i)).
Definition B10 := mk (wtsk W) 10 0 255 (e_s (E 6) 0) (blocks M9 n).
Definition tr1 := update_transcript (wtr0 W) B3.
Definition tr2 := update_transcript tr1 B7.
Definition tr3 := update_transcript tr2 B10.
Definition M19 (i : Z) := mk (sk i) 20 (i + 1) 0 (st i 8 0) (blake2b (cH C) 32 tr3).
Definition B20 := mk (wtsk W) 21 0 255 (e_s (E 8) 0) str_OK.
Definition M21 (i : Z) := mk (sk i) 22 (i + 1) 0 (st i 9 0) str_OK.

(** peer states *)
Definition mkp i step prev idx lt sk nsk tpl last pks npks dev outs ins com shares xshares tr share : peer C :=
  mkPeer C step prev sid n t idx lt sk nsk tpk tpl last (wpeps W i) pks npks dev outs ins com shares xshares [] (n * n) [] n tr share.
Definition b i := wB W i.
Definition zeroes := zmap (fun _ => 0) n.
Definition P0 i := mkp i 0 (wpv W i) (wix W i) (wlt W i) (wsk0 W i) (wnsk0 W i) (wnow W) zeroes (b_pks _ (b i)) (b_npks _ (b i)) None (b_outs _ (b i)) (b_ins _ (b i))
  (b_com _ (b i)) (b_shares _ (b i)) (b_xshares _ (b i)) (wtr0 W) (wsh0 W i).
Definition P1 i := mkp i 1 0 (i + 1) (zeros 64) (sk i) (nsk i) (e_s (E 0) (i + 1)) zeroes (b_pks _ (b i)) (b_npks _ (b i)) None (b_outs _ (b i)) (b_ins _ (b i))
  (b_com _ (b i)) (b_shares _ (b i)) (b_xshares _ (b i)) (wtr0 W) (wsh0 W i).
(** from step 2 on the keys are known *)
Definition mkq i step prev tpl last outs ins com shares xshares tr share : peer C :=
  mkp i step prev (i + 1) (zeros 64) (sk i) (nsk i) tpl last (zmap pk n) (zmap npk n) (Some (wdv W i n)) outs ins com shares xshares tr share.
Definition P2 i := mkq i 2 1 (e_s (E 1) 0) (zmap (fun j => st j 0 0) n) (zmap (fun j => Live (l_o1 _ (lk i j))) n) (b_ins _ (b i))
  (b_com _ (b i)) (b_shares _ (b i)) (b_xshares _ (b i)) tr1 (wsh0 W i).
Definition P3 i := mkq i 3 2 (e_s (E 1) 0) (zmap (fun j => st j 1 i) n) (zmap (fun j => Live (l_o1 _ (lk i j))) n) (zmap (fun j => Live (l_r2 _ (lk j i))) n)
  (b_com _ (b i)) (b_shares _ (b i)) (b_xshares _ (b i)) tr1 (wsh0 W i).
Definition P4 i := mkq i 4 3 (e_s (E 1) 0) (zmap (fun j => st j 2 i) n) (zmap (fun j => Live (l_o2 _ (lk i j))) n) (zmap (fun j => Live (l_r2 _ (lk j i))) n)
  (b_com _ (b i)) (zmap (sh i) n) (b_xshares _ (b i)) tr1 (wsh0 W i).
Definition P5 i := mkq i 5 4 (e_s (E 4) 0) (zmap (fun j => st j 3 0) n) (zmap (fun j => Live (l_o4 _ (lk i j))) n) (zmap (fun j => Live (l_r2 _ (lk j i))) n)
  (zmap coms n) (zmap (sh i) n) (b_xshares _ (b i)) tr2 (wsh0 W i).
Definition P6 i := mkq i 6 5 (e_s (E 4) 0) (zmap (fun j => st j 4 i) n) (zmap (fun j => Live (l_o4 _ (lk i j))) n) (zmap (fun j => Live (l_r4 _ (lk j i))) n)
  (zmap coms n) (zmap (sh i) n) (zmap (fun j => sh j i) n) tr2 (wsh0 W i).
Definition mkz i step prev tpl share := mkq i step prev tpl (zmap (fun j => st j 5 0) n) (zmap (fun j => Live (l_o4 _ (lk i j))) n) (zmap (fun j => Live (l_r4 _ (lk j i))) n)
  (zmap coms n) (zmap (sh i) n) (zmap (fun j => sh j i) n) tr3 share.
Definition P7 i := mkz i 8 7 (e_s (E 6) 0) (wsh0 W i).
Definition P8 i := mkz i 9 8 (e_s (E 6) 0) (wsh0 W i).
Definition fsh i : share := mkShare (i + 1) (dkg_finish (zmap (fun j => sh j i) n)).
Definition P9 i := mkz i 10 9 (e_s (E 8) 0) (fsh i).
Definition P10 i := mkz i 11 10 (e_s (E 8) 0) (fsh i).

(** states of the trusted party *)
Definition mkt step prev last pks com enc tr : tp :=
  mkTp step prev sid n t tpk (wtsk W) last (weps W) pks (zmap (fun i => sig_pk S (wlt W i)) n) com enc [] (n * n) [] (wchmax W) tr.
Definition T0 := mkt 0 (wtpv W) (zmap (fun _ => wbufs W) n) (wpks W) (wcom W) (wenc W) (wtr0 W).
Definition T1 := mkt 1 0 (zmap (fun _ => wbufs W) n) (wpks W) (wcom W) (wenc W) (wtr0 W).
Definition T2 := mkt 2 1 (zmap (fun j => st j 0 0) n) (zmap pk n) (wcom W) (wenc W) tr1.
Definition T3 := mkt 3 2 (zmap (fun j => st j 1 (n - 1)) n) (zmap pk n) (wcom W) (wenc W) tr1.
Definition T4 := mkt 4 3 (zmap (fun j => st j 2 (n - 1)) n) (zmap pk n) (wcom W) (wenc W) tr1.
Definition T5 := mkt 5 4 (zmap (fun j => st j 3 0) n) (zmap pk n) (zmap coms n) (wenc W) tr2.
Definition net5 := blocks (fun i => blocks (M8 i) n) n.
Definition T6 := mkt 6 5 (zmap (fun j => st j 4 (n - 1)) n) (zmap pk n) (zmap coms n) net5 tr2.
Definition T7 := mkt 8 6 (zmap (fun j => st j 5 0) n) (zmap pk n) (zmap coms n) net5 tr3.
Definition T8 := mkt 9 8 (zmap (fun j => st j 8 0) n) (zmap pk n) (zmap coms n) net5 tr3.
Definition T9 := mkt 10 9 (zmap (fun j => st j 9 0) n) (zmap pk n) (zmap coms n) net5 tr3.

(** the time stamp recorded before message i of a series of n: that of message i-1 *)
Definition before (last : Z -> Z) (s j i : Z) : Z := if i =? 0 then last j else st j s (i - 1).

(** what the primitives and the environment guarantee *)
Record world_ok : Prop := mkWorldOk {
  ww_C : crypto_ok C;
  ww_n : 2 <= t < n /\ n <= 128;
  ww_sid : zlen sid = 32;
  ww_com : zlen (wcom W) = n;
  ww_enc : zlen (wenc W) = n * n * msg8_SIZE;
  ww_pks : zlen (wpks W) = n;
  ww_B : forall i, 0 <= i < n -> zlen (b_pks _ (b i)) = n /\ zlen (b_npks _ (b i)) = n /\ zlen (b_outs _ (b i)) = n /\ zlen (b_ins _ (b i)) = n /\
    zlen (b_shares _ (b i)) = n /\ zlen (b_xshares _ (b i)) = n /\ zlen (b_com _ (b i)) = n;
  ww_out : forall party step k, 0 <= k -> zlen (s_buf w party step k) = k;
  ww_e : forall s k, is_u64 (e_s (E s) k);
  ww_p : forall i s k, is_u64 (pe_s (Q i s) k);
  (* clocks: trusted party to peer *)
  f_tp0 : forall i, 0 <= i < n -> fresh (wpeps W i) (wnow W) (e_s (E 0) (i + 1)) (pe_r (Q i 0) 0);
  f_tp1 : forall i, 0 <= i < n -> fresh (wpeps W i) (e_s (E 0) (i + 1)) (e_s (E 1) 0) (pe_r (Q i 1) 0);
  f_tp4 : forall i, 0 <= i < n -> fresh (wpeps W i) (e_s (E 1) 0) (e_s (E 4) 0) (pe_r (Q i 4) 0);
  f_tp6 : forall i, 0 <= i < n -> fresh (wpeps W i) (e_s (E 4) 0) (e_s (E 6) 0) (pe_r (Q i 6) 0);
  f_tp8 : forall i, 0 <= i < n -> fresh (wpeps W i) (e_s (E 6) 0) (e_s (E 8) 0) (pe_r (Q i 9) 0);
  (* peer j to trusted party *)
  g_0 : forall j, 0 <= j < n -> fresh (weps W) (wbufs W) (st j 0 0) (e_r (E 1) j);
  g_1 : forall j i, 0 <= j < n -> 0 <= i < n -> fresh (weps W) (before (fun j => st j 0 0) 1 j i) (st j 1 i) (e_r (E 2) (i * n + j));
  g_2 : forall j i, 0 <= j < n -> 0 <= i < n -> fresh (weps W) (before (fun j => st j 1 (n - 1)) 2 j i) (st j 2 i) (e_r (E 3) (i * n + j));
  g_3 : forall j, 0 <= j < n -> fresh (weps W) (st j 2 (n - 1)) (st j 3 0) (e_r (E 4) j);
  g_4 : forall j i, 0 <= j < n -> 0 <= i < n -> fresh (weps W) (before (fun j => st j 3 0) 4 j i) (st j 4 i) (e_r (E 5) (i * n + j));
  g_5 : forall j, 0 <= j < n -> fresh (weps W) (st j 4 (n - 1)) (st j 5 0) (e_r (E 6) j);
  g_8 : forall j, 0 <= j < n -> fresh (weps W) (st j 5 0) (st j 8 0) (e_r (E 8) j);
  g_9 : forall j, 0 <= j < n -> fresh (weps W) (st j 8 0) (st j 9 0) (e_r (E 9) j);
  (* peer j to peer i *)
  k_0 : forall i j, 0 <= i < n -> 0 <= j < n -> fresh (wpeps W i) 0 (st j 0 0) (pe_r (Q i 1) (1 + j));
  k_1 : forall i j, 0 <= i < n -> 0 <= j < n -> fresh (wpeps W i) (st j 0 0) (st j 1 i) (pe_r (Q i 2) j);
  k_2 : forall i j, 0 <= i < n -> 0 <= j < n -> fresh (wpeps W i) (st j 1 i) (st j 2 i) (pe_r (Q i 3) j);
  k_3 : forall i j, 0 <= i < n -> 0 <= j < n -> fresh (wpeps W i) (st j 2 i) (st j 3 0) (pe_r (Q i 4) (1 + j));
  k_4 : forall i j, 0 <= i < n -> 0 <= j < n -> fresh (wpeps W i) (st j 3 0) (st j 4 i) (pe_r (Q i 5) j);
  k_5 : forall i j, 0 <= i < n -> 0 <= j < n -> fresh (wpeps W i) (st j 4 i) (st j 5 0) (pe_r (Q i 6) (1 + j));
  (* polynomials *)
  ww_a : forall i, 0 <= i < n -> zlen (co i) = t /\ Forall random_scalar (co i);
  ww_lock : forall i, 0 <= i < n -> pe_lock (Q i 3) = true;
  ww_fl : forall i, 0 <= i < n -> zlen (wfl W i) = n /\ exists ret,
    dkg_verify_commitments (cR C) n (i + 1) (zmap coms n) (zmap (fun j => sh j i) n) (repeat 0 (Z.to_nat n)) = Ok (ret, wfl W i, 0);
  (* channels *)
  d_0 : forall i, 0 <= i < n -> nz_create N (i + 1) (nsk i) = Some (wdv W i 0);
  c_init : forall i j sl, 0 <= i < n -> 0 <= j < n ->
    init_noise C (wdv W i j) sl (j + 1) (npk j) (pe_ri (Q i 1) j) = (wdv W i (j + 1), Live (l_o1 _ (lk i j)), Some (l_m1 _ (lk i j)));
  c_m1 : forall i j, 0 <= i < n -> 0 <= j < n -> zlen (l_m1 _ (lk i j)) = 48;
  c_resp : forall i j, 0 <= i < n -> 0 <= j < n ->
    respond_noise C (wdv W j n) (l_m1 _ (lk i j)) (pe_rr (Q j 2) i) = (Live (l_r2 _ (lk i j)), Some (l_m2 _ (lk i j)));
  c_m2 : forall i j, 0 <= i < n -> 0 <= j < n -> zlen (l_m2 _ (lk i j)) = 48;
  c_fin : forall i j log, 0 <= i < n -> 0 <= j < n -> finish_noise C log (wdv W i n) (Live (l_o1 _ (lk i j))) (l_m2 _ (lk i j)) = Ok (Live (l_o2 _ (lk i j)));
  c_e1 : forall i j, 0 <= i < n -> 0 <= j < n -> noise_encrypt C (Live (l_o2 _ (lk i j))) [] 64 = Ok (0, Live (l_o3 _ (lk i j)), l_m3 _ (lk i j));
  c_m3 : forall i j, 0 <= i < n -> 0 <= j < n -> zlen (l_m3 _ (lk i j)) = 64;
  c_e2 : forall i j, 0 <= i < n -> 0 <= j < n -> noise_encrypt C (Live (l_o3 _ (lk i j))) (share_bytes (sh i j)) 49 = Ok (0, Live (l_o4 _ (lk i j)), l_ct _ (lk i j));
  c_ct : forall i j, 0 <= i < n -> 0 <= j < n -> zlen (l_ct _ (lk i j)) = 49;
  c_k1 : forall i j, 0 <= i < n -> 0 <= j < n -> session_key C (Live (l_o4 _ (lk i j))) = Ok (l_key _ (lk i j));
  c_d1 : forall i j, 0 <= i < n -> 0 <= j < n -> noise_decrypt C (Live (l_r2 _ (lk i j))) (l_m3 _ (lk i j)) 0 = Ok (0, Live (l_r3 _ (lk i j)), []);
  c_k2 : forall i j, 0 <= i < n -> 0 <= j < n -> session_key C (Live (l_r3 _ (lk i j))) = Ok (l_key _ (lk i j));
  c_d2 : forall i j, 0 <= i < n -> 0 <= j < n -> noise_decrypt C (Live (l_r3 _ (lk i j))) (l_ct _ (lk i j)) 33 = Ok (0, Live (l_r4 _ (lk i j)), share_bytes (sh i j))
}.
(** the part of this the trusted party depends on *)
Record half_ok : Prop := mkHalfOk {
  hww_C : crypto_ok C;
  hww_n : 2 <= t < n /\ n <= 128;
  hww_sid : zlen sid = 32;
  hww_com : zlen (wcom W) = n;
  hww_enc : zlen (wenc W) = n * n * msg8_SIZE;
  hww_pks : zlen (wpks W) = n;
  hww_out : forall party step k, 0 <= k -> zlen (s_buf w party step k) = k;
  hww_e : forall s k, is_u64 (e_s (E s) k);
  hww_p : forall i s k, is_u64 (pe_s (Q i s) k);
  hg_0 : forall j, 0 <= j < n -> fresh (weps W) (wbufs W) (st j 0 0) (e_r (E 1) j);
  hg_1 : forall j i, 0 <= j < n -> 0 <= i < n -> fresh (weps W) (before (fun j => st j 0 0) 1 j i) (st j 1 i) (e_r (E 2) (i * n + j));
  hg_2 : forall j i, 0 <= j < n -> 0 <= i < n -> fresh (weps W) (before (fun j => st j 1 (n - 1)) 2 j i) (st j 2 i) (e_r (E 3) (i * n + j));
  hg_3 : forall j, 0 <= j < n -> fresh (weps W) (st j 2 (n - 1)) (st j 3 0) (e_r (E 4) j);
  hg_4 : forall j i, 0 <= j < n -> 0 <= i < n -> fresh (weps W) (before (fun j => st j 3 0) 4 j i) (st j 4 i) (e_r (E 5) (i * n + j));
  hg_5 : forall j, 0 <= j < n -> fresh (weps W) (st j 4 (n - 1)) (st j 5 0) (e_r (E 6) j);
  hg_8 : forall j, 0 <= j < n -> fresh (weps W) (st j 5 0) (st j 8 0) (e_r (E 8) j);
  hg_9 : forall j, 0 <= j < n -> fresh (weps W) (st j 8 0) (st j 9 0) (e_r (E 9) j);
  hww_a : forall i, 0 <= i < n -> zlen (co i) = t /\ Forall random_scalar (co i);
  hww_fl : forall i, 0 <= i < n -> zlen (wfl W i) = n /\ exists ret,
    dkg_verify_commitments (cR C) n (i + 1) (zmap coms n) (zmap (fun j => sh j i) n) (repeat 0 (Z.to_nat n)) = Ok (ret, wfl W i, 0);
  hc_m1 : forall i j, 0 <= i < n -> 0 <= j < n -> zlen (l_m1 _ (lk i j)) = 48;
  hc_m2 : forall i j, 0 <= i < n -> 0 <= j < n -> zlen (l_m2 _ (lk i j)) = 48;
  hc_m3 : forall i j, 0 <= i < n -> 0 <= j < n -> zlen (l_m3 _ (lk i j)) = 64;
  hc_ct : forall i j, 0 <= i < n -> 0 <= j < n -> zlen (l_ct _ (lk i j)) = 49
}.
Lemma half_of : world_ok -> half_ok.
Proof.
  intros HW. constructor; [exact (ww_C HW)|exact (ww_n HW)|exact (ww_sid HW)|exact (ww_com HW)|exact (ww_enc HW)|exact (ww_pks HW)|exact (ww_out HW)|exact (ww_e HW)|exact (ww_p HW)|exact (g_0 HW)|exact (g_1 HW)|exact (g_2 HW)|exact (g_3 HW)|exact (g_4 HW)|exact (g_5 HW)|exact (g_8 HW)|exact (g_9 HW)|exact (ww_a HW)|exact (ww_fl HW)|exact (c_m1 HW)|exact (c_m2 HW)|exact (c_m3 HW)|exact (c_ct HW)].
Qed.
End STATES.
Coercion half_of : world_ok >-> half_ok.
