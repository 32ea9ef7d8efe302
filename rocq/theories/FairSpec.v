(** Vocabulary of C85: a peer that follows the protocol while the trusted party runs, whatever the
    other peers do and however far the session gets. *)
From Coq Require Import ZArith List.
From Coq.Strings Require Import Byte.
From Verif Require Import PrimeL Bytes Res Mem Sodium ToprfModel ToprfSpec DkgModel DkgSpec WireModel WireSpec TpCrypto TpModel PeerModel CheaterModel TpSpec BlameSpec SafeSpec GoodSpec.
Import ListNotations.
Open Scope list_scope.
Open Scope Z_scope.

(** The trusted party was set up and started and made up to nine calls; all but the last are known to
    have returned 0. *)
Record session (C : crypto) (c : tp) (calls : list tp_call) (before : list (Z * tp * bytes)) (last : Z * tp * bytes) : Prop := mkSession {
  se_wf : tp_wf c; se_step : t_step c = 0; se_complaints : t_complaints c = []; se_cheaters : t_cheaters c = []; se_eps : 0 <= t_eps c;
  se_run : tp_run C c calls = Ok (before ++ [last]); se_len : (length calls <= 9)%nat;
  se_ok : Forall (fun o => fst (fst o) = 0) before;
  se_clock : forall e i o j, In (e, i, o) calls -> is_u64 (e_s e j) }.

(** The call of the peer whose output the trusted party reads in its call [j]: the call before, except
    that the peer's call 6 writes nothing. *)
Definition read_in (j : nat) : nat := if (j <=? 6)%nat then pred j else j.
(** What peer [k] (counting from 0) wrote is what the trusted party reads as its part, at the place
    given by tpdkg_tp_input_sizes: after the parts of the peers before it. *)
Definition arrives (C : crypto) (k : Z) (calls : list tp_call) (outs : list (Z * tp * bytes)) (pouts : list (Z * peer C * bytes)) (j : nat) : Prop :=
  exists c' out' e input out p' w one sizes size, nth_error outs (pred j) = Some (0, c', out') /\ nth_error calls j = Some (e, input, out) /\
    nth_error pouts (read_in j) = Some (0, p', w) /\
    tp_input_sizes c' = Ok (one, sizes) /\ getz sizes k = Ok size /\
    rd input (fold_right Z.add 0 (firstn (Z.to_nat k) sizes)) size = Ok w.

(** the readings of the clock a peer puts into the messages of its call [s]: one message for each peer
    in calls 1, 2 and 4, none in call 6, one message otherwise *)
Definition stamps_of (n : Z) (s : nat) (e : penv) : list Z :=
  match s with 1%nat | 2%nat | 4%nat => map (pe_s e) (zrange 0 (Z.to_nat n)) | 6%nat => [] | _ => [pe_s e 0] end.
Fixpoint stamps (n : Z) (s : nat) (pcalls : list peer_call) : list Z :=
  match pcalls with [] => [] | (e, _, _) :: l => stamps_of n s e ++ stamps n (S s) l end.
(** no clock goes back, and no two messages in a row are further apart than the window *)
Fixpoint paced (window prev : Z) (l : list Z) : Prop :=
  prev + window < 2 ^ 64 /\ match l with [] => True | x :: l' => prev <= x <= prev + window /\ paced window x l' end.

(** Peer [k], set up and started from the message of the trusted party, made some calls, every one of
    them returned 0; it drew its polynomial as tpdkg_peer_next does; it was given what the trusted
    party wrote for it, and what it wrote arrived, in time.  Nothing is said about the other peers. *)
Record alongside (C : crypto) (c : tp) (calls : list tp_call) (outs : list (Z * tp * bytes))
    (k : Z) (p : peer C) (pcalls : list peer_call) (pouts : list (Z * peer C * bytes)) : Prop := mkAlong {
  al_k : 0 <= k < t_n c; al_fresh : peer_fresh C p; al_n : p_n C p = t_n c; al_t : p_t C p = t_t c;
  al_sid : p_sid C p = t_sid c; al_transcript : p_transcript C p = t_transcript c;
  al_run : peer_run C p pcalls = Ok pouts; al_ok : Forall (fun o => fst (fst o) = 0) pouts;
  al_clock : forall e i o j, In (e, i, o) pcalls -> is_u64 (pe_s e j);
  al_random : forall e i o, nth_error pcalls 3 = Some (e, i, o) -> Z.of_nat (length (pe_a e)) = p_t C p /\ Forall random_scalar (pe_a e);
  al_gets : forall s, (s <= 6)%nat -> (s < length pcalls)%nat -> gets C k outs pcalls s;
  al_arrives : forall j, (0 < j < length calls)%nat -> arrives C k calls outs pouts j;
  al_paced : exists start, getz (t_last c) k = Ok start /\ 0 < start /\ paced (t_eps c) start (stamps (t_n c) 0 pcalls) }.

(** the entry is a complaint of [b] that was not answered *)
Definition unanswered (c : tp) (b : Z) (ch : cheater) : Prop :=
  ch_step ch = 18 /\ ch_error ch = 7 /\ ch_peer ch = b /\ In (b * 256 + ch_other ch) (t_complaints c).
(** The entry is a complaint of [b] which was answered with another key ([input]: the revealed keys)
    than the one with which [b], in state [p'] after receiving the shares, had opened the share it
    complained about, and both keys give the same authenticator for the encrypted share. *)
Definition second_key (C : crypto) (c : tp) (input : bytes) (b : Z) (p' : peer C) (ch : cheater) : Prop :=
  ch_step ch = 18 /\ ch_error ch = 128 /\ ch_other ch = b /\ In (b * 256 + ch_peer ch) (t_complaints c) /\
  exists s key key' ct, getz (p_ins C p') (ch_peer ch - 1) = Ok (Live s) /\ nz_key (cN C) s = Some key /\ answers c input (ch_peer ch) b key' /\
    rd (t_enc c) (share_off (t_n c) (ch_peer ch) b + 111 + 64) 49 = Ok ct /\ key <> key' /\ c_auth C key ct = c_auth C key' ct.
