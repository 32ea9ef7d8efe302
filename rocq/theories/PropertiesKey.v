(** Property theorems C98: what each peer contributes to the generated key.
    Vocabulary: KeySpec.v, GoodSpec.v, TpSpec.v, SafeSpec.v. *)
From Coq Require Import ZArith Lia List Bool.
From Coq.Strings Require Import Byte.
From Verif Require Import PrimeL Bytes Res Mem Sodium ToprfModel ToprfSpec DkgModel DkgSpec WireModel WireSpec TpCrypto TpModel PeerModel TpSpec SafeSpec GoodSpec KeySpec.
From Verif Require Import KeyProofs KeyExamples.
Import ListNotations.
Open Scope list_scope.
Open Scope Z_scope.

(** C98.  Two key generations that ended well; [x] and [x'] are the peer with the same number, which
    followed the protocol in both, and every other dealer published the same commitments in both.
    The key, less the peer's own secret, is the same: the others' commitments fix it. *)
Theorem C98_rest_fixed : forall C, crypto_ok C -> forall c calls outs parties x a c' calls' outs' parties' x' a',
  ended C c calls outs parties -> ended C c' calls' outs' parties' -> t_n c = t_n c' ->
  In x parties -> In x' parties' -> number x = number x' -> drew x a -> drew x' a' ->
  others_same (number x) (published c outs) (published c' outs') ->
  (key_of parties - secret a) mod L = (key_of parties' - secret a') mod L.
Proof. exact rest_fixed. Qed.
Print Assumptions C98_rest_fixed.

(** Hence the key is a one-to-one function of that peer's secret, whatever the others committed to. *)
Theorem C98_key_moves_with_secret : forall C, crypto_ok C -> forall c calls outs parties x a c' calls' outs' parties' x' a',
  ended C c calls outs parties -> ended C c' calls' outs' parties' -> t_n c = t_n c' ->
  In x parties -> In x' parties' -> number x = number x' -> drew x a -> drew x' a' ->
  others_same (number x) (published c outs) (published c' outs') ->
  (key_of parties = key_of parties' <-> secret a = secret a').
Proof. exact key_moves. Qed.
Print Assumptions C98_key_moves_with_secret.

Example C98_nonvacuous : exists C c calls outs parties c' calls' outs' parties' (x x' : party C) a a', crypto_ok C /\
  ended C c calls outs parties /\ ended C c' calls' outs' parties' /\ t_n c = t_n c' /\ In x parties /\ In x' parties' /\ number x = number x' /\
  drew x a /\ drew x' a' /\ others_same (number x) (published c outs) (published c' outs') /\
  secret a = 7 /\ secret a' = 20 /\ key_of parties = 34 /\ key_of parties' = 47.
Proof. exact C98_example. Qed.

(** What a peer does and writes before it publishes its commitments does not depend on the polynomial
    it will draw: return codes, states and messages of its first three calls are the same. *)
Theorem C98_nothing_before : forall C p calls calls', p_step C p = 0 -> (length calls <= 3)%nat -> Forall2 same_but_poly calls calls' ->
  peer_run C p calls = peer_run C p calls'.
Proof. exact run_before. Qed.
Print Assumptions C98_nothing_before.

(** In any state, only the call of step 3 looks at it. *)
Theorem C98_only_one_call_draws : forall C a e p input out, p_step C p <> 3 ->
  peer_next C (with_poly a e) p input out = peer_next C e p input out.
Proof. exact next_poly. Qed.
Print Assumptions C98_only_one_call_draws.

Example C98_before_nonvacuous : exists C p calls calls' outs, crypto_ok C /\ p_step C p = 0 /\ length calls = 3%nat /\ Forall2 same_but_poly calls calls' /\
  map (fun x => pe_a (fst (fst x))) calls <> map (fun x => pe_a (fst (fst x))) calls' /\
  peer_run C p calls = Ok outs /\ map (fun o => fst (fst o)) outs = [0; 0; 0].
Proof. exact C98_before_example. Qed.
