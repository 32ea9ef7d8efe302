(** Vocabulary for C92: conversations with a group of peers *)
From Coq Require Import ZArith List Bool.
From Coq.Strings Require Import Byte.
From Verif Require Import Bytes Res Mem MuxModel MuxSpec.
Import ListNotations.
Open Scope list_scope.
Open Scope Z_scope.

(** a request to all peers, followed by the collection of answers; [rd_up]: on which connections sendall
    succeeds *)
Record round := mkRound { rd_up : list bool; rd_msg : bytes; rd_call : gcall }.
(** rounds none of whose calls raises, and the answers of each *)
Inductive talk : list round -> list mpeer -> list (list (option bytes)) -> list mpeer -> Prop :=
| talk_nil ps : talk [] ps [] ps
| talk_cons r rs ps ps1 out ps2 outs ps3 :
    mux_broadcast (rd_up r) (rd_msg r) ps = (true, ps1) ->
    gather bytes raw (g_len (rd_call r)) (g_n (rd_call r)) (g_pend (rd_call r)) (g_sched (rd_call r)) ps1 = (Got out, ps2) ->
    talk rs ps2 outs ps3 -> talk (r :: rs) ps (out :: outs) ps3.
(** the peers as the constructor makes them: transport, and whether a certificate file is given *)
Definition new_peers (l : list (transport * bool)) : list mpeer := map (fun '(ty, cert) => new_peer ty cert) l.
