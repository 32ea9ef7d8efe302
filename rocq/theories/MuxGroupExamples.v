(** Concrete cases for C92 *)
From Coq Require Import ZArith Lia List Bool.
From Coq.Strings Require Import Byte.
From Verif Require Import Bytes Res Mem MuxModel MuxSpec MuxProofs MuxExamples MuxGroupSpec.
Import ListNotations.
Open Scope list_scope.
Open Scope Z_scope.

Definition mg_l : list (transport * bool) := [(SSL, false); (SSL, true); (SSL, false)].
Definition mg_env : list (bool * list ev) := map (fun p => (true, m_in p)) mx3.
Definition mg_rounds : list round := [mkRound [true; true; true] [x61] (mkGc 2 3 none_pending [only [0]; only [2; 1]]); mkRound [true; true; true] [x62; x63] (mkGc 2 3 (fun _ => 2) [])].
(** three peers, two requests of different lengths *)
Lemma C92_example : exists l env ps1 rs outs ps2, length env = length l /\ mux_connect env (new_peers l) = (true, ps1) /\ talk rs ps1 outs ps2
  /\ Forall (fun r => length (rd_up r) = length l /\ zlen l <= g_n (rd_call r)) rs /\ zlen l = 3
  /\ outs = [[Some [x01; x02]; Some [x11; x12]; Some [x21; x22]]; [Some [x03; x04]; Some [x13; x14]; Some [x23; x24]]]
  /\ map m_out ps2 = [[x61; x62; x63]; [x61; x62; x63]; [x61; x62; x63]].
Proof.
  exists mg_l, mg_env. eexists. exists mg_rounds. do 2 eexists. split; [reflexivity|]. split; [vm_compute; reflexivity|]. split.
  { unfold mg_rounds. eapply talk_cons; [vm_compute; reflexivity|vm_compute; reflexivity|]. eapply talk_cons; [vm_compute; reflexivity|vm_compute; reflexivity|]. constructor. }
  split; [repeat constructor; vm_compute; discriminate|]. split; [reflexivity|]. split; reflexivity.
Qed.
(** the second of three peers cannot be reached; the first one was sent the request, the third was not *)
Lemma C92_partial_example : exists env msg ps ps', length env = length ps /\ zlen ps = 3 /\ mux_broadcast env msg ps = (false, ps') /\ map m_out ps' = [msg; []; []] /\ msg = [x61].
Proof. exists [true; false; true], [x61], mx3. eexists. repeat split. Qed.
Lemma C92_connect_example : exists env ps ps', length env = length ps /\ zlen ps = 3 /\ mux_connect env ps = (false, ps') /\ map is_connected ps' = [true; false; false].
Proof. exists [(true, []); (false, []); (true, [])], (new_peers mg_l). eexists. repeat split. Qed.
