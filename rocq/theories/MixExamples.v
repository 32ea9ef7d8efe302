(** Concrete cases of C112: three of five servers, the second of which answers for another session. *)
From Coq Require Import ZArith Lia List Bool.
From Verif Require Import PrimeL Fq Bytes Res Mem Sodium OprfModel OprfSpec OprfProofs ToprfModel ToprfSpec ToprfProofs ToprfExamples DkgModel DkgProofs.
From Verif Require Import SecrecySpec Secrecy UseSpec UpdateSpec MixSpec Mix.
Import ListNotations.
Open Scope list_scope.
Open Scope Z_scope.

(** a toy hash that depends on all of its input *)
Definition wideH : hashes := {| sha512 := fun m => le_bytes 64 (of_le m mod (2 ^ 512 - 569)); blake2b := fun n m => le_bytes n (of_le m mod (2 ^ 512 - 569)) |}.
Lemma wideH_ok : hashes_ok wideH.
Proof. constructor; intros; apply le_bytes_length. Qed.

Definition other_ssid : bytes := zeros 8.
Definition mixed_parts : list part :=
  map (fun '(k, z) => match toprf_3hashtdh toyR wideH true k z ex_alpha (if s_index k =? 2 then other_ssid else ex_ssid) with
                | Ok (_, (i, Some v)) => mkPart i v | _ => mkPart 0 [] end) (combine ex_q ex_zq).

Lemma C112_example : exists R H K d zsh alpha P ssid j ssid' qs parts (junk : list Z), ristretto_ok R /\ hashes_ok H /\ shares_key K d /\ shares_key 0 (mkDep (d_n d) (d_t d) zsh) /\ quorum (d_t d) (d_shares d) qs /\
  rdec R alpha = Some P /\ answers_mixed R H zsh alpha ssid j ssid' qs parts /\ length junk = length parts /\
  Z.of_nat (length ssid) < 2 ^ 16 /\ Z.of_nat (length ssid') < 2 ^ 16 /\ ssid <> ssid' /\ In j (map s_index qs) /\
  blake2b H 64 (mask_input ssid alpha) <> blake2b H 64 (mask_input ssid' alpha) /\
  HashToGroup R H (blake2b H 64 (mask_input ssid alpha)) <> HashToGroup R H (blake2b H 64 (mask_input ssid' alpha)) /\ K = 42 /\ d_n d = 5 /\ d_t d = 3.
Proof.
  exists toyR, wideH, 42, (mkDep 5 3 ex_shares), ex_zshares, ex_alpha, (rbase toyR), ex_ssid, 2, other_ssid, ex_q, mixed_parts, [0; 0; 0].
  assert (HPz : sharing_params 0 5 3 ex_z ex_buf) by (unfold sharing_params, ex_z, ex_buf; cbn [length repeat]; pose proof L_gt_65536; lia).
  split; [exact toyR_ok|]. split; [exact wideH_ok|]. split; [exists ex_a, ex_buf; split; [exact ex_params|exact ex_created]|].
  split; [exists ex_z, ex_buf; split; [exact HPz|destruct HPz as (H1 & H2 & H3 & H4 & H5); apply create_shares_eq; assumption]|].
  split; [exact ex_quorum|]. split; [exact toy_base_dec|]. split.
  { unfold answers_mixed, mixed_parts, ex_q. cbn [combine map ex_zq]. repeat constructor.
    - exists (mkShare 5 40). split; [vm_compute; tauto|]. split; [reflexivity|]. split; [vm_compute; reflexivity|vm_compute; discriminate].
    - exists (mkShare 2 10). split; [vm_compute; tauto|]. split; [reflexivity|]. split; [vm_compute; reflexivity|vm_compute; discriminate].
    - exists (mkShare 4 28). split; [vm_compute; tauto|]. split; [reflexivity|]. split; [vm_compute; reflexivity|vm_compute; discriminate]. }
  split; [reflexivity|]. split; [reflexivity|]. split; [reflexivity|]. split; [discriminate|]. split; [cbn; tauto|].
  split; [vm_compute; discriminate|]. split; [vm_compute; discriminate|]. auto.
Qed.
