(** The handshake hash of a session names its handshake. *)
From Coq Require Import ZArith Lia List Bool.
From Coq.Strings Require Import Byte.
From Verif Require Import Bytes Res Mem XkModel XkSpec XkProofs XkChannel XkSession XkStatusSpec XkStatus XkBindSpec.
Import ListNotations.
Open Scope list_scope.
Open Scope Z_scope.
Arguments firstn : simpl never.
Arguments skipn : simpl never.
Arguments le_bytes : simpl never.
Arguments zeros : simpl never.

Section S.
Variable X : xprims.
Hypothesis OK : xprims_ok X.

Definition dhmix (ck dh : bytes) : bytes * bytes := let '(a, t) := kdf X ck dh in (a, firstn 32 t).
Definition moved (s s' : hs) (m : bytes) (n : nat) (dh : bytes) : Prop :=
  h_h s' = chain X (h_h s) (cut n m) /\ (h_ck s', h_k s') = dhmix (h_ck s) dh /\ h_step s' = h_step s + 1 /\
  h_spriv s' = h_spriv s /\ h_spub s' = h_spub s /\ h_epriv s' = h_epriv s /\ h_epub s' = h_epub s.

Lemma cut_app n (a b : bytes) : zlen a = Z.of_nat n -> firstn n (a ++ b) = a /\ skipn n (a ++ b) = b.
Proof.
  unfold zlen. intros H. assert (E : n = length a) by lia. subst n. split.
  - rewrite firstn_app, firstn_all, Nat.sub_diag. change (firstn 0 b) with (@nil byte). apply app_nil_r.
  - rewrite skipn_app, skipn_all, Nat.sub_diag. reflexivity.
Qed.

Lemma write_ok init s p o s' m : 0 <= h_step s -> zlen (h_epub s) = 32 -> zlen (h_spub s) = 32 -> write_msg X init s p o = (s', inr m) ->
  exists dh, moved s s' m (if h_step s =? 2 then 48%nat else 32%nat) dh /\ h_rs s' = h_rs s /\ h_re s' = h_re s /\
    ((h_step s = 0 /\ init = true /\ firstn 32 m = h_epub s /\ x_dh X (h_epriv s) (h_rs s) = Some dh) \/
     (h_step s = 1 /\ init = false /\ firstn 32 m = h_epub s /\ x_dh X (h_epriv s) (h_re s) = Some dh) \/
     (h_step s = 2 /\ init = true /\ firstn 48 m = aead_encrypt X (h_k s) 1 (h_h s) (h_spub s) /\ x_dh X (h_spriv s) (h_re s) = Some dh)).
Proof.
  intros H0 Le Ls. unfold write_msg. destruct (Z.leb_spec 3 (h_step s)); [discriminate|].
  assert (C : h_step s = 0 \/ h_step s = 1 \/ h_step s = 2) by lia.
  destruct C as [C|[C|C]]; rewrite C; destruct init; cbn [Z.modulo Z.div_eucl Z.pos_div_eucl Z.eqb Bool.eqb negb andb snd Pos.eqb]; cbn -[firstn skipn encrypt_and_hash mix_dh zlen u32 Z.leb Z.eqb]; try discriminate.
  all: destruct (negb (_ && _)); [discriminate|]; unfold encrypt_and_hash, mix_dh.
  all: match goal with |- context[x_dh X ?a ?b] => destruct (x_dh X a b) as [dh|] eqn:D; [|discriminate] end.
  all: cbn [set_keys set_h set_step h_step h_k h_ck h_h h_spriv h_spub h_epriv h_epub h_rs h_re] in D |- *.
  all: destruct (kdf X (h_ck s) dh) as [a t] eqn:K; intros E; injection E as <- <-; exists dh; unfold moved, dhmix; rewrite K.
  all: cbn [set_keys set_h set_step h_step h_k h_ck h_h h_spriv h_spub h_epriv h_epub h_rs h_re Z.eqb Pos.eqb].
  1,2: destruct (cut_app 32 (h_epub s) (aead_encrypt X (firstn 32 t) 0 (mix_hash X (h_h s) (h_epub s)) p) Le) as (E1 & E2); unfold cut; rewrite E1, E2; cbn [chain]; unfold mix_hash.
  1,2: split; [repeat split; lia|]; split; [reflexivity|]; split; [reflexivity|].
  1: left; repeat split; assumption || lia.
  1: right; left; repeat split; assumption || lia.
  assert (Lc : zlen (aead_encrypt X (h_k s) 1 (h_h s) (h_spub s)) = Z.of_nat 48) by (unfold aead_encrypt; rewrite (ok_seal_len X OK); lia).
  match goal with |- context[_ ++ ?b] => destruct (cut_app 48 _ b Lc) as (E1 & E2) end. unfold cut. rewrite E1, E2. cbn [chain]. unfold mix_hash.
  split; [repeat split; lia|]. split; [reflexivity|]. split; [reflexivity|]. right. right. repeat split; assumption || lia.
Qed.

Lemma read_ok init d s o i s' p q : 0 <= h_step s -> read_msg X init d s o i = (s', inr (p, q)) ->
  exists dh, moved s s' i (if h_step s =? 2 then 48%nat else 32%nat) dh /\
    ((h_step s = 0 /\ init = false /\ q = None /\ h_re s' = firstn 32 i /\ h_rs s' = h_rs s /\ x_dh X (h_spriv s) (firstn 32 i) = Some dh) \/
     (h_step s = 1 /\ init = true /\ q = None /\ h_re s' = firstn 32 i /\ h_rs s' = h_rs s /\ x_dh X (h_epriv s) (firstn 32 i) = Some dh) \/
     (h_step s = 2 /\ init = false /\ exists rs peer, q = Some peer /\ aead_decrypt X (h_k s) 1 (h_h s) (firstn 48 i) = Some rs /\ lookup_peer_by_static d rs = Some peer /\ x_dh X (h_epriv s) rs = Some dh)).
Proof.
  intros H0. unfold read_msg. destruct (Z.leb_spec 3 (h_step s)); [discriminate|].
  assert (C : h_step s = 0 \/ h_step s = 1 \/ h_step s = 2) by lia.
  destruct C as [C|[C|C]]; rewrite C; destruct init; cbn [Z.modulo Z.div_eucl Z.pos_div_eucl Z.eqb Bool.eqb negb andb snd Pos.eqb]; cbn -[firstn skipn decrypt_and_hash mix_dh zlen u32 Z.leb Z.eqb lookup_peer_by_static]; try discriminate.
  all: destruct (negb (_ && _)); [discriminate|].
  3: unfold decrypt_and_hash at 1; destruct (aead_decrypt X (h_k s) 1 (h_h s) (firstn 48 i)) as [rs|] eqn:Do; [|discriminate]; destruct (lookup_peer_by_static d rs) as [peer|] eqn:Lk; [|discriminate].
  all: unfold mix_dh; match goal with |- context[x_dh X ?a ?b] => destruct (x_dh X a b) as [dh|] eqn:D; [|discriminate] end.
  all: cbn [set_keys set_h set_step set_re set_rs h_step h_k h_ck h_h h_spriv h_spub h_epriv h_epub h_rs h_re] in D |- *.
  all: destruct (kdf X (h_ck s) dh) as [a t] eqn:K; unfold decrypt_and_hash; destruct (aead_decrypt X _ 0 _ _) as [pl|]; [|discriminate]; intros E; injection E as <- <- <-; exists dh; unfold moved, dhmix; rewrite K.
  all: cbn [set_keys set_h set_step set_re set_rs h_step h_k h_ck h_h h_spriv h_spub h_epriv h_epub h_rs h_re Z.eqb Pos.eqb]; unfold cut; cbn [chain]; unfold mix_hash.
  all: split; [repeat split; lia|].
  - left. repeat split; assumption || lia.
  - right. left. repeat split; assumption || lia.
  - right. right. split; [lia|]. split; [reflexivity|]. exists rs, peer. repeat split; assumption.
Qed.

(** ** the keys follow from the shared secrets, the hash from the messages *)
Definition keys (ks : list bytes) : bytes * bytes := fold_left (fun st dh => dhmix (fst st) dh) ks (name64, zeros 32).

Section ROLE.
Variables (init : bool) (d : xdev) (pid : Z) (e rs : bytes).
Hypothesis Ls : zlen (d_spub d) = 32.
Let spriv := d_spriv d.
Let spub := d_spub d.
Definition h0 : bytes := chain X name64 [d_prologue d; rs].
Definition f1 (m1 k1 : bytes) : Prop := if init then firstn 32 m1 = x_base X e /\ x_dh X e rs = Some k1 else x_dh X spriv (firstn 32 m1) = Some k1.
Definition f2 (m1 m2 k2 : bytes) : Prop := if init then x_dh X e (firstn 32 m2) = Some k2 else firstn 32 m2 = x_base X e /\ x_dh X e (firstn 32 m1) = Some k2.
Definition f3 (m1 m2 m3 k1 k2 k3 : bytes) (who : Z) : Prop :=
  let h2 := chain X h0 (cut 32 m1 ++ cut 32 m2) in
  if init then firstn 48 m3 = aead_encrypt X (snd (keys [k1; k2])) 1 h2 spub /\ x_dh X spriv (firstn 32 m2) = Some k3
  else exists sp dn q, aead_decrypt X (snd (keys [k1; k2])) 1 h2 (firstn 48 m3) = Some sp /\ x_dh X e sp = Some k3 /\ lookup_peer_by_static dn sp = Some q /\ who = p_id q.
Definition data (ms : list bytes) : list bytes :=
  match ms with [] => [] | [m1] => cut 32 m1 | [m1; m2] => cut 32 m1 ++ cut 32 m2 | m1 :: m2 :: m3 :: _ => cut 32 m1 ++ cut 32 m2 ++ cut 48 m3 end.
Definition base (h : hs) (ms ks : list bytes) : Prop :=
  h_step h = zlen ms /\ h_h h = chain X h0 (data ms) /\ (h_ck h, h_k h) = keys ks /\ h_spriv h = spriv /\ h_spub h = spub /\ h_epriv h = e /\ h_epub h = x_base X e /\ (init = true -> h_rs h = rs).
Definition inv (s : xsess) (ms : list bytes) : Prop :=
  s_init s = init /\
  match s_st s with
  | Handshake h => h_step h = 4 \/
      (ms = [] /\ base h ms []) \/
      (exists m1 k1, ms = [m1] /\ base h ms [k1] /\ f1 m1 k1 /\ (init = false -> h_re h = firstn 32 m1)) \/
      (exists m1 m2 k1 k2, ms = [m1; m2] /\ base h ms [k1; k2] /\ f1 m1 k1 /\ f2 m1 m2 k2 /\ (init = true -> h_re h = firstn 32 m2))
  | Transport t => exists m1 m2 m3 rest k1 k2 k3, ms = m1 :: m2 :: m3 :: rest /\ t_h t = chain X h0 (data ms) /\ f1 m1 k1 /\ f2 m1 m2 k2 /\ f3 m1 m2 m3 k1 k2 k3 (s_pid s) /\
      let '(a, b) := kdf X (fst (keys [k1; k2; k3])) [] in
      t_skey t = (if init then firstn 32 a else firstn 32 b) /\ t_rkey t = (if init then firstn 32 b else firstn 32 a)
  end.

Lemma chain_app h a b : chain X h (a ++ b) = chain X (chain X h a) b.
Proof. revert h. induction a as [|x a IH]; intros h; cbn; [reflexivity|apply IH]. Qed.
Lemma keys_snoc ks k : keys (ks ++ [k]) = dhmix (fst (keys ks)) k.
Proof. unfold keys. rewrite fold_left_app. reflexivity. Qed.

(** one more message of the handshake *)
Lemma base_next h h' ms ks m dh n : base h ms ks -> moved h h' m n dh -> data (ms ++ [m]) = data ms ++ cut n m -> (init = true -> h_rs h' = h_rs h) -> base h' (ms ++ [m]) (ks ++ [dh]).
Proof.
  intros (B1 & B2 & B3 & B4 & B5 & B6 & B7 & B8) (M1 & M2 & M3 & M4 & M5 & M6 & M7) Dt Hr. unfold base.
  split; [rewrite zlen_app; change (zlen [m]) with 1; lia|]. split; [rewrite Dt, chain_app, <- B2; exact M1|]. split; [rewrite keys_snoc, <- B3; exact M2|].
  split; [congruence|]. split; [congruence|]. split; [congruence|]. split; [congruence|]. intros I. rewrite Hr by exact I. apply B8, I.
Qed.
Lemma split_keys h ks : (h_ck h, h_k h) = keys ks -> exists t, split X init h = Transport t /\ t_h t = h_h h /\
  let '(a, b) := kdf X (fst (keys ks)) [] in t_skey t = (if init then firstn 32 a else firstn 32 b) /\ t_rkey t = (if init then firstn 32 b else firstn 32 a).
Proof.
  intros E. rewrite <- E. cbn [fst]. unfold split. destruct (kdf X (h_ck h) []) as [a b]. destruct init; eexists; (split; [reflexivity|]); cbn; repeat split.
Qed.

Lemma inv_step o s s' c r ms : inv s ms -> gstep X o s = (s', c, r) -> inv s' (ms ++ wire [(o, c, r)]).
Proof.
  intros (I0 & I) G. pose proof (step_outcome _ _ _ _ _ _ G) as (I1 & _ & Co).
  split; [congruence|].
  destruct c as [|err|err].
  2:{ destruct Co as (-> & ->). assert (Ew : wire [(o, RError err, GNothing)] = []) by (destruct o; reflexivity). rewrite Ew, app_nil_r. exact I. }
  2:{ destruct Co as (Dd & -> & _ & (h & Es)). assert (Ew : wire [(o, RStuck err, GNothing)] = []) by (destruct o; reflexivity). rewrite Ew, app_nil_r.
      destruct (s_st s') as [h'|t'] eqn:Es'; [|contradiction]. left. cbn in Dd.
      assert (St : steps_ok (s_st s)).
      { rewrite Es in I. rewrite Es. cbn. destruct I as [I|[(-> & B)|[(m1 & k1 & -> & B & _)|(m1 & m2 & k1 & k2 & -> & B & _)]]]; [lia|destruct B as (B & _); change (zlen []) with 0 in B; lia|destruct B as (B & _); change (zlen [m1]) with 1 in B; lia|destruct B as (B & _); change (zlen [m1; m2]) with 2 in B; lia]. }
      pose proof (steps_step _ _ _ _ _ _ St G) as P. rewrite Es' in P. cbn in P. lia. }
  clear Co. destruct (s_st s) as [h|t] eqn:Es.
  - (* handshake *)
    destruct I as [I|I].
    { exfalso. destruct o as [m|dn i]; unfold gstep, session_write, session_read in G; rewrite Es in G; rewrite I in G; cbn in G; discriminate. }
    assert (Hst : 0 <= h_step h /\ zlen (h_epub h) = 32 /\ zlen (h_spub h) = 32).
    { destruct I as [(-> & B)|[(m1 & k1 & -> & B & _)|(m1 & m2 & k1 & k2 & -> & B & _)]]; destruct B as (B & _ & _ & _ & B5 & _ & B7 & _);
        rewrite B5, B7, (ok_base_len X OK); (split; [rewrite B; apply zlen_nonneg|split; [reflexivity|exact Ls]]). }
    destruct Hst as (H0 & Le & Lsp).
    destruct o as [m|dn i]; unfold gstep in G.
    + unfold session_write in G. rewrite Es in G. destruct (4 <=? h_step h); [discriminate|]. destruct (compute_next_message_len _ _) as [outlen|]; [|discriminate].
      destruct (sec_ok _ _); [|discriminate]. unfold state_handshake_write in G. rewrite I0 in G. destruct (write_msg X init h (em_msg m) outlen) as [h' [er|w]] eqn:Wm; [discriminate|].
      injection G as <- <-. cbn [s_st with_st]. change (wire [(GWrite m, RSuccess, GMessage w)]) with [w].
      destruct (write_ok _ _ _ _ _ _ H0 Le Lsp Wm) as (dh & Mv & Rs & Re & Cs).
      destruct I as [(-> & B)|[(m1 & k1 & -> & B & F1 & Hre)|(m1 & m2 & k1 & k2 & -> & B & F1 & F2 & Hre)]]; assert (Bs := proj1 B).
      * change (zlen []) with 0 in Bs. rewrite Bs in *. cbn [Z.eqb] in *. destruct Cs as [(_ & Ei & C1 & C2)|[(Q & _)|(Q & _)]]; [|lia|lia].
        right. right. left. exists w, dh. split; [reflexivity|]. split; [apply (base_next h h' [] [] w dh 32 B Mv eq_refl); intros _; exact Rs|].
        destruct B as (_ & _ & _ & _ & _ & B6 & B7 & B8). split; [|intros Q; congruence]. unfold f1. rewrite Ei. rewrite B6, B8 in C2 by exact Ei. rewrite C1, B7. split; [reflexivity|exact C2].
      * change (zlen [m1]) with 1 in Bs. rewrite Bs in *. change (1 =? 2) with false in *. destruct Cs as [(Q & _)|[(_ & Ei & C1 & C2)|(Q & _)]]; [lia| |lia].
        right. right. right. exists m1, w, k1, dh. split; [reflexivity|]. split; [apply (base_next h h' [m1] [k1] w dh 32 B Mv eq_refl); intros _; exact Rs|]. split; [exact F1|].
        destruct B as (_ & _ & _ & _ & _ & B6 & B7 & B8). split; [|intros Q; congruence]. unfold f2. rewrite Ei. rewrite B6, Hre in C2 by exact Ei. rewrite C1, B7. split; [reflexivity|exact C2].
      * change (zlen [m1; m2]) with 2 in Bs. rewrite Bs in *. cbn [Z.eqb Pos.eqb] in *. destruct Cs as [(Q & _)|[(Q & _)|(_ & Ei & C1 & C2)]]; [lia|lia|].
        assert (B' : base h' ([m1; m2] ++ [w]) ([k1; k2] ++ [dh])) by (apply (base_next h h' _ _ w dh 48 B Mv); [cbn [data app]; rewrite <- app_assoc; reflexivity|intros _; exact Rs]).
        destruct (split_keys h' _ (proj1 (proj2 (proj2 B')))) as (t & -> & Th & Tk).
        exists m1, m2, w, [], k1, k2, dh. split; [reflexivity|]. split; [rewrite Th; apply B'|]. split; [exact F1|]. split; [exact F2|]. split; [|exact Tk].
        destruct B as (_ & B2 & B3 & B4 & B5 & _). unfold f3. rewrite Ei. rewrite <- B3. cbn [snd]. cbn [data] in B2. rewrite <- B2, <- B5. split; [exact C1|]. rewrite <- Hre by exact Ei. rewrite <- B4. exact C2.
    + unfold session_read in G. rewrite Es in G. destruct (4 <=? h_step h); [discriminate|]. destruct (Bool.eqb _ _ && _); [|discriminate]. destruct (payload_len _ _) as [outlen|]; [|discriminate].
      unfold state_handshake_read in G. rewrite I0 in G. destruct (read_msg X init dn h outlen i) as [h' [er|[pl q]]] eqn:Rm; [discriminate|].
      destruct (read_ok _ _ _ _ _ _ _ _ H0 Rm) as (dh & Mv & Cs).
      assert (Ew : wire [(GRead dn i, RSuccess, r)] = [i]) by (destruct q; injection G as <- <-; reflexivity). rewrite Ew. clear Ew.
      assert (Est : s_st s' = (if h_step h =? 2 then split X init h' else Handshake h')) by (destruct q; injection G as <- <-; reflexivity).
      assert (Epid : match q with Some peer => s_pid s' = p_id peer | None => True end) by (destruct q; injection G as <- <-; [reflexivity|exact Logic.I]). rewrite Est. clear G.
      destruct I as [(-> & B)|[(m1 & k1 & -> & B & F1 & Hre)|(m1 & m2 & k1 & k2 & -> & B & F1 & F2 & Hre)]]; assert (Bs := proj1 B).
      * change (zlen []) with 0 in Bs. rewrite Bs in *. cbn [Z.eqb] in *. destruct Cs as [(_ & Ei & _ & C1 & C2 & C3)|[(Q & _)|(Q & _)]]; [|lia|lia].
        right. right. left. exists i, dh. split; [reflexivity|]. split; [apply (base_next h h' [] [] i dh 32 B Mv eq_refl); intros _; exact C2|].
        destruct B as (_ & _ & _ & B4 & _). split; [|intros _; exact C1]. unfold f1. rewrite Ei. rewrite <- B4. exact C3.
      * change (zlen [m1]) with 1 in Bs. rewrite Bs in *. change (1 =? 2) with false in *. destruct Cs as [(Q & _)|[(_ & Ei & _ & C1 & C2 & C3)|(Q & _)]]; [lia| |lia].
        right. right. right. exists m1, i, k1, dh. split; [reflexivity|]. split; [apply (base_next h h' [m1] [k1] i dh 32 B Mv eq_refl); intros _; exact C2|]. split; [exact F1|].
        destruct B as (_ & _ & _ & _ & _ & B6 & _). split; [|intros _; exact C1]. unfold f2. rewrite Ei. rewrite <- B6. exact C3.
      * change (zlen [m1; m2]) with 2 in Bs. rewrite Bs in *. cbn [Z.eqb Pos.eqb] in *. destruct Cs as [(Q & _)|[(Q & _)|(_ & Ei & sp & peer & -> & C1 & C2 & C3)]]; [lia|lia|].
        assert (B' : base h' ([m1; m2] ++ [i]) ([k1; k2] ++ [dh])) by (apply (base_next h h' _ _ i dh 48 B Mv); [cbn [data app]; rewrite <- app_assoc; reflexivity|intros Q; congruence]).
        destruct (split_keys h' _ (proj1 (proj2 (proj2 B')))) as (t & -> & Th & Tk).
        exists m1, m2, i, [], k1, k2, dh. split; [reflexivity|]. split; [rewrite Th; apply B'|]. split; [exact F1|]. split; [exact F2|]. split; [|exact Tk].
        destruct B as (_ & B2 & B3 & _ & _ & B6 & _). unfold f3. rewrite Ei. rewrite <- B3. cbn [snd]. cbn [data] in B2. rewrite <- B2. exists sp, dn, peer. split; [exact C1|]. split; [rewrite <- B6; exact C3|]. split; [exact C2|exact Epid].
  - (* transport *)
    destruct I as (m1 & m2 & m3 & rest & k1 & k2 & k3 & -> & Th & F1 & F2 & F3 & Tk).
    assert (Q : exists t', s_st s' = Transport t' /\ s_pid s' = s_pid s /\ t_h t' = t_h t /\ t_skey t' = t_skey t /\ t_rkey t' = t_rkey t).
    { destruct o as [m|dn i]; unfold gstep in G.
      - unfold session_write in G. rewrite Es in G. destruct (compute_next_message_len _ _) as [outlen|]; [|discriminate]. destruct (sec_ok _ _); [|discriminate].
        unfold state_transport_write in G. destruct (negb _); [discriminate|]. destruct (_ <=? t_sn t); [discriminate|]. injection G as <- <-. eexists. split; [reflexivity|]. repeat split.
      - unfold session_read in G. rewrite Es in G. destruct (payload_len _ _) as [outlen|]; [|discriminate]. unfold state_transport_read in G. destruct (negb _); [discriminate|].
        destruct (_ <=? t_rn t); [discriminate|]. destruct (aead_decrypt _ _ _ _ _) as [pl|]; [|discriminate]. injection G as <- <-. eexists. split; [reflexivity|]. repeat split. }
    destruct Q as (t' & -> & Q1 & Q2 & Q3 & Q4). exists m1, m2, m3, (rest ++ wire [(o, RSuccess, r)]), k1, k2, k3. rewrite Q1, Q2, Q3, Q4.
    split; [reflexivity|]. split; [exact Th|]. split; [exact F1|]. split; [exact F2|]. split; [exact F3|exact Tk].
Qed.
Lemma wire_app a b : wire (a ++ b) = wire a ++ wire b.
Proof. unfold wire. apply flat_map_app. Qed.
Lemma inv_run ops : forall s s' trc ms, inv s ms -> grun X ops s = (s', trc) -> inv s' (ms ++ wire trc).
Proof.
  induction ops as [|o ops IH]; intros s s' trc ms I R; cbn [grun] in R.
  - injection R as <- <-. cbn. rewrite app_nil_r. exact I.
  - destruct (gstep X o s) as [[s1 c1] r1] eqn:G. destruct (grun X ops s1) as [s2 tr2] eqn:R2. injection R as <- <-.
    change ((o, c1, r1) :: tr2) with ([(o, c1, r1)] ++ tr2). rewrite wire_app, app_assoc. eapply IH; [|exact R2]. eapply inv_step; eassumption.
Qed.
Lemma inv_start d' s0 : creates X init d pid e = Some (d', s0) -> responder_key init d pid = Some rs -> inv s0 [].
Proof.
  unfold creates, responder_key, session_create_initiator, session_create_responder. destruct (d_states d =? 4294967295); [destruct init; discriminate|]. unfold inv, base, h0, keys.
  destruct init eqn:Ei.
  - destruct (lookup_peer_by_id d pid) as [peer|]; [|discriminate]. cbn [option_map]. intros E K. injection E as _ <-. injection K as <-. cbn [s_init s_st]. split; [reflexivity|]. right. left. split; [reflexivity|].
    cbn [h_step h_h h_ck h_k h_spriv h_spub h_epriv h_epub h_rs]. repeat split.
  - intros E K. injection E as _ <-. injection K as <-. cbn [s_init s_st]. split; [reflexivity|]. right. left. split; [reflexivity|].
    cbn [h_step h_h h_ck h_k h_spriv h_spub h_epriv h_epub h_rs]. repeat split; try discriminate.
Qed.
End ROLE.

Lemma creates_key init d pid e d' s0 : creates X init d pid e = Some (d', s0) -> exists rs, responder_key init d pid = Some rs.
Proof.
  unfold creates, responder_key, session_create_initiator. destruct init; [|eexists; reflexivity]. destruct (d_states d =? 4294967295); [discriminate|].
  destruct (lookup_peer_by_id d pid); [|discriminate]. eexists. reflexivity.
Qed.
Lemma finished_inv init d pid e s trc : finished X init d pid e s trc -> exists rs, responder_key init d pid = Some rs /\ inv init d e rs s (wire trc).
Proof.
  intros (Ls & d' & s0 & ops & C & F & R & _). destruct (creates_key _ _ _ _ _ _ C) as (rs & Er). exists rs. split; [exact Er|].
  apply (inv_run init d e rs Ls ops s0 s trc []); [|exact R]. eapply inv_start; eassumption.
Qed.

Lemma hash_of init d pid e s trc : finished X init d pid e s trc -> exists rs m1 m2 m3 more,
  responder_key init d pid = Some rs /\ wire trc = m1 :: m2 :: m3 :: more /\ session_get_hash s = chain X name64 (handshake (d_prologue d) rs m1 m2 m3).
Proof.
  intros Fi. destruct (finished_inv _ _ _ _ _ _ Fi) as (rs & Er & _ & I). destruct Fi as (_ & d' & s0 & ops & _ & _ & _ & T).
  unfold in_transport, session_get_status in T. unfold session_get_hash. destruct (s_st s) as [h|t]; [destruct (Bool.eqb (s_init s) (h_step h mod 2 =? 0)); discriminate|].
  destruct I as (m1 & m2 & m3 & rest & k1 & k2 & k3 & E & Th & _). exists rs, m1, m2, m3, rest. split; [exact Er|]. split; [exact E|]. rewrite Th, E. reflexivity.
Qed.

(** ** equal chains of the same length *)
Lemma app_inj64 (a b x y : bytes) : zlen a = 64 -> zlen b = 64 -> a ++ x = b ++ y -> a = b /\ x = y.
Proof. intros A B E. destruct (cut_app 64 a x A) as (A1 & A2), (cut_app 64 b y B) as (B1 & B2). rewrite E in A1, A2. split; congruence. Qed.
Lemma chain_inj : forall l l' h h', length l = length l' -> zlen h = 64 -> zlen h' = 64 -> chain X h l = chain X h' l' ->
  (h = h' /\ l = l') \/ exists a b, In a (hashed X h l) /\ In b (hashed X h' l') /\ a <> b /\ x_hash X a = x_hash X b.
Proof.
  induction l as [|x l IH]; intros [|y l'] h h' Ll Lh Lh' E; try discriminate.
  - left. split; [exact E|reflexivity].
  - cbn [chain] in E. cbn [length] in Ll. destruct (IH l' (x_hash X (h ++ x)) (x_hash X (h' ++ y)) ltac:(lia) (ok_hash_len X OK _) (ok_hash_len X OK _) E) as [(E1 & ->)|(a & b & A & B & N & Hh)].
    + destruct (list_eq_dec Byte.byte_eq_dec (h ++ x) (h' ++ y)) as [Q|Q].
      * left. apply app_inj64 in Q; [|assumption|assumption]. destruct Q as (-> & ->). split; reflexivity.
      * right. exists (h ++ x), (h' ++ y). split; [left; reflexivity|]. split; [left; reflexivity|]. split; assumption.
    + right. exists a, b. split; [right; exact A|]. split; [right; exact B|]. split; assumption.
Qed.
Lemma cut_inj n m m' : cut n m = cut n m' -> m = m'.
Proof. unfold cut. intros E. injection E as E1 E2. rewrite <- (firstn_skipn n m), <- (firstn_skipn n m'). congruence. Qed.
Lemma handshake_inj p rs m1 m2 m3 p' rs' m1' m2' m3' : handshake p rs m1 m2 m3 = handshake p' rs' m1' m2' m3' -> p = p' /\ rs = rs' /\ m1 = m1' /\ m2 = m2' /\ m3 = m3'.
Proof.
  unfold handshake, cut. cbn [app]. intros E. injection E as E1 E2 E3 E4 E5 E6 E7 E8.
  split; [exact E1|]. split; [exact E2|]. split; [apply (cut_inj 32); unfold cut; rewrite E3, E4; reflexivity|]. split; [apply (cut_inj 32); unfold cut; rewrite E5, E6; reflexivity|]. apply (cut_inj 48); unfold cut; rewrite E7, E8; reflexivity.
Qed.

Theorem binding init d pid e s trc init' d' pid' e' s' trc' rs m1 m2 m3 more rs' m1' m2' m3' more' :
  finished X init d pid e s trc -> finished X init' d' pid' e' s' trc' ->
  responder_key init d pid = Some rs -> wire trc = m1 :: m2 :: m3 :: more -> responder_key init' d' pid' = Some rs' -> wire trc' = m1' :: m2' :: m3' :: more' ->
  session_get_hash s = session_get_hash s' ->
  (d_prologue d = d_prologue d' /\ rs = rs' /\ m1 = m1' /\ m2 = m2' /\ m3 = m3') \/
  collision X (handshake (d_prologue d) rs m1 m2 m3) (handshake (d_prologue d') rs' m1' m2' m3').
Proof.
  intros F F' Er Ew Er' Ew' E. destruct (hash_of _ _ _ _ _ _ F) as (r & a & b & c & l & Q1 & Q2 & Q3). destruct (hash_of _ _ _ _ _ _ F') as (r' & a' & b' & c' & l' & Q1' & Q2' & Q3').
  rewrite Ew in Q2. rewrite Ew' in Q2'. rewrite Er in Q1. rewrite Er' in Q1'. injection Q1 as <-. injection Q2 as <- <- <- <-. injection Q1' as <-. injection Q2' as <- <- <- <-.
  rewrite Q3, Q3' in E. apply chain_inj in E; [|reflexivity|reflexivity|reflexivity]. destruct E as [(_ & E)|E]; [left; apply handshake_inj; exact E|right; exact E].
Qed.

(** ** counters *)
Definition cnt (init : bool) (s : xsess) (a b : Z) : Prop :=
  s_init s = init /\
  match s_st s with
  | Handshake h => h_step h = 4 \/ (h_step h = 0 /\ a = 0 /\ b = 0) \/ (h_step h = 1 /\ a = (if init then 1 else 0) /\ b = (if init then 0 else 1)) \/ (h_step h = 2 /\ a = 1 /\ b = 1)
  | Transport t => 0 <= t_sn t <= 18446744073709551615 /\ 0 <= t_rn t <= 18446744073709551615 /\ t_sn t = a - (if init then 2 else 1) /\ t_rn t = b - (if init then 1 else 2)
  end.
Lemma split_zero init h : exists t, split X init h = Transport t /\ t_sn t = 0 /\ t_rn t = 0.
Proof. unfold split. destruct (kdf X (h_ck h) []). destruct init; eexists; repeat split. Qed.
Lemma cnt_step init o s s' c r a b : cnt init s a b -> gstep X o s = (s', c, r) -> cnt init s' (a + zlen (sent [(o, c, r)])) (b + zlen (received [(o, c, r)])).
Proof.
  intros (I0 & I) G. pose proof (step_outcome _ _ _ _ _ _ G) as (I1 & _ & Co). split; [congruence|].
  destruct c as [|err|err].
  2:{ destruct Co as (-> & ->). assert (E1 : sent [(o, RError err, GNothing)] = []) by (destruct o; reflexivity). assert (E2 : received [(o, RError err, GNothing)] = []) by (destruct o; reflexivity). rewrite E1, E2. change (zlen (@nil (bytes * bytes))) with 0. rewrite !Z.add_0_r. exact I. }
  2:{ destruct Co as (Dd & -> & _ & (h & Es)). destruct (s_st s') as [h'|t'] eqn:Es'; [|contradiction]. left. cbn in Dd.
      assert (St : steps_ok (s_st s)) by (rewrite Es in I; rewrite Es; cbn; lia).
      pose proof (steps_step _ _ _ _ _ _ St G) as P. rewrite Es' in P. cbn in P. lia. }
  clear Co. destruct (s_st s) as [h|t] eqn:Es.
  - destruct I as [I|I].
    { exfalso. destruct o as [m|dn i]; unfold gstep, session_write, session_read in G; rewrite Es in G; rewrite I in G; cbn in G; discriminate. }
    destruct o as [m|dn i]; unfold gstep in G.
    + unfold session_write in G. rewrite Es in G. destruct (4 <=? h_step h); [discriminate|]. destruct (compute_next_message_len _ _) as [outlen|]; [|discriminate].
      destruct (sec_ok _ _); [|discriminate]. unfold state_handshake_write in G. rewrite I0 in G. destruct (write_msg X init h (em_msg m) outlen) as [h' [er|w]] eqn:Wm; [discriminate|].
      injection G as <- <-. cbn [s_st with_st]. change (zlen (sent [(GWrite m, RSuccess, GMessage w)])) with 1. change (zlen (received [(GWrite m, RSuccess, GMessage w)])) with 0.
      apply write_msg_success in Wm. destruct Wm as (W1 & W2 & W3 & _). apply Bool.eqb_prop in W2.
      destruct I as [(Q & -> & ->)|[(Q & -> & ->)|(Q & -> & ->)]]; rewrite Q in W2, W3 |- *.
      * change (0 =? 2) with false. cbn iota. rewrite W2. change (0 mod 2 =? 0) with true. cbn iota. lia.
      * change (1 =? 2) with false. cbn iota. rewrite W2. change (1 mod 2 =? 0) with false. cbn iota. lia.
      * change (2 =? 2) with true. cbn iota. destruct (split_zero init h') as (t & -> & T1 & T2). rewrite W2. change (2 mod 2 =? 0) with true. cbn iota. lia.
    + unfold session_read in G. rewrite Es in G. destruct (4 <=? h_step h); [discriminate|]. destruct (Bool.eqb _ _ && _); [|discriminate]. destruct (payload_len _ _) as [outlen|]; [|discriminate].
      unfold state_handshake_read in G. rewrite I0 in G. destruct (read_msg X init dn h outlen i) as [h' [er|[pl q]]] eqn:Rm; [discriminate|].
      assert (Er : exists e, r = GPayload e) by (destruct q; injection G as <- <-; eexists; reflexivity). destruct Er as (en & ->).
      change (zlen (sent [(GRead dn i, RSuccess, GPayload en)])) with 0. change (zlen (received [(GRead dn i, RSuccess, GPayload en)])) with 1.
      assert (Est : s_st s' = (if h_step h =? 2 then split X init h' else Handshake h')) by (destruct q; injection G as <- _; reflexivity). rewrite Est. clear G.
      apply read_msg_success in Rm. destruct Rm as (W1 & W2 & W3 & _). apply Bool.eqb_prop in W2.
      destruct I as [(Q & -> & ->)|[(Q & -> & ->)|(Q & -> & ->)]]; rewrite Q in W2, W3 |- *.
      * change (0 =? 2) with false. cbn iota. rewrite W2. change (0 mod 2 =? 1) with false. cbn iota. lia.
      * change (1 =? 2) with false. cbn iota. rewrite W2. change (1 mod 2 =? 1) with true. cbn iota. lia.
      * change (2 =? 2) with true. cbn iota. destruct (split_zero init h') as (t & -> & T1 & T2). rewrite W2. change (2 mod 2 =? 1) with false. cbn iota. lia.
  - destruct o as [m|dn i]; unfold gstep in G.
    + unfold session_write in G. rewrite Es in G. destruct (compute_next_message_len _ _) as [outlen|]; [|discriminate]. destruct (sec_ok _ _); [|discriminate].
      unfold state_transport_write in G. destruct (negb _); [discriminate|]. destruct (Z.leb_spec 18446744073709551615 (t_sn t)); [discriminate|]. injection G as <- <-.
      cbn [s_st with_st t_sn t_rn]. unfold u64. rewrite Z.mod_small by lia.
      match goal with |- context[sent ?l] => change (zlen (sent l)) with 1; change (zlen (received l)) with 0 end. destruct init; lia.
    + unfold session_read in G. rewrite Es in G. destruct (payload_len _ _) as [outlen|]; [|discriminate]. unfold state_transport_read in G. destruct (negb _); [discriminate|].
      destruct (Z.leb_spec 18446744073709551615 (t_rn t)); [discriminate|]. destruct (aead_decrypt _ _ _ _ _) as [pl|]; [|discriminate]. injection G as <- <-.
      cbn [s_st with_st t_sn t_rn]. unfold u64. rewrite Z.mod_small by lia.
      match goal with |- context[sent ?l] => change (zlen (sent l)) with 0; change (zlen (received l)) with 1 end. destruct init; lia.
Qed.
Lemma cnt_run init ops : forall s s' trc a b, cnt init s a b -> grun X ops s = (s', trc) -> cnt init s' (a + zlen (sent trc)) (b + zlen (received trc)).
Proof.
  induction ops as [|o ops IH]; intros s s' trc a b I R; cbn [grun] in R.
  - injection R as <- <-. cbn. change (zlen (@nil (bytes * bytes))) with 0. rewrite !Z.add_0_r. exact I.
  - destruct (gstep X o s) as [[s1 c1] r1] eqn:G. destruct (grun X ops s1) as [s2 tr2] eqn:R2. injection R as <- <-.
    change ((o, c1, r1) :: tr2) with ([(o, c1, r1)] ++ tr2). unfold sent, received. rewrite !flat_map_app, !zlen_app, !Z.add_assoc. eapply IH; [|exact R2]. eapply cnt_step; eassumption.
Qed.
Lemma finished_cnt init d pid e s trc : finished X init d pid e s trc -> exists t, s_st s = Transport t /\ 0 <= t_sn t <= 18446744073709551615 /\ 0 <= t_rn t <= 18446744073709551615 /\
  t_sn t = zlen (sent trc) - (if init then 2 else 1) /\ t_rn t = zlen (received trc) - (if init then 1 else 2).
Proof.
  intros (Ls & d' & s0 & ops & C & F & R & T). unfold in_transport, session_get_status in T.
  destruct (creates_at X _ _ _ _ _ _ C) as (A & I & _ & C'). destruct (created_hs X _ _ _ _ _ C') as (h & E & Z0 & _).
  assert (K : cnt init s0 0 0) by (split; [exact I|rewrite E; lia]).
  apply (cnt_run _ _ _ _ _ _ _ K) in R. destruct R as (_ & R). rewrite !Z.add_0_l in R.
  destruct (s_st s) as [h'|t]; [destruct (Bool.eqb (s_init s) (h_step h' mod 2 =? 0)); discriminate|]. exists t. split; [reflexivity|exact R].
Qed.

(** what one end writes, the other reads *)
Lemma passes s t s' t' m c s1 : s_st s = Transport t -> s_st s' = Transport t' -> t_skey t = t_rkey t' -> t_sn t = t_rn t' ->
  session_write X m s = (s1, RSuccess, Some c) -> forall d, exists s2, session_read X d s' c = (s2, RSuccess, Some (mkEncap (Auth_level 2) (em_msg m))).
Proof.
  intros Es Es' Ek En W d. unfold session_write in W. rewrite Es in W. cbn [compute_next_message_len] in W. destruct (Z.leb_spec (zlen (em_msg m)) 4294967279) as [Lm|]; [|discriminate].
  destruct (sec_ok _ _); [|discriminate]. unfold state_transport_write in W. destruct (negb _); [discriminate|]. destruct (Z.leb_spec 18446744073709551615 (t_sn t)) as [|Hn]; [discriminate|].
  injection W as _ <-. unfold session_read. rewrite Es'. assert (Lc : zlen (aead_encrypt X (t_skey t) (t_sn t) [] (em_msg m)) = zlen (em_msg m) + 16) by (unfold aead_encrypt; apply (ok_seal_len X OK)).
  cbn [payload_len]. rewrite Lc. pose proof (zlen_nonneg (em_msg m)). replace (16 <=? zlen (em_msg m) + 16) with true by (symmetry; apply Z.leb_le; lia).
  unfold state_transport_read. rewrite Lc. replace (zlen (em_msg m) + 16 - 16) with (zlen (em_msg m)) by lia.
  replace (zlen (em_msg m) <=? 4294967279) with true by (symmetry; apply Z.leb_le; lia). rewrite u32_small by lia. rewrite Z.eqb_refl. cbn [andb negb].
  replace (18446744073709551615 <=? t_rn t') with false by (symmetry; apply Z.leb_gt; lia). rewrite <- Ek, <- En. unfold aead_decrypt, aead_encrypt. rewrite (ok_open_seal X OK). eexists. reflexivity.
Qed.

Theorem two_ends di pid ei si tri dr er sr trr rs m1 m2 m3 more m1' m2' m3' more' :
  finished X true di pid ei si tri -> finished X false dr 0 er sr trr ->
  d_spub di = x_base X (d_spriv di) -> d_spub dr = x_base X (d_spriv dr) ->
  responder_key true di pid = Some rs -> wire tri = m1 :: m2 :: m3 :: more -> wire trr = m1' :: m2' :: m3' :: more' ->
  session_get_hash si = session_get_hash sr ->
  ((d_spub dr = rs /\ exists d q, lookup_peer_by_static d (d_spub di) = Some q /\ session_get_peer_id sr = p_id q) /\
   (zlen (sent tri) = zlen (received trr) -> forall m c s1, session_write X m si = (s1, RSuccess, Some c) ->
      forall d, exists s2, session_read X d sr c = (s2, RSuccess, Some (mkEncap (Auth_level 2) (em_msg m)))) /\
   (zlen (sent trr) = zlen (received tri) -> forall m c s1, session_write X m sr = (s1, RSuccess, Some c) ->
      forall d, exists s2, session_read X d si c = (s2, RSuccess, Some (mkEncap (Auth_level 2) (em_msg m))))) \/
  collision X (handshake (d_prologue di) rs m1 m2 m3) (handshake (d_prologue dr) (d_spub dr) m1' m2' m3').
Proof.
  intros F F' Ki Kr Er Ew Ew' E. destruct (binding _ _ _ _ _ _ _ _ _ _ _ _ _ _ _ _ _ _ _ _ _ _ F F' Er Ew eq_refl Ew' E) as [(Ep & -> & <- & <- & <-)|Cl]; [left|right; exact Cl].
  destruct (finished_inv _ _ _ _ _ _ F) as (rs1 & Er1 & _ & I). destruct (finished_inv _ _ _ _ _ _ F') as (rs2 & Er2 & _ & I'). rewrite Er in Er1. injection Er1 as <-. injection Er2 as <-.
  destruct (finished_cnt _ _ _ _ _ _ F) as (t & Es & N1 & N2 & N3 & N4). destruct (finished_cnt _ _ _ _ _ _ F') as (t' & Es' & N1' & N2' & N3' & N4').
  rewrite Es in I. rewrite Es' in I'. rewrite Ew in I. rewrite Ew' in I'.
  destruct I as (a1 & a2 & a3 & al & k1 & k2 & k3 & Q & _ & F1 & F2 & F3 & Tk). injection Q as <- <- <- <-. destruct I' as (a1 & a2 & a3 & al & j1 & j2 & j3 & Q & _ & G1 & G2 & G3 & Tk'). injection Q as <- <- <- <-.
  unfold f1, f2, f3 in *. cbv zeta in F3, G3. destruct F1 as (A1 & A2), G2 as (B1 & B2).
  rewrite A1 in G1, B2. rewrite B1 in F2.
  assert (J1 : k1 = j1) by (destruct (ok_dh X OK ei (d_spriv dr)) as (k & U & V); rewrite Kr in A2; congruence). subst j1.
  assert (J2 : k2 = j2) by (destruct (ok_dh X OK ei er) as (k & U & V); congruence). subst j2.
  destruct F3 as (A3 & A4), G3 as (sp & dn & q & B3 & B4 & B5 & B6). unfold h0 in A3, B3. rewrite A3, Ep in B3. unfold aead_decrypt, aead_encrypt in B3. rewrite (ok_open_seal X OK) in B3. injection B3 as <-.
  rewrite B1 in A4. assert (J3 : k3 = j3) by (destruct (ok_dh X OK (d_spriv di) er) as (k & U & V); rewrite Ki in B4; congruence). subst j3.
  destruct (kdf X (fst (keys [k1; k2; k3])) []) as (a & b). destruct Tk as (T1 & T2), Tk' as (T1' & T2').
  split; [split; [reflexivity|]; exists dn, q; split; [exact B5|exact B6]|]. split.
  - intros Z m c s1 W. eapply passes; [exact Es|exact Es'| | |exact W]; [congruence|lia].
  - intros Z m c s1 W. eapply passes; [exact Es'|exact Es| | |exact W]; [congruence|lia].
Qed.
End S.
