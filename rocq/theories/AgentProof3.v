(** Requests to sign, the walk over the bindings, the locked agent, sweeps, and the
    end of the parsing loops. *)
From Coq Require Import String.
From Verif Require Import Base Text SshbufModel SshbufSpec SshbufProof WireSpec WireProof MatchModel MatchSpec MatchProof MiscNumModel Dec AuthOptModel AuthOptProof AgentModel AgentSpec AgentProof AgentProof2.

(** ** The walk *)
Section Walk.
Variable en : env.
Lemma hop_listed : forall k h, match_key_hop en k h = true <-> listed en h k.
Proof.
  intros k h. unfold match_key_hop, listed, sshkey_equal, same_key, hop_name. rewrite existsb_exists. split.
  - intros ([hk isca] & Hin & H). exists hk, isca. split; [assumption|]. destruct (k_ca k) as [ca|].
    + apply andb_prop in H as [H H3]. apply andb_prop in H as [H1 H2]. apply beqb_eq in H2. auto.
    + apply andb_prop in H as [H1 H2]. apply beqb_eq in H2. split; [now destruct isca|assumption].
  - intros (hk & isca & Hin & H). exists (hk, isca). split; [assumption|]. destruct (k_ca k) as [ca|].
    + destruct H as (-> & H2 & H3). rewrite H2, beqb_refl, H3. reflexivity.
    + destruct H as (-> & H2). rewrite H2, beqb_refl. reflexivity.
Qed.
Lemma permits_iff : forall from to i user, permitted_by_dest_constraints en from (Some to) i user = true <-> allowed_hop en (i_dcs i) from to user.
Proof.
  intros from to i user. unfold permitted_by_dest_constraints, allowed_hop. rewrite existsb_exists.
  assert (Fr : forall d, (match from with None => negb (is_some (h_host (d_from d))) && is_nil (h_keys (d_from d)) | Some k => match_key_hop en k (d_from d) end) = true <->
                         match from with None => h_host (d_from d) = None /\ h_keys (d_from d) = [] | Some k => listed en (d_from d) k end).
  { intros d. destruct from as [k|]; [apply hop_listed|]. destruct (h_host (d_from d)), (h_keys (d_from d)); cbn; split; intuition congruence. }
  assert (Us : forall d, (match h_user (d_to d), user with Some p, Some u => match_pattern u p | _, _ => true end) = true <-> (forall u p, user = Some u -> h_user (d_to d) = Some p -> glob p u)).
  { intros d. destruct (h_user (d_to d)) as [p|], user as [u|]; try (split; [intros _ x y; discriminate|reflexivity]); try (split; [intros _ x y _; discriminate|reflexivity]).
    rewrite match_pattern_glob. split; [intros H x y Ex Ey; injection Ex as <-; injection Ey as <-; assumption|]. intros H. now apply H. }
  split.
  - intros (d & Hd & H). unfold dc_permits in H. apply andb_prop in H as [H H3]. apply andb_prop in H as [H1 H2].
    exists d. split; [assumption|]. split; [now apply Fr|]. split; [now apply hop_listed|]. now apply Us.
  - intros (d & Hd & H1 & H2 & H3). exists d. split; [assumption|]. unfold dc_permits.
    apply Fr in H1. apply hop_listed in H2. apply Us in H3. rewrite H1, H2, H3. reflexivity.
Qed.
Lemma walk_iff : forall i u l from, l <> [] -> (walk en i (Some u) from l = true <-> allowed_path en (i_dcs i) u from l).
Proof.
  intros i u. induction l as [|b r IH]; intros from N; [congruence|]. cbn [walk is_some]. destruct r as [|b' r'].
  - rewrite Bool.andb_true_r. split.
    + intros H. apply andb_prop in H as [H1 H2]. apply path_last; [now destruct (b_fwd b)|]. now apply permits_iff.
    + intros H. inversion H as [from' x Hf Hh|from' x y Hf Hh Hp]; subst; [|inversion Hp]. rewrite Hf. apply permits_iff in Hh. rewrite Hh. reflexivity.
  - specialize (IH (Some (b_key b)) ltac:(discriminate)). split.
    + intros H. apply andb_prop in H as [H H3]. apply andb_prop in H as [H1 H2]. apply path_step; [assumption|now apply permits_iff|now apply IH].
    + intros H. inversion H as [from' x Hf Hh|from' x y Hf Hh Hp]; subst. apply permits_iff in Hh. apply IH in Hp. rewrite Hf, Hh, Hp. reflexivity.
Qed.
End Walk.
Lemma last_bind_spec : forall l b, last_bind l = Some b <-> exists p, l = p ++ [b].
Proof.
  induction l as [|x r IH]; intros b; [split; [discriminate|intros ([|? ?] & H); discriminate]|]. destruct r as [|y r'].
  - split; [intros H; injection H as <-; exists []; reflexivity|]. intros ([|z p] & H); [injection H as <-; reflexivity|]. injection H as _ H. now destruct p.
  - change (last_bind (x :: y :: r')) with (last_bind (y :: r')). rewrite IH. split; intros (p & H); [exists (x :: p); now rewrite H|].
    destruct p as [|z p]; [discriminate|]. injection H as _ H. now exists p.
Qed.

(** ** Authentication requests *)
Lemma userauth_spec : forall c data k user sid hk, is_bytes data -> parse_userauth_request c data k = Some (user, sid, hk) -> userauth_request c data sid user k hk.
Proof.
  intros c data k user sid hk B H. unfold parse_userauth_request in H.
  destruct (get_str data) as [[sid0 b]|] eqn:E0; [|discriminate]. destruct (get_str_spec _ _ _ B E0) as (-> & _ & _ & B0).
  destruct (zlen sid0 =? 0) eqn:Z0; [discriminate|].
  destruct (get_int 1 b) as [[t b1]|] eqn:E1; [|discriminate]. destruct (get_u8_spec _ _ _ B0 E1) as (-> & _ & B1).
  destruct (get_cstr b1) as [[us b2]|] eqn:E2; [|discriminate]. destruct (get_cstr_text _ _ _ B1 E2) as (ruser & -> & T2 & B2).
  destruct (get_cstr b2) as [[sv b3]|] eqn:E3; [|discriminate]. destruct (get_cstr_text _ _ _ B2 E3) as (rservice & -> & T3 & B3).
  destruct (get_cstr b3) as [[me b4]|] eqn:E4; [|discriminate]. destruct (get_cstr_text _ _ _ B3 E4) as (rmethod & -> & T4 & B4).
  destruct (get_int 1 b4) as [[sf b5]|] eqn:E5; [|discriminate]. destruct (get_u8_spec _ _ _ B4 E5) as (-> & _ & B5).
  destruct (get_cstr b5) as [[alg b6]|] eqn:E6; [|discriminate]. destruct (get_cstr_text _ _ _ B5 E6) as (ralg & -> & T6 & B6).
  destruct (get_key c b6) as [[mk b7]|] eqn:E7; [|discriminate]. destruct (get_key_wire _ _ _ _ B6 E7) as (kb & -> & W & B7).
  destruct (_ || _) eqn:C; [discriminate|]. apply Bool.orb_false_elim in C as [C C5]. apply Bool.orb_false_elim in C as [C C4].
  apply Bool.orb_false_elim in C as [C C3]. apply Bool.orb_false_elim in C as [C1 C2].
  apply Bool.negb_false_iff in C3, C4. apply beqb_eq in C3, C4. unfold SSH2_MSG_USERAUTH_REQUEST in C1.
  assert (t = 50) by lia. assert (sf = 1) by lia. subst t sf. cbv zeta in H.
  assert (N : sid0 <> []) by (intros ->; discriminate Z0).
  assert (Y : c_type c alg = k_type k) by lia. clear C1 C2 C5 Z0.
  destruct (beqb me (bs "publickey-hostbound-v00@openssh.com")) eqn:M1.
  - apply beqb_eq in M1. destruct (get_key c b7) as [[h b8]|] eqn:E8; [|discriminate]. destruct (get_key_wire _ _ _ _ B7 E8) as (hb & -> & W2 & B8).
    destruct (zlen b8 =? 0) eqn:Z8; [|discriminate]. assert (user = us) as -> by congruence. assert (sid = sid0) as -> by congruence. assert (hk = Some h) as -> by congruence.
    assert (b8 = []) as -> by (apply zlen_zero_nil; lia). rewrite app_nil_r.
    exists ruser, rservice, rmethod, ralg, alg, kb, hb, mk. rewrite C3 in T3. rewrite M1 in T4.
    split; [reflexivity|]. unfold same_key. auto 12.
  - destruct (beqb me (bs "publickey")) eqn:M2; [|discriminate]. apply beqb_eq in M2.
    destruct (zlen b7 =? 0) eqn:Z8; [|discriminate]. assert (user = us) as -> by congruence. assert (sid = sid0) as -> by congruence. assert (hk = None) as -> by congruence.
    assert (b7 = []) as -> by (apply zlen_zero_nil; lia). rewrite C3 in T3. rewrite M2 in T4.
    exists ruser, rservice, rmethod, ralg, alg, kb, [], mk. split; [reflexivity|]. unfold same_key. auto 12.
Qed.
Lemma sshsig_spec : forall data, is_bytes data -> parse_sshsig_request data = true -> sshsig_message data.
Proof.
  intros data B H. unfold parse_sshsig_request in H. destruct (beqb (ztake 6 data) (bs "SSHSIG")) eqn:E; [|discriminate]. apply beqb_eq in E. cbn [negb] in H.
  assert (B0 : is_bytes (zdrop 6 data)) by now apply is_bytes_zdrop.
  destruct (get_cstr (zdrop 6 data)) as [[v1 b1]|] eqn:E1; [|discriminate]. destruct (get_cstr_text _ _ _ B0 E1) as (r1 & X1 & T1 & B1).
  destruct (get_str b1) as [[v2 b2]|] eqn:E2; [|discriminate]. destruct (get_str_spec _ _ _ B1 E2) as (-> & _ & _ & B2).
  destruct (get_cstr b2) as [[v3 b3]|] eqn:E3; [|discriminate]. destruct (get_cstr_text _ _ _ B2 E3) as (r3 & -> & T3 & B3).
  destruct (get_str b3) as [[v4 b4]|] eqn:E4; [|discriminate]. destruct (get_str_spec _ _ _ B3 E4) as (-> & _ & _ & B4).
  assert (b4 = []) as -> by (apply zlen_zero_nil; lia). exists r1, v1, v2, r3, v3, v4. split; [|auto].
  rewrite <- (ztake_zdrop _ 6 data) at 1. rewrite X1, E, app_nil_r. reflexivity.
Qed.

(** ** Signing: what must hold of every use of a private key *)
Definition sign_ok (c : cfg) (en : env) (e : sock) (ids : list ident) (i : ident) (data : list Z) : Prop :=
  In i ids /\ is_bytes data /\ exists k, same_key k (i_key i) /\ dest_ok c en e i k data = true /\ websafe_ok c i k data = true /\ (i_confirm i = true -> e_ask en = true).
Lemma do_sign_obs : forall en i k data flags o, In o (snd (do_sign en i k data flags)) -> o = OSign i data.
Proof.
  intros en i k data flags o H. unfold do_sign in H. destruct (e_sign en false _ _ _ _); cbn in H; [intuition congruence| |intuition congruence].
  destruct (is_some _); [|cbn in H; intuition congruence]. destruct (e_sign en true _ _ _ _); cbn in H; intuition congruence.
Qed.
Lemma sign_obs : forall c en g e b i data, is_bytes b -> In (OSign i data) (snd (sign_request c en g e b)) ->
  sign_ok c en e (g_ids g) i data /\ (i_confirm i = true -> exists os1 os2, snd (sign_request c en g e b) = os1 ++ OAsk i true :: os2 /\ ~ In (OSign i data) os1 /\ In (OSign i data) os2).
Proof.
  intros c en g e b i data B H. unfold sign_request in *. destruct (get_key c b) as [[k b1]|] eqn:E1; [|destruct H].
  destruct (get_key_wire _ _ _ _ B E1) as (kb & -> & _ & B1).
  destruct (get_str b1) as [[dt b2]|] eqn:E2; [|destruct H]. destruct (get_str_rest _ _ _ E2 B1) as [Bd _].
  destruct (get_int 4 b2) as [[fl b3]|] eqn:E3; [|destruct H].
  destruct (lookup_identity k (g_ids g)) as [j|] eqn:E4; [|destruct H].
  destruct (dest_ok c en e j k dt) eqn:E5; [|destruct H]. cbn [negb] in *.
  destruct (i_confirm j && negb (e_ask en)) eqn:E6; [destruct H as [H|[]]; discriminate|]. cbv zeta in *.
  destruct (websafe_ok c j k dt) eqn:E7; cbn [negb] in *; [|destruct (i_confirm j); [destruct H as [H|[]]; discriminate|destruct H]].
  pose proof (do_sign_obs en j k dt fl) as DO.
  destruct (do_sign en j k dt fl) as [r os]. cbn [snd] in *. apply in_app_or in H.
  assert (OSign i data = OSign j dt) as Q.
  { destruct H as [H|H]; [destruct (i_confirm j); [destruct H as [H|[]]; discriminate|destruct H]|now apply DO]. }
  injection Q as -> ->. destruct (lookup_some _ _ _ E4) as [I0 SK]. split.
  - split; [assumption|]. split; [assumption|]. exists k. split; [assumption|]. split; [assumption|]. split; [assumption|]. intros Hc. rewrite Hc in E6. now destruct (e_ask en).
  - intros Hc. rewrite Hc in *. exists [], os. split; [reflexivity|]. split; [easy|]. destruct H as [[H|[]]|H]; [discriminate|assumption].
Qed.
Lemma dispatch_obs : forall c en g e t b g' e' r os o, dispatch c en g e t b = Some (g', e', r, os) -> In o os ->
  (t = SSH2_AGENTC_SIGN_REQUEST /\ os = snd (sign_request c en g e b) /\ g_locked g = false) \/
  ((t = SSH_AGENTC_ADD_SMARTCARD_KEY \/ t = SSH_AGENTC_ADD_SMARTCARD_KEY_CONSTRAINED) /\ g_locked g = false /\
   exists p prov, os = [OLoad p] /\ e_realpath en prov = Some p /\ provider_allowed c p = true /\ (socket_is_remote e = true -> c_remote_ok c = true)).
Proof.
  intros c en g e t b g' e' r os o D Ho. dcase D; try (injection D as <- <- <- <-; destruct Ho).
  - apply lock_inv in D as (_ & -> & _). destruct Ho.
  - apply lock_inv in D as (_ & -> & _). destruct Ho.
  - apply e_sign2 in D as (_ & _ & ->). left. split; [lia|]. split; [reflexivity|]. destruct (g_locked g); [|reflexivity]. unfold SSH_AGENTC_UNLOCK, SSH2_AGENTC_SIGN_REQUEST in *. cbn [andb] in T. lia.
  - apply e_request in D as (_ & _ & ->). destruct Ho.
  - apply e_add in D as (_ & _ & -> & _). destruct Ho.
  - apply e_remove in D as (_ & _ & ->). destruct Ho.
  - apply e_card in D as (_ & _ & [(_ & -> & _)|(ok & A & _)]); [destruct Ho|]. right. split; [lia|].
    split; [destruct (g_locked g); [|reflexivity]; unfold SSH_AGENTC_UNLOCK, SSH_AGENTC_ADD_SMARTCARD_KEY, SSH_AGENTC_ADD_SMARTCARD_KEY_CONSTRAINED in *; cbn [andb] in T; lia|].
    destruct (card_inv _ _ _ _ _ _ _ _ A) as (prov & pin & b1 & b2 & q & p & _ & _ & _ & R & RP & PA & _ & ->). exists p, prov. auto.
  - apply e_uncard in D as (_ & _ & -> & _). destruct Ho.
  - apply e_ext in D as (_ & -> & _). destruct Ho.
Qed.

(** ** The locked agent *)
Lemma dispatch_locked : forall c en g e t b g' e' r os, g_locked g = true -> dispatch c en g e t b = Some (g', e', r, os) ->
  g_ids g' = g_ids g /\ os = [] /\
  ((t <> 23 /\ g' = g /\ r = (if t =? 11 then no_identities else status false)) \/
   (t = 23 /\ exists pw more, dec_cstring b = ROk (pw, more) /\
     ((c_kdf c pw (g_salt g) <> g_hash g \/ pw = []) /\ r = status false /\ lock_same g g' \/ c_kdf c pw (g_salt g) = g_hash g /\ pw <> [] /\ r = status true /\ g_locked g' = false))).
Proof.
  intros c en g e t b g' e' r os L D. unfold dispatch in D. rewrite L in D. cbn [andb] in D. destruct (t =? SSH_AGENTC_UNLOCK) eqn:T; cbn [negb] in D.
  - assert (t = 23) by (unfold SSH_AGENTC_UNLOCK in T; lia). subst t. change (23 =? SSH_AGENTC_LOCK) with false in D. cbv iota in D.
    destruct (lock_inv _ _ _ _ _ _ _ _ _ _ D) as (_ & O & I0). split; [assumption|]. split; [assumption|]. right. split; [reflexivity|].
    unfold process_lock_agent in D. destruct (dec_cstring b) as [[pw more]|]; [|discriminate]. exists pw, more. split; [reflexivity|].
    destruct (zlen pw =? 0) eqn:Zp.
    + left. injection D as <- <- <- <-. unfold lock_same. split; [right; apply zlen_zero_nil; lia|auto].
    + rewrite L in D. cbn [andb negb] in D. destruct (beqb (c_kdf c pw (g_salt g)) (g_hash g)) eqn:E.
      * right. apply beqb_eq in E. injection D as <- <- <- <-. split; [assumption|]. split; [intros ->; discriminate Zp|]. split; reflexivity.
      * left. apply beqb_neq in E. injection D as <- <- <- <-. unfold lock_same. cbn [g_locked g_hash g_salt]. rewrite L. auto.
  - injection D as <- <- <- <-. split; [reflexivity|]. split; [reflexivity|]. left. unfold SSH_AGENTC_UNLOCK in T. split; [lia|]. split; reflexivity.
Qed.

(** ** Sweeps *)
Lemma reaper_ids : forall now g, g_ids (fst (reaper now g)) = filter (fun i => negb (expired now i)) (g_ids g).
Proof. intros now g. unfold reaper. pose proof (reap_loop_ids now (g_ids g) 0). destruct (reap_loop now (g_ids g) 0). exact H. Qed.
(** The deadline: the least expiry among the remaining keys that have one *)
Lemma reap_loop_deadline : forall now l d, (d = 0 \/ now < d) -> 0 <= now ->
  let d' := snd (reap_loop now l d) in
  (forall i, In i l -> i_death i <> 0 -> now < i_death i -> d' <> 0 /\ d' <= i_death i) /\
  (d <> 0 -> d' <> 0 /\ d' <= d) /\ (d' = d \/ exists i, In i l /\ i_death i <> 0 /\ now < i_death i /\ d' = i_death i).
Proof.
  intros now. induction l as [|i r IH]; intros d Hd Hn; cbv zeta; [cbn; split; [easy|]; split; [lia|now left]|]. cbn [reap_loop]. destruct (i_death i =? 0) eqn:E.
  - specialize (IH d Hd Hn). cbv zeta in IH. destruct (reap_loop now r d) as [l' d']. cbn [snd] in *. destruct IH as (I1 & I2 & I3).
    split; [intros j [<-|Hj] N; [lia|now apply I1]|]. split; [assumption|]. destruct I3 as [I3|(j & Hj & K)]; [now left|right; exists j; split; [now right|assumption]].
  - destruct (i_death i <=? now) eqn:E2.
    + specialize (IH d Hd Hn). cbv zeta in IH. destruct IH as (I1 & I2 & I3).
      split; [intros j [<-|Hj] N K; [lia|now apply I1]|]. split; [assumption|]. destruct I3 as [I3|(j & Hj & K)]; [now left|right; exists j; split; [now right|assumption]].
    + set (d2 := if d =? 0 then i_death i else Z.min d (i_death i)). assert (D2 : d2 <> 0 /\ now < d2 /\ d2 <= i_death i /\ (d <> 0 -> d2 <= d) /\ (d2 = d \/ d2 = i_death i)).
      { subst d2. destruct (d =? 0) eqn:E3; [splits; lia|]. splits; lia. }
      destruct D2 as (D2a & D2b & D2c & D2d & D2e). specialize (IH d2 (or_intror D2b) Hn). cbv zeta in IH. destruct (reap_loop now r d2) as [l' d']. cbn [snd] in *. destruct IH as (I1 & I2 & I3).
      destruct (I2 D2a) as [I2a I2b]. split; [intros j [<-|Hj] N K; [split; [assumption|lia]|now apply I1]|].
      split; [intros N; specialize (D2d N); split; [assumption|lia]|].
      destruct I3 as [I3|(j & Hj & K)]; [|right; exists j; split; [now right|assumption]].
      destruct D2e as [D2e|D2e]; [left; congruence|]. right. exists i. split; [now left|]. split; [lia|]. split; [lia|congruence].
Qed.
