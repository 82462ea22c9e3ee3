(** Properties C16 (negotiation) and C18 (key derivation). *)
From Coq Require Import String.
From Verif Require Import Base Text Dec SshbufModel SshbufSpec MatchModel MatchSpec MatchProof MatchProps KexNamesModel KexNamesSpec KexNamesProof KexNamesProps KexModel KexSpec KexProof.

(** * C16 *)

(** The KEXINIT a peer sends is read back exactly, and is accepted as well formed. *)
Theorem C16_kexinit : forall cookie p follows reserved, length cookie = 16%nat -> proposal_ok p ->
  0 <= follows < 256 -> 0 <= reserved < 4294967296 ->
  kex_buf2prop (kexinit cookie p follows reserved) = Some (p, follows) /\
  kexinit_form (kexinit cookie p follows reserved) = true /\
  with_cookie cookie (kex_prop2buf p) = kexinit cookie p 0 0.
Proof.
  intros ck p fo rs Hc [Hl Hp] Hf Hr. assert (Zc : zlen ck = 16) by (unfold zlen; lia).
  assert (NN : forall t, zlen (ck ++ t) <? 16 = false) by (intros t; rewrite zlen_app; pose proof (zlen_nonneg Z t); lia).
  unfold kex_buf2prop, kexinit_form, kexinit. rewrite !NN, !zdrop_app_exact by lia.
  change PROPOSAL_MAX with 10%nat. rewrite <- !Hl. rewrite get_cstrs_enc, get_strs_enc by assumption.
  rewrite get_int_enc by (cbn; lia). rewrite <- (app_nil_r (be_enc 4 rs)). rewrite get_int_enc by (change (256 ^ Z.of_nat 4) with 4294967296; lia).
  rewrite app_nil_r. split; [reflexivity|]. split.
  - rewrite !zlen_app, !zlen_be_enc. reflexivity.
  - unfold with_cookie, kex_prop2buf. rewrite zdrop_app_exact by reflexivity. now rewrite flat_map_concat_map.
Qed.
Print Assumptions C16_kexinit.

(** Both ends succeed: same key exchange, host key algorithm, ciphers and
    compression per direction, whatever tables each end was built with. *)
Theorem C16_agree : forall Tc Ts fc fs qc qs craw sraw x y, f_server fc = false -> f_server fs = true ->
  kex_choose_conf Tc fc qc craw sraw = KOk x -> kex_choose_conf Ts fs qs sraw craw = KOk y ->
  c_kex x = c_kex y /\ c_hostkey x = c_hostkey y /\
  d_enc (c_out x) = d_enc (c_in y) /\ d_comp (c_out x) = d_comp (c_in y) /\
  d_enc (c_in x) = d_enc (c_out y) /\ d_comp (c_in x) = d_comp (c_out y) /\
  (Tc = Ts -> c_out x = c_in y /\ c_in x = c_out y /\ c_need x = c_need y /\ c_dh_need x = c_dh_need y).
Proof.
  intros Tc Ts fc fs qc qs cr sr x y Hc Hs Hx Hy. apply conf_ok in Hx, Hy. cbv zeta in Hx, Hy. rewrite Hc in Hx. rewrite Hs in Hy. cbn [negb] in Hx, Hy.
  destruct Hx as (my & fm & peer & fp & B1 & B2 & _ & X1 & _ & X2 & _ & X3 & X4 & X5 & X6 & _).
  destruct Hy as (my' & fm' & peer' & fp' & B1' & B2' & _ & Y1 & _ & Y2 & _ & Y3 & Y4 & Y5 & Y6 & _).
  rewrite B2 in B1'. injection B1' as <- <-. rewrite B1 in B2'. injection B2' as <- <-.
  pose proof X3 as X3'. pose proof X4 as X4'. pose proof Y3 as Y3'. pose proof Y4 as Y4'.
  apply choose_dir_ok in X3', X4', Y3', Y4'. cbv zeta iota in X3', X4', Y3', Y4'.
  destruct X3' as (A1 & _ & _ & A2 & _), X4' as (A3 & _ & _ & A4 & _), Y3' as (A5 & _ & _ & A6 & _), Y4' as (A7 & _ & _ & A8 & _).
  splits; try congruence. intros ->. rewrite X5, X6, Y5, Y6. rewrite X3 in Y4. rewrite X4 in Y3. injection Y3 as ->. injection Y4 as ->. splits; auto; lia.
Qed.
Print Assumptions C16_agree.

(** With equal tables and KEXINIT as first packet, one end succeeds exactly when
    the other does. *)
Theorem C16_together : forall T fc fs craw sraw, f_server fc = false -> f_server fs = true ->
  ((exists x, kex_choose_conf T fc 0 craw sraw = KOk x) <-> (exists y, kex_choose_conf T fs 0 sraw craw = KOk y)).
Proof.
  intros T fc fs cr sr Hc Hs. split; intros (x & H); apply conf_ok in H; cbv zeta in H; [rewrite Hc in H|rewrite Hs in H];
    destruct H as (my & fm & peer & fp & B1 & B2 & _ & X1 & K1 & X2 & K2 & X3 & X4 & X5 & X6 & _).
  - eexists (mkConf (c_kex x) (c_hostkey x) (c_out x) (c_in x) _ _ _ (signals fs my)). apply conf_ok. exists peer, fp, my, fm. cbv zeta. rewrite Hs. cbn [negb c_kex c_hostkey c_in c_out c_need c_dh_need c_skip c_flags].
    splits; eauto.
  - eexists (mkConf (c_kex x) (c_hostkey x) (c_out x) (c_in x) _ _ _ (signals fc my)). apply conf_ok. exists peer, fp, my, fm. cbv zeta. rewrite Hc. cbn [negb c_kex c_hostkey c_in c_out c_need c_dh_need c_skip c_flags].
    splits; eauto.
Qed.
Print Assumptions C16_together.

(** What is selected is the client's first choice that the server lists: key
    exchange, host key, and per direction cipher, MAC (unless the cipher
    authenticates) and compression. *)
Theorem C16_choice : forall T f seq my_raw peer_raw my fm peer fp x,
  kex_buf2prop my_raw = Some (my, fm) -> kex_buf2prop peer_raw = Some (peer, fp) ->
  kex_choose_conf T f seq my_raw peer_raw = KOk x ->
  let c := if f_server f then peer else my in let s := if f_server f then my else peer in
  let ctos := if f_server f then c_in x else c_out x in let stoc := if f_server f then c_out x else c_in x in
  let slot n a := chosen (nth n c []) (nth n s []) a in
  slot 0%nat (c_kex x) /\ slot 1%nat (c_hostkey x) /\
  slot 2%nat (d_enc ctos) /\ slot 3%nat (d_enc stoc) /\ slot 6%nat (d_comp ctos) /\ slot 7%nat (d_comp stoc) /\
  (forall n d, (n = 4%nat /\ d = ctos \/ n = 5%nat /\ d = stoc) ->
     exists ci, t_cipher T (d_enc d) = Some ci /\
     match d_mac d with Some m => slot n m /\ ci_auth ci = 0 | None => ci_auth ci <> 0 end).
Proof.
  intros T f seq mr pr my fm peer fp x B1 B2 H c s ctos stoc slot. apply conf_ok in H. destruct H as (my' & fm' & peer' & fp' & B1' & B2' & H).
  rewrite B1 in B1'. injection B1' as <- <-. rewrite B2 in B2'. injection B2' as <- <-. cbv zeta in H. fold c s in H.
  destruct H as (_ & X1 & _ & X2 & _ & X3 & X4 & _).
  assert (X : choose_dir T c s true = ROk ctos /\ choose_dir T c s false = ROk stoc).
  { unfold ctos, stoc. destruct (f_server f); cbn [negb] in X4; auto. }
  destruct X as [A B]. apply choose_dir_ok in A, B. cbv zeta iota in A, B. unfold prop in *.
  destruct A as (A1 & A2 & A3 & A4 & _), B as (D1 & D2 & D3 & D4 & _). unfold slot. rewrite <- !choose_name. splits; auto.
  intros n d [[-> ->]|[-> ->]].
  - eexists. split; [eassumption|]. destruct (ci_auth (d_info ctos) =? 0) eqn:E.
    + destruct A3 as (m & -> & A5 & _). split; [now apply choose_name|lia].
    + destruct A3 as (-> & _). lia.
  - eexists. split; [eassumption|]. destruct (ci_auth (d_info stoc) =? 0) eqn:E.
    + destruct D3 as (m & -> & A5 & _). split; [now apply choose_name|lia].
    + destruct D3 as (-> & _). lia.
Qed.
Print Assumptions C16_choice.

(** Conversely negotiation succeeds whenever every slot has a common name this
    build supports (MACs only where the cipher needs one). *)
Theorem C16_succeeds : forall T f my_raw peer_raw my fm peer fp,
  kex_buf2prop my_raw = Some (my, fm) -> kex_buf2prop peer_raw = Some (peer, fp) ->
  let c := if f_server f then peer else my in let s := if f_server f then my else peer in
  let slot n (ok : list Z -> Prop) := exists a, chosen (nth n c []) (nth n s []) a /\ ok a in
  slot 0%nat (fun a => t_kex T a = true) -> slot 1%nat (fun a => t_hostkey T a = true) ->
  (forall i, i = 0%nat \/ i = 1%nat ->
     slot (2 + i)%nat (fun a => exists ci, t_cipher T a = Some ci /\ (ci_auth ci = 0 -> slot (4 + i)%nat (fun m => exists k, t_mac T m = Some k)))) ->
  (forall i, i = 0%nat \/ i = 1%nat -> slot (6 + i)%nat (fun a => a = bs "none" \/ t_zlib T = true /\ a = bs "zlib@openssh.com")) ->
  exists x, kex_choose_conf T f 0 my_raw peer_raw = KOk x.
Proof.
  intros T f mr pr my fm peer fp B1 B2 c s slot S0 S1 S2 S6.
  assert (D : forall i, i = 0%nat \/ i = 1%nat -> exists d, choose_dir T c s (match i with O => true | _ => false end) = ROk d).
  { intros i Hi. destruct (S2 i Hi) as (en & E1 & ci & E2 & E3). destruct (S6 i Hi) as (cn & F1 & F2).
    assert (Cn : (t_zlib T && beqb cn (bs "zlib@openssh.com")) || beqb cn (bs "none") = true).
    { destruct F2 as [-> |[-> ->]]; rewrite beqb_refl; [apply Bool.orb_true_r|reflexivity]. }
    apply choose_name in E1, F1.
    destruct (ci_auth ci =? 0) eqn:Ea.
    - destruct E3 as (m & M1 & k & M2); [lia|]. apply choose_name in M1. exists (mkDir en ci (Some m) k cn). apply choose_dir_ok. cbv zeta. cbn [d_enc d_info d_mac d_mackey d_comp]. rewrite Ea.
      destruct Hi as [-> | ->]; (split; [assumption|]); (split; [assumption|]); (split; [exists m; splits; auto; assumption|]); auto.
    - exists (mkDir en ci None 0 cn). apply choose_dir_ok. cbv zeta. cbn [d_enc d_info d_mac d_mackey d_comp]. rewrite Ea.
      destruct Hi as [-> | ->]; splits; auto. }
  destruct (D 0%nat ltac:(auto)) as (dc & Dc), (D 1%nat ltac:(auto)) as (ds & Ds). cbv iota in Dc, Ds.
  destruct S0 as (k & K1 & K2), S1 as (h & H1 & H2). apply choose_name in K1, H1.
  eexists (mkConf k h (if f_server f then dc else ds) (if f_server f then ds else dc) _ _ _ _). apply conf_ok. exists my, fm, peer, fp.
  cbv zeta. cbn [c_kex c_hostkey c_in c_out c_need c_dh_need c_skip c_flags]. fold c s. splits; eauto; destruct (f_server f); auto.
Qed.
Print Assumptions C16_succeeds.

(** A packet sent on a guess is skipped exactly when the peer announced one and
    the two ends' first key-exchange or host-key names differ; the comparison is
    the same seen from either end. *)
Theorem C16_guess : forall T f seq my_raw peer_raw my fm peer fp x,
  kex_buf2prop my_raw = Some (my, fm) -> kex_buf2prop peer_raw = Some (peer, fp) ->
  kex_choose_conf T f seq my_raw peer_raw = KOk x ->
  let first n p := hd [] (split 44 (nth n p [])) in
  (c_skip x = true <-> fp <> 0 /\ (first 0%nat my <> first 0%nat peer \/ first 1%nat my <> first 1%nat peer)) /\
  proposals_match my peer = proposals_match peer my.
Proof.
  intros T f seq mr pr my fm peer fp x B1 B2 H first. apply conf_ok in H. destruct H as (my' & fm' & peer' & fp' & B1' & B2' & H).
  rewrite B1 in B1'. injection B1' as <- <-. rewrite B2 in B2'. injection B2' as <- <-. cbv zeta in H.
  destruct H as (_ & _ & _ & _ & _ & _ & _ & _ & _ & -> & _). unfold proposals_match, first_name, prop, PROPOSAL_KEX_ALGS, PROPOSAL_SERVER_HOST_KEY_ALGS, COMMA.
  fold (first 0%nat my) (first 0%nat peer) (first 1%nat my) (first 1%nat peer). split.
  - destruct (beqb (first 0%nat my) (first 0%nat peer)) eqn:E0, (beqb (first 1%nat my) (first 1%nat peer)) eqn:E1; cbn [andb negb];
      first [apply (proj1 (beqb_eq _ _)) in E0|apply (proj1 (beqb_neq _ _)) in E0]; first [apply (proj1 (beqb_eq _ _)) in E1|apply (proj1 (beqb_neq _ _)) in E1].
    + rewrite Bool.andb_false_r. split; [discriminate|]. intros [_ [H|H]]; [exact (False_ind _ (H E0))|exact (False_ind _ (H E1))].
    + rewrite Bool.andb_true_r. split; [intros H; split; [lia|auto]|intros [H _]; lia].
    + rewrite Bool.andb_true_r. split; [intros H; split; [lia|auto]|intros [H _]; lia].
    + rewrite Bool.andb_true_r. split; [intros H; split; [lia|auto]|intros [H _]; lia].
  - assert (S : forall a b, beqb a b = beqb b a) by (intros a b; destruct (beqb a b) eqn:E, (beqb b a) eqn:E'; try reflexivity; [apply beqb_eq in E; apply beqb_neq in E'; congruence|apply beqb_eq in E'; apply beqb_neq in E; congruence]).
    rewrite (S (first 0%nat my)), (S (first 1%nat my)). reflexivity.
Qed.
Print Assumptions C16_guess.

Lemma contains_iff : forall l n, ~ In 44 n -> n <> [] -> kex_has_any_alg l n = true <-> In n (names l).
Proof.
  intros l n H Hn. unfold kex_has_any_alg. destruct (C15_choice l n) as [A B].
  assert (N : names n = [n]). { pose proof (names_join [n]) as J. cbn [join] in J. apply J. constructor; [auto|constructor]. }
  rewrite N in A, B. cbn [firstn] in A, B. destruct (match_list l n) as [m|].
  - split; [|reflexivity]. intros _. destruct (proj1 (A m) eq_refl) as (a & b & E & [<- |[]] & _). rewrite E. apply in_or_app. right. now left.
  - split; [discriminate|]. intros Hi. exfalso. apply (proj1 B eq_refl n Hi). now left.
Qed.

(** Two ends that both run this code and use non-empty proper algorithm lists
    both turn strict key exchange on. *)
Theorem C16_strict : forall fc fs lc ls kc ks pc ps, f_initial fc = true -> f_initial fs = true -> f_server fc = false -> f_server fs = true ->
  name_list lc -> name_list ls -> lc <> [] -> ls <> [] ->
  populate_kex false (join 44 lc) = Some kc -> populate_kex true (join 44 ls) = Some ks ->
  f_strict (signals fc (ks :: ps)) = true /\ f_strict (signals fs (kc :: pc)) = true.
Proof.
  intros fc fs lc ls kc ks pc ps Hic His Hsc Hss [Wc Nc] [Ws Ns] Ec Es Pc Ps.
  assert (G : forall b l k, Forall (fun f => f <> [] /\ ~ In 44 f) l -> l <> [] -> populate_kex b (join 44 l) = Some k -> forall n, In n (names (signalling b)) -> In n (names k)).
  { intros b l k W E P n Hn. unfold populate_kex in P. rewrite names_cat_ok in P; [|assumption|assumption|destruct b; vm_compute; discriminate]. injection P as <-.
    rewrite names_join by (apply add_new_wfn; [assumption|apply wfn_names]). clear - Hn. revert l Hn. generalize (names (signalling b)). intros m. induction m as [|x m IH]; intros l Hn; [destruct Hn|].
    assert (Mono : forall m l y, In y l -> In y (add_new l m)).
    { clear. induction m as [|x m IH]; intros l y H; [assumption|]. cbn. destruct (existsb _ _); apply IH; [assumption|apply in_or_app; auto]. }
    cbn. destruct Hn as [<-|Hn].
    - destruct (existsb (beqb x) l) eqn:Ex; apply Mono; [|apply in_or_app; right; now left]. apply existsb_exists in Ex. destruct Ex as (z & Hz & Ez). apply beqb_eq in Ez. now subst.
    - destruct (existsb _ _); apply IH; assumption. }
  unfold signals. rewrite Hic, His, Hsc, Hss. cbn [f_strict]. unfold kexalgs_contains, prop, PROPOSAL_KEX_ALGS. cbn [nth].
  split; apply contains_iff.
  1,4: vm_compute; intros H; repeat (destruct H as [H|H]; [discriminate H|]); exact H.
  1,3: discriminate.
  - apply (G true ls ks Ws Es Ps). vm_compute. auto.
  - apply (G false lc kc Wc Ec Pc). vm_compute. auto.
Qed.
Print Assumptions C16_strict.

(** The proposal used for later exchanges is ours without the signalling names. *)
Theorem C16_rekey : forall server l r, name_list l -> l <> [] ->
  exists out, rekey_proposal server (join 44 l :: r) = Some (join 44 out :: r) /\
    (forall n, In n out <-> In n l /\ ~ In n (names (signalling server))) /\
    exists keep : list Z -> bool, out = filter keep l.
Proof.
  intros server l r [W N] E. unfold rekey_proposal, match_filter_denylist, filter_list, COMMA. rewrite split_nil_join by assumption.
  set (flt := if server then _ else _). change (@nil Z) with (join 44 []) at 1. rewrite filter_scan_deny; [|assumption|constructor].
  eexists. split; [reflexivity|]. cbn [app]. split; [|eexists; reflexivity].
  intros n. rewrite filter_In.
  assert (Fits : Forall fits (entries flt)).
  { destruct server; unfold flt; (replace (entries _) with (split 44 flt) by (vm_compute; reflexivity)); unfold flt; vm_compute; repeat constructor. }
  destruct (mpl_spec_fits n false (entries flt) false Fits) as [_ H2].
  assert (P : some_positive false n (entries flt) /\ ~ some_negative false n (entries flt) <-> In n (names (signalling server))).
  { assert (EE : entries flt = names (signalling server) /\ Forall literal (names (signalling server))).
    { destruct server; unfold flt; (split; [vm_compute; reflexivity|]); vm_compute; repeat (constructor; [splits; try reflexivity; try (intros H; repeat (destruct H as [H|H]; [discriminate H|]); exact H)|]); try constructor; lia. }
    destruct EE as [-> L]. rewrite Forall_forall in L. split.
    - intros [(e & He & Hn & Hc) _]. destruct (L e He) as (L1 & L2 & L3 & L4). unfold covers, fold_case, body in Hc. rewrite L3 in Hc. apply glob_literal in Hc; try assumption. now subst.
    - intros Hi. split.
      + exists n. destruct (L n Hi) as (L1 & L2 & L3 & L4). splits; auto. unfold covers, fold_case, body. rewrite L3. now apply glob_literal.
      + intros (e & He & Hn & _). destruct (L e He) as (_ & _ & L3 & _). congruence. }
  rewrite <- P. destruct (mpl_spec n false false (entries flt) =? 1) eqn:Em; cbn [negb].
  - split; [intros [_ H]; discriminate|]. intros [_ H]. exfalso. apply H. assert (K : mpl_spec n false false (entries flt) = 1) by lia. apply H2 in K. destruct K as [A [B|B]]; [discriminate|auto].
  - split; [|tauto]. intros [Hi _]. split; [assumption|]. intros [A B]. assert (K : mpl_spec n false false (entries flt) = 1) by (apply H2; auto). lia.
Qed.
Print Assumptions C16_rekey.

(** A concrete negotiation: the client prefers chacha, the server lists both. *)
Definition demo_T : tables := mkT (fun n => if beqb n (bs "chacha") then Some (mkCi 0 64 8 16 32) else if beqb n (bs "aes") then Some (mkCi 16 16 16 0 16) else None)
  (fun n => if beqb n (bs "hmac") then Some 32 else None) (fun n => beqb n (bs "curve")) (fun n => beqb n (bs "ed25519")) true.
Definition demo_c := [bs "curve,kex-strict-c-v00@openssh.com"; bs "rsa,ed25519"; bs "chacha,aes"; bs "aes"; bs "hmac"; bs "hmac"; bs "none"; bs "none"; []; []].
Definition demo_s := [bs "dh,curve,kex-strict-s-v00@openssh.com"; bs "ed25519"; bs "aes,chacha"; bs "aes,chacha"; bs "hmac"; bs "hmac"; bs "none"; bs "none"; []; []].
Definition demo_f (server : bool) := mkF server true false false false false false.
Example C16_demo : proposal_ok demo_c /\
  match kex_choose_conf demo_T (demo_f false) 0 (kexinit (repeat 7 16) demo_c 0 0) (kexinit (repeat 8 16) demo_s 1 0),
        kex_choose_conf demo_T (demo_f true) 0 (kexinit (repeat 8 16) demo_s 1 0) (kexinit (repeat 7 16) demo_c 0 0) with
  | KOk x, KOk y => d_enc (c_out x) = bs "chacha" /\ d_enc (c_in x) = bs "aes" /\ d_mac (c_in x) = Some (bs "hmac") /\
                    c_skip x = true /\ c_skip y = false /\ c_need x = 64 /\ f_strict (c_flags x) = true
  | _, _ => False
  end /\
  kex_choose_conf demo_T (demo_f true) 3 (kexinit (repeat 8 16) demo_s 1 0) (kexinit (repeat 7 16) demo_c 0 0) = KDisconnect.
Proof.
  split; [|split; [|vm_compute; reflexivity]].
  - split; [reflexivity|]. unfold demo_c.
    repeat (constructor; [split; [vm_compute; discriminate|vm_compute; intros H; repeat (destruct H as [H|H]; [discriminate H|]); exact H]|]). constructor.
  - vm_compute. splits; reflexivity.
Qed.

(** * C18 *)

(** The derived bytes are the label's key stream, cut at whole blocks; no write
    leaves the buffer and the loop ends. *)
Theorem C18_stream : forall hash mdsz, (forall x, zlen (hash x) = mdsz) -> 0 < mdsz ->
  forall K H sid label need, 1 <= need -> need + mdsz <= 4294967296 ->
  exists n, derive_key hash mdsz K H sid label need = DOk (stream hash K H sid label n) /\
    need <= zlen (stream hash K H sid label n) < need + mdsz.
Proof.
  intros hash mdsz Hl Hp K H sid label need Hn Hb. exists (Z.to_nat ((need + mdsz - 1) / mdsz)). split; [now apply derive_ok|].
  rewrite (stream_len hash mdsz Hl), Z2Nat.id by (apply Z.div_pos; lia).
  pose proof (Z.div_mod (need + mdsz - 1) mdsz ltac:(lia)). pose proof (Z.mod_pos_bound (need + mdsz - 1) mdsz Hp). nia.
Qed.
Print Assumptions C18_stream.

(** A shorter request yields a prefix of a longer one, so the bytes used for a
    key do not depend on how much was asked for. *)
Theorem C18_prefix : forall hash mdsz, (forall x, zlen (hash x) = mdsz) -> 0 < mdsz ->
  forall K H sid label need need' k k', 1 <= need <= need' -> need' + mdsz <= 4294967296 ->
  derive_key hash mdsz K H sid label need = DOk k -> derive_key hash mdsz K H sid label need' = DOk k' ->
  exists t, k' = k ++ t.
Proof.
  intros hash mdsz Hl Hp K H sid label need need' k k' Hn Hb E E'. rewrite (derive_ok hash mdsz Hl Hp) in E by lia. rewrite (derive_ok hash mdsz Hl Hp) in E' by lia.
  injection E as <-. injection E' as <-. apply stream_prefix. apply Z2Nat.inj_le; try (apply Z.div_pos; lia). apply Z.div_le_mono; lia.
Qed.
Print Assumptions C18_prefix.

(** Negotiation always asks for enough bytes for every key, IV and MAC key, and
    for at least one (every cipher has a block size): the buffer overrun a zero
    request would cause cannot happen. *)
Theorem C18_need : forall T f seq my_raw peer_raw x, (forall n ci, t_cipher T n = Some ci -> 1 <= ci_block ci) ->
  kex_choose_conf T f seq my_raw peer_raw = KOk x ->
  1 <= c_need x /\ forall d, d = c_in x \/ d = c_out x ->
    ci_key (d_info d) <= c_need x /\ ci_iv (d_info d) <= c_need x /\ d_mackey d <= c_need x.
Proof.
  intros T f seq mr pr x Hb H. apply conf_ok in H. destruct H as (my & fm & peer & fp & _ & _ & _ & _ & _ & _ & _ & A & B & -> & _).
  unfold dir_need. split.
  - apply choose_dir_ok in A. destruct A as (_ & A & _). specialize (Hb _ _ A). lia.
  - intros d [-> | ->]; lia.
Qed.
Print Assumptions C18_need.

(** Labels feed the hash with different inputs, and no label's first input is an
    expansion input of any label (when the session id is one hash long, or any
    length that is not one less than a whole number of blocks). *)
Theorem C18_separation : forall hash mdsz, (forall x, zlen (hash x) = mdsz) -> 0 < mdsz ->
  forall (K H sid : list Z) label label' n, label <> label' ->
  K ++ H ++ [label] ++ sid <> K ++ H ++ [label'] ++ sid /\
  ((1 + zlen sid) mod mdsz <> 0 -> K ++ H ++ [label] ++ sid <> K ++ H ++ stream hash K H sid label' n).
Proof.
  intros hash mdsz Hl Hp K H sid l l' n Hne. split.
  - intros E. apply app_inv_head, app_inv_head in E. injection E as ->. congruence.
  - intros Hm E. apply app_inv_head, app_inv_head in E. apply (f_equal zlen) in E. rewrite (stream_len hash mdsz Hl) in E. rewrite zlen_app in E. change (zlen [l]) with 1 in E. rewrite E in Hm. rewrite Z.mod_mul in Hm by lia. congruence.
Qed.
Print Assumptions C18_separation.

(** Both ends of a connection, over any sequence of exchanges with the same
    hashes and secrets: what one end uses for sending is what the other uses for
    receiving, each of the six values is its own label's stream, and the session
    id is the first exchange hash for ever. *)
Theorem C18_both_ends : forall hash mdsz, (forall x, zlen (hash x) = mdsz) -> 0 < mdsz ->
  forall need0 H0 K0 rest, H0 <> [] ->
  let xs := (need0, H0, K0) :: rest in
  Forall (fun x : Z * list Z * list Z => 1 <= fst (fst x) /\ fst (fst x) + mdsz <= 4294967296) xs ->
  let keys (x : Z * list Z * list Z) labels := let '(need, H, K) := x in
    let s l := stream hash K H H0 l (Z.to_nat ((need + mdsz - 1) / mdsz)) in
    match labels with (a, b, c) => mkTriple (s a) (s b) (s c) end in
  let client_to_server x := keys x (65, 67, 69) in let server_to_client x := keys x (66, 68, 70) in
  exchanges hash mdsz false true [] xs = Some (H0, map (fun x => mkD (server_to_client x) (client_to_server x)) xs) /\
  exchanges hash mdsz true true [] xs = Some (H0, map (fun x => mkD (client_to_server x) (server_to_client x)) xs).
Proof.
  intros hash mdsz Hl Hp need0 H0 K0 rest Hne xs HF keys cs sc.
  assert (St : forall (server initial : bool) (sid : list Z) need H K, sid = (if initial then [] else H0) -> (initial = true -> H = H0) -> 1 <= need -> need + mdsz <= 4294967296 ->
     kex_derive_keys hash mdsz server initial sid need H K = Some (H0, if server then mkD (cs (need, H, K)) (sc (need, H, K)) else mkD (sc (need, H, K)) (cs (need, H, K)))).
  { intros server initial sid need H K Es Ei Hn Hb. unfold kex_derive_keys.
    replace (if initial then if is_nil sid then Some H else None else if is_nil sid then None else Some sid) with (Some H0).
    2:{ subst sid. destruct initial; cbn [is_nil]; [now rewrite Ei|]. destruct H0; [congruence|reflexivity]. }
    cbn [derive_all]. rewrite !(derive_ok hash mdsz Hl Hp) by assumption. cbn [option_map nth]. destruct server; reflexivity. }
  assert (G : forall server l, Forall (fun x : Z * list Z * list Z => 1 <= fst (fst x) /\ fst (fst x) + mdsz <= 4294967296) l ->
     exchanges hash mdsz server false H0 l = Some (H0, map (fun x => if server then mkD (cs x) (sc x) else mkD (sc x) (cs x)) l)).
  { intros server l Hf. induction Hf as [|[[n H] K] l [A B] Hf IH]; [reflexivity|]. cbn [exchanges map]. rewrite St; auto; [|discriminate]. now rewrite IH. }
  inversion HF as [|? ? [A B] HF']; subst. split; unfold xs; cbn [exchanges map]; rewrite St by auto; now rewrite G.
Qed.
Print Assumptions C18_both_ends.

(** A toy hash, to show the hypotheses can be met. *)
Definition toy_hash (x : list Z) : list Z := [fold_right Z.add 0 x mod 251; zlen x mod 256; 7; 9].
Example C18_demo : (forall x, zlen (toy_hash x) = 4) /\ derive_key toy_hash 4 [1; 2] [3] [4; 5] 65 10 = DOk [80; 6; 7; 9; 108; 7; 7; 9; 239; 11; 7; 9] /\ derive_key toy_hash 4 [1; 2] [3] [4; 5] 65 5 = DOk [80; 6; 7; 9; 108; 7; 7; 9] /\ derive_key toy_hash 4 [1; 2] [3] [4; 5] 65 0 = DOverflow.
Proof. splits; vm_compute; reflexivity. Qed.
