(** Proofs about the monitor, continued: runs. *)
From Coq Require Import String.
From Verif Require Import Base Text SshbufModel SshbufSpec Dec Auth2Model Auth2Spec Auth2Proof MonitorModel MonitorSpec MonitorProof MonitorProof2.

(** ** Messages *)
Definition ev_bytes (e : mev) : Prop := is_bytes (e_body e).
Lemma cstr_wire : forall b v r, is_bytes b -> get_cstr b = Some (v, r) -> exists w, b = w ++ r /\ cstring w v /\ is_bytes r.
Proof.
  intros b v r B H. pose proof (get_cstr_no_nul _ _ _ H) as N. apply get_cstr_str in H. destruct H as (v' & G & _ & D). apply get_str_spec in G; [|exact B]. destruct G as (-> & _ & _ & Br).
  exists (enc_string v'). split; [reflexivity|split; [|exact Br]]. split; [exact N|]. destruct D as [-> | ->]; auto.
Qed.
Lemma str_wire : forall b v r, is_bytes b -> get_str b = Some (v, r) -> b = enc_string v ++ r /\ is_bytes r.
Proof. intros b v r B H. apply get_str_spec in H; [|exact B]. tauto. Qed.
Lemma byte_wire : forall b v r, is_bytes b -> get_int 1 b = Some (v, r) -> b = [v] ++ r /\ is_bytes r.
Proof.
  intros b v r B H. apply get_int_spec in H; [|exact B]. destruct H as (-> & R & Br). split; [|exact Br]. f_equal. cbn [be_enc app]. rewrite Z.mod_small; [reflexivity|]. exact R.
Qed.
Lemma sign_wire : forall c b blob data, is_bytes b -> sign_fields c b = Some (blob, data) -> sign_body c b blob data.
Proof.
  intros c b blob data B H. unfold sign_fields in H. destruct (get_str b) as [[kb b1]|] eqn:G1; [|discriminate]. destruct (mc_parse c kb) as [bl|] eqn:P; [|discriminate]. destruct (get_str b1) as [[d b2]|] eqn:G2; [|discriminate].
  destruct (get_cstr b2) as [[? b3]|]; [|discriminate]. destruct (get_int 4 b3) as [[? ?]|]; [|discriminate]. injection H as <- <-. apply str_wire in G1; [|exact B]. destruct G1 as [-> B1]. apply str_wire in G2; [|exact B1]. destruct G2 as [-> _]. exists kb, b2. auto.
Qed.
Lemma keyallowed_wire : forall c b k cu ch blob, is_bytes b -> keyallowed_fields c b = Some (knum k, cu, ch, blob) -> keyallowed_body c b k cu ch blob.
Proof.
  intros c b k cu ch blob B H. unfold keyallowed_fields in H. destruct (get_int 4 b) as [[ty b1]|] eqn:G1; [|discriminate]. destruct (get_cstr b1) as [[u b2]|] eqn:G2; [|discriminate]. destruct (get_cstr b2) as [[hh b3]|] eqn:G3; [|discriminate].
  destruct (get_str b3) as [[kb b4]|] eqn:G4; [|discriminate]. destruct (mc_parse c kb) as [bl|] eqn:P; [|discriminate]. destruct (get_int 4 b4) as [[? ?]|]; [|discriminate]. injection H as -> -> -> ->.
  apply get_int_spec in G1; [|exact B]. destruct G1 as (-> & _ & B1). apply cstr_wire in G2; [|exact B1]. destruct G2 as (w1 & -> & C1 & B2). apply cstr_wire in G3; [|exact B2]. destruct G3 as (w2 & -> & C2 & B3). apply str_wire in G4; [|exact B3]. destruct G4 as [-> _].
  exists w1, w2, kb, b4. auto.
Qed.
Lemma keyverify_wire : forall b blob sig data, is_bytes b -> keyverify_fields b = Some (blob, sig, data) -> keyverify_body b blob sig data /\ is_bytes data.
Proof.
  intros b blob sig data B H. unfold keyverify_fields in H. destruct (get_str b) as [[v1 b1]|] eqn:G1; [|discriminate]. destruct (get_str b1) as [[v2 b2]|] eqn:G2; [|discriminate]. destruct (get_str b2) as [[v3 b3]|] eqn:G3; [|discriminate]. destruct (get_cstr b3) as [[? ?]|]; [|discriminate]. injection H as <- <- <-.
  apply str_wire in G1; [|exact B]. destruct G1 as [-> B1]. apply str_wire in G2; [|exact B1]. destruct G2 as [-> B2]. apply get_str_spec in G3; [|exact B2]. destruct G3 as (-> & _ & B3 & _). split; [exists b3; reflexivity|exact B3].
Qed.
Lemma head_wire : forall s d m d', is_bytes d -> signed_head s d = Some (true, m, d') ->
  exists wu service wm, d = enc_string (m_sid s) ++ [50] ++ wu ++ enc_string service ++ wm ++ d' /\ cstring wu (userstyle s) /\ cstring wm m /\ is_bytes d' /\ m_sid s <> [].
Proof.
  intros s d m d' B H. unfold signed_head in H. destruct (get_str d) as [[sid d1]|] eqn:G1; [|discriminate]. destruct (get_int 1 d1) as [[ty d2]|] eqn:G2; [|discriminate]. destruct (get_cstr d2) as [[u d3]|] eqn:G3; [|discriminate]. destruct (get_str d3) as [[sv d4]|] eqn:G4; [|discriminate]. destruct (get_cstr d4) as [[mm d5]|] eqn:G5; [|discriminate].
  injection H as E -> ->. apply andb_true_iff in E. destruct E as [E E4]. apply andb_true_iff in E. destruct E as [E E3]. apply andb_true_iff in E. destruct E as [E1 E2]. apply beqb_eq in E2, E4. apply Z.eqb_eq in E3. subst sid ty u.
  apply str_wire in G1; [|exact B]. destruct G1 as [-> B1]. apply byte_wire in G2; [|exact B1]. destruct G2 as [-> B2]. apply cstr_wire in G3; [|exact B2]. destruct G3 as (wu & -> & C1 & B3). apply str_wire in G4; [|exact B3]. destruct G4 as [-> B4]. apply cstr_wire in G5; [|exact B4]. destruct G5 as (wm & -> & C2 & B5).
  exists wu, sv, wm. splits; auto. destruct (m_sid s); [discriminate|congruence].
Qed.
Lemma nil_of : forall (l : list Z), is_nil l = true -> l = []. Proof. now intros [|]. Qed.
Lemma userblob_wire : forall c s d, is_bytes d -> valid_userblob c s d = true -> user_signed c (m_sid s) (userstyle s) d /\ m_sid s <> [].
Proof.
  intros c s d B H. unfold valid_userblob in H. destruct (signed_head s d) as [[[okk m] d1]|] eqn:Hd; [|discriminate]. destruct (get_int 1 d1) as [[hv d2]|] eqn:G1; [|discriminate]. destruct (get_str d2) as [[al d3]|] eqn:G2; [|discriminate]. destruct (get_str d3) as [[kb d4]|] eqn:G3; [|discriminate].
  apply andb_true_iff in H. destruct H as [H H4]. apply andb_true_iff in H. destruct H as [H H3]. apply andb_true_iff in H. destruct H as [-> H2]. destruct (head_wire s d m d1 B Hd) as (wu & sv & wm & -> & C1 & C2 & B1 & Ns). split; [|exact Ns].
  apply byte_wire in G1; [|exact B1]. destruct G1 as [-> B2]. apply str_wire in G2; [|exact B2]. destruct G2 as [-> B3]. apply str_wire in G3; [|exact B3]. destruct G3 as [-> B4].
  exists wu, sv, wm, m, hv, al, kb, d4. splits; auto.
  - intros ->. discriminate.
  - destruct (beqb m (bs "publickey-hostbound-v00@openssh.com")) eqn:Hb.
    + right. apply beqb_eq in Hb. split; [exact Hb|]. destruct (get_str d4) as [[hk d5]|] eqn:G4; [|discriminate]. destruct (mc_parse c hk) as [hb|] eqn:P; [|discriminate]. apply andb_true_iff in H4. destruct H4 as [H5 H6]. apply str_wire in G4; [|exact B4]. destruct G4 as [-> _]. apply nil_of in H5. subst d5. exists hk, hb. rewrite app_nil_r. auto.
    + left. apply nil_of in H4. rewrite orb_false_r in H2. apply beqb_eq in H2. auto.
Qed.
Lemma strip_dot_spec : forall h x, strip_dot h = x -> h = x \/ h = x ++ [46].
Proof.
  intros h x E. unfold strip_dot in E. destruct (Z.eqb_spec (last h 0) 46) as [L|]; [|auto]. right. destruct h as [|a h]; [discriminate|]. rewrite <- E, <- L. apply app_removelast_last. discriminate.
Qed.
Lemma hostblob_wire : forall s d cu ch, is_bytes d -> valid_hostbasedblob s d cu ch = true -> host_signed (m_sid s) (userstyle s) cu ch d /\ m_sid s <> [].
Proof.
  intros s d cu ch B H. unfold valid_hostbasedblob in H. destruct (signed_head s d) as [[[okk m] d1]|] eqn:Hd; [|discriminate]. destruct (get_str d1) as [[al d2]|] eqn:G1; [|discriminate]. destruct (get_str d2) as [[kb d3]|] eqn:G2; [|discriminate]. destruct (get_cstr d3) as [[hh d4]|] eqn:G3; [|discriminate]. destruct (get_cstr d4) as [[uu d5]|] eqn:G4; [|discriminate].
  apply andb_true_iff in H. destruct H as [H H5]. apply andb_true_iff in H. destruct H as [H H4]. apply andb_true_iff in H. destruct H as [H H3]. apply andb_true_iff in H. destruct H as [-> H2]. destruct (head_wire s d m d1 B Hd) as (wu & sv & wm & -> & C1 & C2 & B1 & Ns). split; [|exact Ns].
  apply str_wire in G1; [|exact B1]. destruct G1 as [-> B2]. apply str_wire in G2; [|exact B2]. destruct G2 as [-> B3]. apply cstr_wire in G3; [|exact B3]. destruct G3 as (wh & -> & C3 & B4). apply cstr_wire in G4; [|exact B4]. destruct G4 as (wc & -> & C4 & B5).
  apply nil_of in H5. subst d5. apply beqb_eq in H2, H3, H4. subst m uu. exists wu, sv, wm, al, kb, wh, hh, wc. rewrite app_nil_r. splits; auto. now apply strip_dot_spec.
Qed.

(** ** Facts from the state *)
Definition hist_bytes (h : hist) : Prop := Forall (fun x => ev_bytes (fst x)) h.
Lemma last_bytes : forall p h x, hist_bytes h -> last_of p h = Some x -> is_bytes (e_body (fst x)).
Proof. intros p h x F L. apply last_of_in in L. unfold hist_bytes in F. rewrite Forall_forall in F. apply (F x). apply L. Qed.
Lemma core_account : forall c h s, core c h s -> hist_bytes h -> m_valid s = true -> account h (m_user s) (Some (m_root s)).
Proof.
  intros c h s I B V. pose proof (i_pw _ _ _ I) as P. destruct (last_of (is_rq RPwnam) h) as [x|] eqn:L; [|destruct P as (_ & P & _); congruence]. destruct P as (_ & (rest & G) & Pv & Pr). exists x. split; [exact L|]. apply cstr_wire in G; [|eapply last_bytes; eassumption].
  destruct G as (w & E & C & _). split; [exists w, rest; auto|]. destruct (a_pw (e_ans (fst x))); cbn in Pv, Pr; congruence.
Qed.
Lemma core_sid : forall c h s, core c h s -> hist_bytes h -> m_sid s <> [] -> session_id c h (m_sid s).
Proof.
  intros c h s I B N. pose proof (i_sid _ _ _ I) as P. destruct (last_of (is_rq RSign) h) as [x|] eqn:L; [|contradiction]. destruct P as (blob & F & _). exists x, blob. split; [exact L|]. apply sign_wire; [eapply last_bytes; eassumption|exact F].
Qed.
Lemma core_styled : forall c h s, core c h s -> hist_bytes h -> styled h (m_user s) (userstyle s).
Proof.
  intros c h s I B. pose proof (i_style _ _ _ I) as P. unfold styled, userstyle. destruct (last_of (is_rq RAuthServ) h) as [x|] eqn:L; [|rewrite P; now rewrite app_nil_r].
  destruct P as (u & b1 & y & b2 & G1 & G2 & Es). apply cstr_wire in G1; [|eapply last_bytes; eassumption]. destruct G1 as (w1 & E1 & C1 & B1). apply cstr_wire in G2; [|exact B1]. destruct G2 as (w2 & E2 & C2 & _). exists y. split; [exists w1, u, w2, b2; subst b1; auto|]. rewrite Es. destruct y; reflexivity.
Qed.
Lemma core_approved : forall c h s k, core c h s -> hist_bytes h -> m_key s = Some k ->
  exists a, approved c h (k_type k) (k_cuser k) (k_chost k) (k_blob k) a /\ k_nopres k = a_nopres a /\ k_needverify k = a_needverify a.
Proof.
  intros c h s k I B K. destruct (i_key _ _ _ I k K) as (e & o & L & R & F & A1 & A2 & A3 & A4 & _). exists (e_ans e). split; [|auto]. exists e, o. splits; auto. apply keyallowed_wire; [|exact F]. apply (last_bytes keyish h (e, o) B L).
Qed.
Lemma sk_spec : forall c k a sk, k_nopres k = a_nopres a -> k_needverify k = a_needverify a -> sk_ok c k sk = true -> sk_flags_ok c (k_type k) a sk.
Proof.
  intros c k a sk E1 E2 H p v K S. unfold sk_ok in H. rewrite K, S, E1, E2 in H. apply andb_true_iff in H. destruct H as [H1 H2]. apply negb_true_iff in H1, H2. split; intros D.
  - destruct p; [reflexivity|]. destruct (mc_touch c), (a_nopres a); cbn in H1; try discriminate. destruct D; discriminate.
  - destruct v; [reflexivity|]. destruct (mc_verify c), (a_needverify a); cbn in H2; try discriminate; destruct D; discriminate.
Qed.
(** A verification that is answered *)
Definition verify_facts (c : mcfg) (h : hist) (e : mev) : Prop :=
  exists k cuser chost blob key sig data sid user root name,
    approved c h k cuser chost blob key /\ keyverify_body (e_body e) blob sig data /\
    session_id c h sid /\ account h user (Some root) /\ styled h user name /\
    match k with KUser => user_signed c sid name data | KHost => host_signed sid name cuser chost data end.
Lemma keyverify_inv : forall c h s e one m sub s', core c h s -> hist_bytes h -> ev_bytes e -> handle c false s RKeyVerify (e_body e) (e_ans e) = HRet s' one m sub ->
  verify_facts c h e /\ exists k sig data kb, m_key s = Some k /\ keyverify_fields (e_body e) = Some (k_blob k, sig, data) /\ mc_parse c (k_blob k) = Some kb /\
    one = a_ok (e_ans e) && sk_ok c k (a_sk (e_ans e)) /\ m = mname (kmeth (k_type k)) /\ sub = None.
Proof.
  intros c h s e one m sub s' I B Be H. cbn [handle] in H. unfold ans_keyverify in H. cbv zeta in H. destruct (keyverify_fields (e_body e)) as [[[blob sig] data]|] eqn:F; [|discriminate]. destruct (m_key s) as [k|] eqn:K; [|discriminate].
  destruct (beqb (k_blob k) blob) eqn:E; cbn [negb] in H; [|discriminate]. apply beqb_eq in E. destruct (mc_parse c blob) as [kb|] eqn:P; [|discriminate].
  match type of H with (if negb ?b then _ else _) = _ => destruct b eqn:V; cbn [negb] in H; [|discriminate] end. injection H as _ <- <- <-.
  destruct (keyverify_wire _ _ _ _ Be F) as [W Bd]. destruct (core_approved c h s k I B K) as (a & A & _ & _).
  assert (Vv : m_valid s = true) by (destruct (i_key _ _ _ I k K) as (e1 & o1 & _ & _ & _ & _ & _ & _ & _ & _ & Q); exact Q).
  split; [|exists k, sig, data, kb; subst blob; splits; auto; now destruct (k_type k)].
  assert (D : m_sid s <> [] /\ match k_type k with KUser => user_signed c (m_sid s) (userstyle s) data | KHost => host_signed (m_sid s) (userstyle s) (k_cuser k) (k_chost k) data end).
  { destruct (k_type k); [apply userblob_wire in V; [tauto|exact Bd]|apply hostblob_wire in V; [tauto|exact Bd]]. }
  exists (k_type k), (k_cuser k), (k_chost k), (k_blob k), a, sig, data, (m_sid s), (m_user s), (m_root s), (userstyle s). subst blob. splits; auto.
  - apply core_sid; tauto.
  - now apply (core_account c).
  - now apply (core_styled c).
  - apply D.
Qed.
Lemma handle_passed : forall c h s r e m sub s' v, core c h s -> hist_bytes h -> ev_bytes e -> handle c false s r (e_body e) (e_ans e) = HRet s' true m sub ->
  (r = RPamAccount /\ m = unknown /\ sub = None) \/ (decides r = true /\ passed c h (e, mkOb r true m sub v) /\ (exists k, m = mname k) /\ (sub = None \/ sub = Some (bs "pam") \/ sub = Some (bs "bsdauth"))).
Proof.
  intros c h s r e m sub s' v I B Be H. destruct r; try (exfalso; revert H; cbn [handle]; unfold quiet, ans_moduli, ans_sign, ans_pwnam, ans_authserv, ans_pam_start, ans_pam_init, ans_pam_query, ans_pam_respond, ans_bsd_query, ans_keyallowed, ans_gss_setup, ans_gss_step, ans_gss_mic, quiet; cbv zeta; intros H; chew H; discriminate H).
  - (* password *) right. split; [reflexivity|]. cbn [handle] in H. unfold ans_passwd in H. destruct (cf_en (mc_auth c) mPasswd) eqn:En; cbn [negb] in H; [|discriminate]. destruct (get_cstr (e_body e)) as [[p rest]|] eqn:G; [|discriminate]. cbv zeta in H. injection H as _ A <- <-.
    apply cstr_wire in G; [|exact Be]. destruct G as (w & E & C & _). unfold auth_password in A. destruct (1024 <? zlen p); [discriminate|]. destruct (is_nil p && negb (cf_empty (mc_auth c))) eqn:Em; [discriminate|]. apply andb_true_iff in A. destruct A as [A A3]. apply andb_true_iff in A. destruct A as [A1 A2]. cbn [add_call m_valid m_root] in A2, A3.
    split; [|split; [destruct (is_nil p && (m_calls s + 1 =? 1)); [exists mNone; reflexivity|exists mPasswd; reflexivity]|auto]]. unfold passed, rq_of. cbn [snd o_rq fst o_meth o_sub]. exists p, (m_user s), (m_root s). splits; auto.
    + exists w, rest. auto.
    + now apply (core_account c).
    + intros R. rewrite R in A3. destruct (cf_root (mc_auth c)); cbn in A3; try discriminate. reflexivity.
    + destruct (is_nil p) eqn:N; cbn [andb]; [|left; split; reflexivity]. apply nil_of in N. destruct (m_calls s + 1 =? 1); [right; split; [exact N|split; reflexivity]|left; split; reflexivity].
    + intros ->. cbn in Em. now destruct (cf_empty (mc_auth c)).
  - (* account *) left. cbn [handle] in H; unfold ans_pam_account in H. destruct (negb (mc_usepam c)); [discriminate|]. injection H as _ _ <- <-. auto.
  - (* free *) right. split; [reflexivity|]. cbn [handle] in H. unfold ans_pam_free in H. destruct (m_pam s) as [okk|] eqn:P; [|discriminate]. injection H as _ -> <- <-. split; [|split; [now exists mKbd|auto]]. unfold passed, rq_of. cbn [snd o_rq o_meth o_sub]. split; [split; reflexivity|].
    rewrite (i_pam _ _ _ I) in P. unfold pam_of in P. destruct (last_of pamish h) as [y|]; [|discriminate]. exists y. split; [reflexivity|]. fold (rq_of y). destruct (rq_of y); try discriminate; [destruct (ok y); discriminate| |]; injection P as P; auto.
  - (* bsd *) right. split; [reflexivity|]. cbn [handle] in H. unfold ans_bsd_respond in H. destruct (negb (cf_en (mc_auth c) mKbd)); [discriminate|]. destruct (m_bsd s) eqn:P; cbn [negb] in H; [|discriminate]. destruct (get_cstr (e_body e)); [|discriminate]. injection H as _ A <- <-. split; [|split; [now exists mKbd|auto]].
    unfold passed, rq_of. cbn [snd o_rq o_meth o_sub]. split; [split; reflexivity|]. split; [exact A|]. rewrite (i_bsd _ _ _ I) in P. unfold bsd_of in P. destruct (last_of bsdish h) as [y|]; [|discriminate]. exists y. split; [reflexivity|]. now apply is_rq_spec.
  - (* verify *) right. split; [reflexivity|]. destruct (keyverify_inv _ _ _ _ _ _ _ _ I B Be H) as (_ & k & sig & data & kb & K & _ & _ & One & -> & ->). symmetry in One. apply andb_true_iff in One. destruct One as [O1 O2]. split; [|split; [eauto|auto]].
    destruct (core_approved c h s k I B K) as (a & A & A1 & A2). unfold passed, rq_of. cbn [snd o_rq o_meth o_sub fst]. split; [exact O1|]. exists (k_type k), (k_cuser k), (k_chost k), (k_blob k), a. split; [exact A|]. split; [split; [now destruct (k_type k)|reflexivity]|]. now apply sk_spec.
  - (* gss *) right. split; [reflexivity|]. cbn [handle] in H. unfold ans_gss_userok in H. cbv zeta in H. destruct (cf_en (mc_auth c) mGss) eqn:En; cbn [negb] in H; [|discriminate]. injection H as _ A <- <-. apply andb_true_iff in A. destruct A as [A A3]. apply andb_true_iff in A. destruct A as [A1 A2]. split; [|split; [now exists mGss|auto]].
    unfold passed, rq_of. cbn [snd o_rq o_meth o_sub]. split; [split; reflexivity|]. split; [exact A3|]. split; [exact En|]. exact (i_gss _ _ _ I A2).
Qed.

(** ** The lists of methods *)
Lemma in_order_app : forall a d1 b d2, in_order a d1 -> in_order b d2 -> in_order (a ++ b) (d1 ++ d2).
Proof.
  intros a d1 b d2 H. revert b d2. induction H as [d1|is d d1 H IH|i is d d1 S H IH]; intros b d2 H2.
  - cbn [app]. induction d1 as [|x d1 IH]; [exact H2|]. cbn [app]. now constructor.
  - cbn [app]. constructor. now apply IH.
  - cbn [app]. apply io_take; [exact S|]. now apply IH.
Qed.
Definition lsound (c : cfg) (ds : list item) (l : list Z) : Prop :=
  l = [] \/ (l <> [] /\ Forall (fun f => f <> []) (split COMMA l) /\ exists L pre, In L (cands c) /\ items L = pre ++ items l /\ in_order pre ds).
Lemma lsound_mono : forall c ds d l, lsound c ds l -> lsound c (ds ++ d) l.
Proof.
  intros c ds d l [E|(N & F & L & pre & I & E & O)]; [now left|right]. split; [exact N|split; [exact F|]]. exists L, pre. split; [exact I|split; [exact E|]]. rewrite <- (app_nil_r pre). apply in_order_app; [exact O|constructor].
Qed.
Lemma satb_nil : forall m sm, m <> [] -> satb (m, sm) (cut_colon []) = false.
Proof. intros m sm N. destruct (satb (m, sm) (cut_colon [])) eqn:E; [|reflexivity]. apply satb_iff in E. destruct E as [E _]. cbn in E. now destruct m. Qed.
Definition clean (m : list Z) (sm : option (list Z)) : Prop := free_of COMMA m /\ free_of COLON m /\ m <> [] /\ nocomma sm.
Lemma lsound_step : forall c ds l m sm, lsound c ds l -> clean m sm ->
  match remove_method l m sm with
  | None => True
  | Some l' => (l' = [] /\ exists L, In L (cands c) /\ in_order (items L) (ds ++ [(m, sm)])) \/ (l' <> [] /\ lsound c (ds ++ [(m, sm)]) l')
  end.
Proof.
  intros c ds l m sm H (Hm & Hm' & Nm & Hs). destruct (split_cons COMMA l) as (f & fs & E). rewrite (remove_spec l f fs m sm E Hm Hm' Hs). destruct H as [-> |(N & F & L & pre & I & EL & O)].
  - cbn in E. injection E as <- <-. rewrite satb_nil by exact Nm. exact Logic.I.
  - destruct (satb (m, sm) (cut_colon f)) eqn:S; [|exact Logic.I]. apply satb_iff in S. pose proof (split_free COMMA l) as Fr. rewrite E in F, Fr. inversion F as [|? ? F1 F2]. inversion Fr as [|? ? _ Fr2]. subst.
    unfold items in EL at 2. rewrite E in EL. cbn [map] in EL.
    assert (O1 : in_order (pre ++ [cut_colon f]) (ds ++ [(m, sm)])) by (apply in_order_app; [exact O|apply io_take; [exact S|constructor]]).
    destruct fs as [|g gs]; [left; split; [reflexivity|]; exists L; split; [exact I|]; rewrite EL; exact O1|right].
    assert (Nj : join COMMA (g :: gs) <> []) by (inversion F2 as [|? ? Ng _]; subst; cbn [join]; destruct gs; [exact Ng|]; destruct g; [congruence|discriminate]).
    split; [exact Nj|]. right. split; [exact Nj|]. rewrite split_join; [|discriminate|exact Fr2]. split; [exact F2|]. exists L, (pre ++ [cut_colon f]). split; [exact I|]. rewrite items_join; [|discriminate|exact Fr2]. split; [rewrite EL, <- app_assoc; reflexivity|exact O1].
Qed.
Lemma update_sound : forall c ds m sm ls ls' fd cp, Forall (lsound c ds) ls -> clean m sm -> update_lists ls m sm = (ls', fd, cp) ->
  Forall (lsound c (ds ++ [(m, sm)])) ls' /\ (cp = true -> exists L, In L (cands c) /\ in_order (items L) (ds ++ [(m, sm)])).
Proof.
  intros c ds m sm ls ls' fd cp H C. revert ls' fd cp. induction H as [|l ls R H IH]; intros ls' fd cp E; cbn [update_lists] in E.
  - injection E as <- <- <-. split; [constructor|discriminate].
  - pose proof (lsound_step c ds l m sm R C) as S. destruct (remove_method l m sm) as [l'|].
    + destruct (is_nil l') eqn:En.
      * injection E as <- <- <-. apply nil_of in En. destruct S as [[_ S]|[N _]]; [|contradiction]. split; [|intros _; exact S]. constructor; [now left|]. eapply Forall_impl; [|exact H]. intros. now apply lsound_mono.
      * destruct S as [[-> _]|[_ S]]; [discriminate|]. destruct (update_lists ls m sm) as [[r f] d]. injection E as <- <- <-. destruct (IH r f d eq_refl) as [I1 I2]. split; [constructor; auto|exact I2].
    + destruct (update_lists ls m sm) as [[r f] d]. injection E as <- <- <-. destruct (IH r f d eq_refl) as [I1 I2]. split; [constructor; [now apply lsound_mono|exact I1]|exact I2].
Qed.
Lemma unknown_clean : clean unknown None.
Proof. repeat split; try (vm_compute; intros H; repeat (destruct H as [H|H]; [discriminate|]); exact H); discriminate. Qed.
Lemma mname_ok : forall k sub, sub = None \/ sub = Some (bs "pam") \/ sub = Some (bs "bsdauth") -> clean (mname k) sub.
Proof.
  intros k sub H. destruct (mname_clean k) as (A & B & C). split; [exact A|split; [exact B|split; [exact C|]]]. destruct H as [-> |[-> | ->]]; cbn; auto; vm_compute; intros H; repeat (destruct H as [H|H]; [discriminate|]); exact H.
Qed.
Lemma unknown_kept : forall c ds ls ls' fd cp, Forall (lsound c ds) ls -> update_lists ls unknown None = (ls', fd, cp) -> fd = false /\ cp = false.
Proof.
  intros c ds ls ls' fd cp H. revert ls' fd cp. induction H as [|l ls R H IH]; intros ls' fd cp E; cbn [update_lists] in E; [injection E as <- <- <-; auto|].
  assert (N : remove_method l unknown None = None).
  { destruct unknown_clean as (Hm & Hm' & Nm & Hs). destruct (split_cons COMMA l) as (f & fs & Es). rewrite (remove_spec l f fs unknown None Es Hm Hm' Hs). destruct R as [-> |(_ & _ & L & pre & I & EL & _)].
    - cbn in Es. injection Es as <- <-. now rewrite satb_nil.
    - destruct (satb (unknown, None) (cut_colon f)) eqn:S; [|reflexivity]. apply satb_iff in S. exfalso. unfold cands in I. apply filter_In in I. destruct I as [_ I]. apply valid_usable in I. destruct I as [_ U].
      unfold items in EL at 2. rewrite Es in EL. cbn [map] in EL. destruct (cut_colon f) as [n so] eqn:Ec. destruct (U n so) as (k & _ & En & _); [rewrite EL; apply in_or_app; right; now left|]. destruct S as [S _]. cbn [fst] in S. rewrite <- S in En. destruct k; discriminate En. }
  rewrite N in E. destruct (update_lists ls unknown None) as [[r f] d]. injection E as <- <- <-. exact (IH r f d eq_refl).
Qed.

(** ** One step *)
Record inv (c : mcfg) (h : hist) (s : mst) : Prop := mkInv {
  v_core : core c h s;
  v_tab : good_tab c (m_tab s);
  v_open : forall r, permitted (m_tab s) r -> is_open c h r;
  v_fail : m_failures s = zlen (filter is_failed h);
  v_max : m_failures s <= cf_max (mc_auth c) \/ m_failures s = 0;
  v_lists : is_nil (eff_lists (mc_auth c)) = false -> Forall (lsound (mc_auth c) (methods_done h)) (m_lists s);
}.
Lemma core_ext : forall c h s s', core c h s -> m_attempt s' = m_attempt s -> m_user s' = m_user s -> m_valid s' = m_valid s -> m_root s' = m_root s -> m_style s' = m_style s -> m_sid s' = m_sid s ->
  m_pam s' = m_pam s -> m_bsd s' = m_bsd s -> m_gss s' = m_gss s -> m_key s' = m_key s -> m_used s' = m_used s -> core c h s'.
Proof.
  intros c h s s' [A B C D E F G H] E1 E2 E3 E4 E5 E6 E7 E8 E9 E10 E11. constructor; unfold already_used in *; rewrite ?E1, ?E2, ?E3, ?E4, ?E5, ?E6, ?E7, ?E8, ?E9, ?E10, ?E11; assumption.
Qed.
Lemma read_spec : forall c h s e en s2 one m sub v, inv c h s -> monitor_read c false s e = Some (en, s2, one, m, sub) ->
  exists s1, handle c false s (en_rq en) (e_body e) (e_ans e) = HRet s1 one m sub /\ e_type e = rq_num (en_rq en) /\ good_ent c en /\ is_open c h (en_rq en) /\
    core c (h ++ [(e, mkOb (en_rq en) one m sub v)]) s2 /\ good_tab c (m_tab s2) /\ (forall r, permitted (m_tab s2) r -> is_open c (h ++ [(e, mkOb (en_rq en) one m sub v)]) r) /\
    m_failures s2 = m_failures s /\ m_lists s2 = m_lists s1 /\ m_valid s2 = m_valid s1 /\ m_root s2 = m_root s1.
Proof.
  intros c h s e en s2 one m sub v I H. unfold monitor_read in H. destruct (find _ (m_tab s)) as [en'|] eqn:Fd; [|discriminate]. apply find_some in Fd. destruct Fd as [In_ Ty]. apply Z.eqb_eq in Ty. destruct (en_permit en') eqn:Pm; cbn [negb] in H; [|discriminate].
  destruct (handle c false s (en_rq en') (e_body e) (e_ans e)) as [|s1 one' m' sub'] eqn:Hd; [discriminate|]. injection H as -> <- -> -> ->.
  assert (Op : is_open c h (en_rq en)) by (apply (v_open _ _ _ I); exists en; auto).
  assert (Ge : good_ent c en) by (destruct (v_tab _ _ _ I) as [G _]; rewrite Forall_forall in G; auto).
  set (x := (e, mkOb (en_rq en) one m sub v)).
  destruct (handle_tab _ _ _ _ _ _ _ _ v (v_tab _ _ _ I) Hd) as [G T]. pose proof (handle_core _ _ _ _ _ _ _ _ _ (mkOb (en_rq en) one m sub v) (v_core _ _ _ I) Op Hd eq_refl eq_refl) as Co. fold x in T, Co.
  destruct (handle_frame _ _ _ _ _ _ _ _ _ Hd) as [Ff _].
  exists s1. split; [exact Hd|]. split; [congruence|]. split; [exact Ge|]. split; [exact Op|].
  assert (Q : forall r, permitted (m_tab s1) r -> (en_once en = true -> r <> en_rq en) -> is_open c (h ++ [x]) r).
  { intros r P Nr. destruct (T r P) as [O|[P0 Nc]]; [now apply open_snoc_opens|]. apply open_snoc_keep; [now apply (v_open _ _ _ I)|]. intros [E D]. change (rq_of x) with (en_rq en) in E. change (ok x) with (a_ok (e_ans e)) in D. destruct Ge as (Ge1 & _). destruct D as [D|[D1 D2]].
    - rewrite <- E, <- Ge1 in D. now apply (Nr D).
    - rewrite D1 in E. apply (Nc E D2 D1). }
  destruct (en_once en) eqn:On.
  - split; [eapply core_ext; [exact Co|reflexivity..]|]. rewrite allow_tab. split; [now apply permit_good|]. split; [|auto]. intros r P. apply permit_permitted in P; [|apply G]. destruct P as [[_ P]|[N P]]; [discriminate|]. apply Q; [exact P|auto].
  - split; [exact Co|]. split; [exact G|]. split; [|auto]. intros r P. apply Q; [exact P|discriminate].
Qed.

Lemma filter_snoc : forall (A : Type) (p : A -> bool) l x, filter p (l ++ [x]) = filter p l ++ (if p x then [x] else []).
Proof. intros A p l x. rewrite filter_app. reflexivity. Qed.
Lemma done_snoc : forall h e o, methods_done (h ++ [(e, o)]) = methods_done h ++ (if decides (o_rq o) && o_one o then [(o_meth o, o_sub o)] else []).
Proof. intros h e o. unfold methods_done. rewrite flat_map_app. cbn [flat_map]. unfold rq_of. cbn [snd]. now rewrite app_nil_r. Qed.
(** The lists after the handler *)
Lemma lists_after : forall c h s r e s1 one m sub, inv c h s -> handle c false s r (e_body e) (e_ans e) = HRet s1 one m sub ->
  is_nil (eff_lists (mc_auth c)) = false -> Forall (lsound (mc_auth c) (methods_done h)) (m_lists s1).
Proof.
  intros c h s r e s1 one m sub I H N. destruct (rq_eq_dec r RPwnam) as [-> |D].
  - cbn [handle] in H. unfold ans_pwnam, quiet in H. destruct (negb (m_attempt s =? 0)); [discriminate|]. destruct (get_cstr (e_body e)) as [[u b']|]; [|discriminate]. destruct (mc_refuse c); [discriminate|]. cbv zeta in H. injection H as <- _ _ _.
    match goal with |- Forall _ (m_lists ?t) => assert (E : m_lists t = match setup_methods_lists (mc_auth c) true with Some ls => ls | None => [] end) by (destruct (mc_pam c && mc_usepam c), (a_pw (e_ans e)); reflexivity); rewrite E; clear E end.
    destruct (setup_methods_lists (mc_auth c) true) as [ls|] eqn:S; [|constructor]. apply setup_cands in S; [|exact N]. subst ls. apply Forall_forall. intros L Il. right. pose proof Il as V. unfold cands in V. apply filter_In in V. destruct V as [_ V]. apply valid_usable in V. destruct V as [Nl U].
    split; [exact Nl|]. split; [|exists L, []; repeat split; [exact Il|constructor]]. apply Forall_forall. intros f If Ef. subst f. destruct (U (fst (cut_colon [])) (snd (cut_colon []))) as (k & _ & Ek & _); [unfold items; apply (in_map cut_colon) in If; exact If|]. cbn in Ek. destruct (mname_clean k) as (_ & _ & Q). contradiction.
  - destruct (handle_frame _ _ _ _ _ _ _ _ _ H) as (_ & F & _). destruct (F D) as (_ & _ & _ & _ & ->). now apply (v_lists _ _ _ I).
Qed.

(** What a request that was answered tells *)
Definition res_ob (r : sres) : option ob := match r with SNext _ o | SEnd o | SDone _ o => Some o | SFatal => None end.
Definition answered (c : mcfg) (h : hist) (e : mev) (o : ob) : Prop :=
  e_type e = rq_num (o_rq o) /\ built c (o_rq o) /\ is_open c h (o_rq o) /\
  (hist_bytes h -> ev_bytes e -> o_one o = true -> o_rq o = RPamAccount \/ (decides (o_rq o) = true /\ passed c h (e, o))) /\
  (hist_bytes h -> ev_bytes e -> o_rq o = RKeyVerify -> verify_facts c h e).
Lemma step_answered : forall c h s e o, inv c h s -> res_ob (mstep c s e) = Some o -> answered c h e o.
Proof.
  intros c h s e o I H. unfold mstep in H. destruct (monitor_read c false s e) as [[[[[en s2] one] m] sub]|] eqn:R; [|discriminate].
  assert (E : exists v, o = mkOb (en_rq en) one m sub v).
  { destruct (multi_step c s2 one m sub) as [[[s3 au] pa]|]; [|injection H as <-; eauto]. destruct (if au then final_check c s3 en m (e_ans e) else Some false) as [au'|]; [|injection H as <-; eauto].
    cbv zeta in H. destruct (cf_max (mc_auth c) <? _) in H; [injection H as <-; eauto|]. destruct au'; [|injection H as <-; eauto]. destruct (_ || _) in H; injection H as <-; eauto. }
  destruct E as (v & ->). clear H. destruct (read_spec c h s e en s2 one m sub v I R) as (s1 & Hd & Ty & (_ & _ & Bu & _) & Op & _). split; [exact Ty|]. split; [exact Bu|]. split; [exact Op|]. cbn [o_rq o_one]. split.
  - intros Bh Be ->. destruct (handle_passed c h s (en_rq en) e m sub s1 v (v_core _ _ _ I) Bh Be Hd) as [(A & _)|(A & B & _)]; auto.
  - intros Bh Be E. rewrite E in Hd. apply (keyverify_inv _ _ _ _ _ _ _ _ (v_core _ _ _ I) Bh Be Hd).
Qed.
(** One round of the loop keeps the invariant *)
Lemma handle_clean : forall c s r b a s1 m sub, handle c false s r b a = HRet s1 true m sub -> (r = RPamAccount /\ m = unknown /\ sub = None) \/ (decides r = true /\ clean m sub).
Proof.
  intros c s r b a s1 m sub H. destruct r; try (exfalso; revert H; cbn [handle]; unfold quiet, ans_moduli, ans_sign, ans_pwnam, ans_authserv, ans_pam_start, ans_pam_init, ans_pam_query, ans_pam_respond, ans_bsd_query, ans_keyallowed, ans_gss_setup, ans_gss_step, ans_gss_mic, quiet; cbv zeta; intros H; chew H; discriminate H).
  - right. split; [reflexivity|]. cbn [handle] in H. unfold ans_passwd in H. destruct (negb (cf_en (mc_auth c) mPasswd)); [discriminate|]. destruct (get_cstr b) as [[p ?]|]; [|discriminate]. cbv zeta in H.
    assert (Em : m = mname mNone \/ m = mname mPasswd) by (destruct (is_nil p && (m_calls (add_call s) =? 1)); [left|right]; congruence). assert (sub = None) by congruence. subst sub. destruct Em as [-> | ->]; apply mname_ok; auto.
  - left. cbn [handle] in H; unfold ans_pam_account in H. destruct (negb (mc_usepam c)); [discriminate|]. injection H as _ _ <- <-. auto.
  - right. split; [reflexivity|]. cbn [handle] in H. unfold ans_pam_free in H. destruct (m_pam s); [|discriminate]. injection H as _ _ <- <-. apply (mname_ok mKbd). auto.
  - right. split; [reflexivity|]. cbn [handle] in H. unfold ans_bsd_respond in H. destruct (negb (cf_en (mc_auth c) mKbd)); [discriminate|]. destruct (negb (m_bsd s)); [discriminate|]. destruct (get_cstr b); [|discriminate]. injection H as _ _ <- <-. apply (mname_ok mKbd). auto.
  - right. split; [reflexivity|]. cbn [handle] in H. unfold ans_keyverify in H. cbv zeta in H. destruct (keyverify_fields b) as [[[? ?] ?]|]; [|discriminate]. destruct (m_key s) as [k|]; [|discriminate]. destruct (negb (beqb (k_blob k) _)); [discriminate|]. destruct (mc_parse c _); [|discriminate].
    match type of H with (if negb ?b then _ else _) = _ => destruct b; cbn [negb] in H; [|discriminate] end. injection H as _ _ <- <-. destruct (k_type k); [apply (mname_ok mPubkey)|apply (mname_ok mHost)]; auto.
  - right. split; [reflexivity|]. cbn [handle] in H. unfold ans_gss_userok in H. cbv zeta in H. destruct (negb (cf_en (mc_auth c) mGss)); [discriminate|]. injection H as _ _ <- <-. apply (mname_ok mGss). auto.
Qed.
(** The state after the lists were updated *)
Lemma multi_spec : forall c h s e en s1 s2 one m sub v, inv c h s -> handle c false s (en_rq en) (e_body e) (e_ans e) = HRet s1 one m sub -> m_lists s2 = m_lists s1 ->
  forall s3 auth partial, multi_step c s2 one m sub = Some (s3, auth, partial) ->
  let o := mkOb (en_rq en) one m sub v in
  (s3 = s2 \/ exists ls, s3 = set_mlists s2 ls) /\
  (is_nil (eff_lists (mc_auth c)) = false -> Forall (lsound (mc_auth c) (methods_done (h ++ [(e, o)]))) (m_lists s3)) /\
  (auth = true -> one = true /\ partial = false /\ (is_nil (eff_lists (mc_auth c)) = false -> exists L, In L (cands (mc_auth c)) /\ in_order (items L) (methods_done (h ++ [(e, o)])))) /\
  (partial = true -> one = true /\ auth = false).
Proof.
  intros c h s e en s1 s2 one m sub v I Hd El s3 auth partial H o. unfold multi_step in H. rewrite done_snoc. unfold o. cbn [o_rq o_one o_meth o_sub]. clear o. destruct one; cbn [negb] in H.
  - destruct (is_nil (eff_lists (mc_auth c))) eqn:N.
    + injection H as <- <- <-. split; [now left|]. split; [discriminate|]. split; [intros _; repeat split; discriminate|discriminate].
    + rewrite El in H. pose proof (lists_after c h s (en_rq en) e s1 true m sub I Hd N) as La. destruct (update_lists (m_lists s1) m sub) as [[ls fd] cp] eqn:U. destruct (handle_clean _ _ _ _ _ _ _ _ Hd) as [(Er & -> & ->)|[Er C]].
      * destruct (unknown_kept _ _ _ _ _ _ La U) as [-> ->]. discriminate.
      * rewrite Er. cbn [andb]. destruct (update_sound _ _ _ _ _ _ _ _ La C U) as [S1 S2]. destruct cp.
        -- injection H as <- <- <-. split; [right; eauto|]. split; [intros _; exact S1|]. split; [intros _; repeat split; intros _; now apply S2|discriminate].
        -- destruct fd; cbn [negb] in H; [|discriminate]. injection H as <- <- <-. split; [right; eauto|]. split; [intros _; exact S1|]. split; [discriminate|auto].
  - injection H as <- <- <-. rewrite andb_false_r, app_nil_r. split; [now left|]. split; [|split; discriminate]. intros N. rewrite El. eapply lists_after; eassumption.
Qed.
Lemma step_inv : forall c h s e s' o, inv c h s -> mstep c s e = SNext s' o -> inv c (h ++ [(e, o)]) s'.
Proof.
  intros c h s e s' o I H. unfold mstep in H. destruct (monitor_read c false s e) as [[[[[en s2] one] m] sub]|] eqn:R; [|discriminate].
  destruct (multi_step c s2 one m sub) as [[[s3 au] pa]|] eqn:M; [|discriminate]. destruct (if au then final_check c s3 en m (e_ans e) else Some false) as [au'|] eqn:Fc; [|discriminate]. cbv zeta in H.
  set (v := if en_decide en then Some (if au' then Accepted else if pa then Partial else Failed) else None) in H.
  set (s4 := if en_decide en && negb pa && negb au' then set_mfail s3 (m_failures s3 + 1) else s3) in H.
  destruct (Z.ltb_spec (cf_max (mc_auth c)) (m_failures s4)) as [|Mx]; [discriminate|]. destruct au'; [destruct (_ || _) in H; discriminate|]. injection H as <- <-.
  destruct (read_spec c h s e en s2 one m sub v I R) as (s1 & Hd & _ & _ & _ & Co & Gt & Op & Ff & El & _ & _).
  destruct (multi_spec c h s e en s1 s2 one m sub v I Hd El s3 au pa M) as (Es & Sl & _ & _).
  assert (C3 : core c (h ++ [(e, mkOb (en_rq en) one m sub v)]) s3 /\ m_tab s3 = m_tab s2 /\ m_failures s3 = m_failures s2).
  { destruct Es as [-> |(ls & ->)]; [auto|]. split; [eapply core_ext; [exact Co|reflexivity..]|split; reflexivity]. }
  destruct C3 as (C3 & T3 & F3).
  assert (C4 : core c (h ++ [(e, mkOb (en_rq en) one m sub v)]) s4 /\ m_tab s4 = m_tab s3 /\ m_lists s4 = m_lists s3 /\ m_failures s4 = m_failures s3 + (if en_decide en && negb pa then 1 else 0)).
  { unfold s4. cbn [negb]. rewrite andb_true_r. destruct (en_decide en && negb pa); [|rewrite Z.add_0_r; auto]. split; [eapply core_ext; [exact C3|reflexivity..]|]. split; [reflexivity|split; reflexivity]. }
  destruct C4 as (C4 & T4 & L4 & F4). constructor.
  - exact C4.
  - now rewrite T4, T3.
  - rewrite T4, T3. exact Op.
  - rewrite F4, F3, Ff, (v_fail _ _ _ I), filter_snoc, zlen_app. f_equal. unfold is_failed, v. cbn [snd o_verdict]. destruct (en_decide en), pa; reflexivity.
  - left. exact Mx.
  - rewrite L4. exact Sl.
Qed.
(** The step that authenticates *)
Definition success (c : mcfg) (h : hist) (e : mev) (o : ob) : Prop :=
  decides (o_rq o) = true /\ o_one o = true /\ o_verdict o = Some Accepted /\
  (hist_bytes h -> ev_bytes e -> passed c h (e, o)) /\
  (hist_bytes h -> ev_bytes e -> exists user root, account h user (Some root) /\ (root = true -> mroot_ok c (a_force (e_ans e)) (o_meth o))) /\
  (mc_pam c = true -> mc_usepam c = true -> a_acct (e_ans e) = Some true) /\
  (multi (mc_auth c) -> exists L, In L (cf_lists (mc_auth c)) /\ usable (mc_auth c) L /\ in_order (items L) (methods_done (h ++ [(e, o)]))).
Lemma root_name_spec : forall c f m, root_name_allowed c f m = true -> mroot_ok c f m.
Proof.
  intros c f m H. unfold root_name_allowed in H. unfold mroot_ok. destruct (cf_root (mc_auth c)); try exact Logic.I; try discriminate H; try exact H. rewrite !orb_true_iff, !beqb_eq in H. tauto.
Qed.
Lemma step_done : forall c h s e s' o, inv c h s -> mstep c s e = SDone s' o -> success c h e o /\ core c (h ++ [(e, o)]) s'.
Proof.
  intros c h s e s' o I H. assert (A : answered c h e o) by (apply (step_answered c h s); [exact I|now rewrite H]). unfold mstep in H. destruct (monitor_read c false s e) as [[[[[en s2] one] m] sub]|] eqn:R; [|discriminate].
  destruct (multi_step c s2 one m sub) as [[[s3 au] pa]|] eqn:M; [|discriminate]. destruct (if au then final_check c s3 en m (e_ans e) else Some false) as [au'|] eqn:Fc; [|discriminate]. cbv zeta in H.
  set (v := if en_decide en then Some (if au' then Accepted else if pa then Partial else Failed) else None) in H.
  set (s4 := if en_decide en && negb pa && negb au' then set_mfail s3 (m_failures s3 + 1) else s3) in H.
  destruct (Z.ltb_spec (cf_max (mc_auth c)) (m_failures s4)) as [|Mx]; [discriminate|]. destruct au'; [|discriminate]. destruct (negb (m_valid s4) || beqb m unknown) eqn:Vd; [discriminate|]. injection H as <- <-.
  destruct (read_spec c h s e en s2 one m sub v I R) as (s1 & Hd & _ & Ge & _ & Co & Gt & Op & Ff & El & Ev & Er). destruct Ge as (_ & Ge & _).
  destruct (multi_spec c h s e en s1 s2 one m sub v I Hd El s3 au pa M) as (Es & _ & Sa & _).
  destruct au; [|discriminate]. destruct (Sa eq_refl) as (-> & -> & Sl). clear Sa. unfold final_check in Fc. destruct (en_decide en) eqn:De; cbn [negb] in Fc; [|discriminate].
  assert (Es4 : s4 = s3) by reflexivity. rewrite Es4 in *. clear Es4. destruct (orb_false_elim _ _ Vd) as [Vs _]. apply negb_false_iff in Vs.
  assert (Co3 : core c (h ++ [(e, mkOb (en_rq en) true m sub v)]) s3) by (destruct Es as [-> |(ls & ->)]; [exact Co|eapply core_ext; [exact Co|reflexivity..]]).
  split; [|exact Co3]. unfold success. cbn [o_rq o_one o_verdict o_meth]. split; [congruence|]. split; [reflexivity|]. split; [reflexivity|].
  destruct A as (_ & _ & _ & Ap & _). split.
  { intros B1 B2. destruct (Ap B1 B2 eq_refl) as [E|[_ P]]; [|exact P]. exfalso. cbn [o_rq] in E. rewrite E in Ge. discriminate Ge. }
  destruct (m_root s3 && negb (root_name_allowed c (a_force (e_ans e)) m)) eqn:Rt; [discriminate|]. split.
  { intros B1 B2. destruct (core_account _ _ _ Co3) as (x & L & P & Q); [apply Forall_app; split; [exact B1|now constructor]|exact Vs|]. exists (m_user s3), (m_root s3). split.
    - exists x. split; [|auto]. rewrite same_last in L; [exact L|]. cbn [o_rq]. intros E. rewrite E in Ge. discriminate Ge.
    - intros E. rewrite E in Rt. cbn [andb] in Rt. apply negb_false_iff in Rt. now apply root_name_spec. }
  split.
  { intros P1 P2. rewrite P1, P2 in Fc. exact Fc. }
  intros Mu. pose proof (proj1 (multi_eff _) Mu) as N. destruct (Sl N) as (L & IL & O). exists L. apply cands_in in IL; [|exact Mu]. tauto.
Qed.
Lemma inv_init : forall c, inv c [] (minit c).
Proof.
  intros c. constructor.
  - apply core_init.
  - unfold minit. cbn [m_tab]. repeat apply permit_good. apply pre_good.
  - intros r P. exists [], []. split; [reflexivity|]. split; [|constructor]. left. split; [reflexivity|]. unfold minit in P. cbn [m_tab] in P. unfold open_at_start.
    repeat (apply permit_permitted in P; [|repeat (rewrite permit_rqs); apply (pre_good c)]; destruct P as [[-> _]|[_ P]]; [auto|]). apply pre_permitted in P. auto.
  - reflexivity.
  - now right.
  - intros _. constructor.
Qed.

(** ** Runs *)
Lemma run_inv : forall c es h s tr f, inv c h s -> mrun c s es = (tr, f) ->
  (forall pre e o post, tr = pre ++ (e, o) :: post -> exists s0, inv c (h ++ pre) s0 /\ res_ob (mstep c s0 e) = Some o) /\
  (forall s', f = FGoing s' -> inv c (h ++ tr) s') /\
  (forall s', f = FAuth s' -> exists pre e o s0, tr = pre ++ [(e, o)] /\ inv c (h ++ pre) s0 /\ mstep c s0 e = SDone s' o).
Proof.
  intros c. induction es as [|e0 es IH]; intros h s tr f I H; cbn [mrun] in H.
  - injection H as <- <-. split; [intros [|]; discriminate|]. rewrite app_nil_r. split; [intros s' [= <-]; exact I|discriminate].
  - destruct (mstep c s e0) as [s1 o1|o1| |s1 o1] eqn:M.
    + destruct (mrun c s1 es) as [tr1 f1] eqn:R. injection H as <- <-. pose proof (step_inv _ _ _ _ _ _ I M) as I1. destruct (IH _ _ _ _ I1 R) as (A & B & C). split; [|split].
      * intros [|x pre] e o post E; cbn [app] in E.
        -- injection E as <- <- _. exists s. rewrite app_nil_r. split; [exact I|now rewrite M].
        -- injection E as <- E2. destruct (A _ _ _ _ E2) as (s0 & A1 & A2). exists s0. rewrite <- app_assoc in A1. auto.
      * intros s' E. specialize (B s' E). now rewrite <- app_assoc in B.
      * intros s' E. destruct (C s' E) as (pre & e & o & s0 & -> & C1 & C2). exists ((e0, o1) :: pre), e, o, s0. split; [reflexivity|]. rewrite <- app_assoc in C1. auto.
    + injection H as <- <-. split; [|split; discriminate]. intros [|x pre] e o post E; [|now destruct pre]. cbn [app] in E. injection E as <- <- <-. exists s. rewrite app_nil_r. split; [exact I|now rewrite M].
    + injection H as <- <-. split; [intros [|]; discriminate|split; discriminate].
    + injection H as <- <-. split; [|split; [discriminate|]].
      * intros [|x pre] e o post E; [|now destruct pre]. cbn [app] in E. injection E as <- <- <-. exists s. rewrite app_nil_r. split; [exact I|now rewrite M].
      * intros s' [= <-]. exists [], e0, o1, s. rewrite app_nil_r. auto.
Qed.
Lemma run_answered : forall c es tr f pre e o post, mrun c (minit c) es = (tr, f) -> tr = pre ++ (e, o) :: post -> answered c pre e o.
Proof.
  intros c es tr f pre e o post H E. destruct (run_inv c es [] (minit c) tr f (inv_init c) H) as (A & _). destruct (A _ _ _ _ E) as (s0 & I & R). now apply (step_answered c pre s0).
Qed.
(** The events answered are the first of those sent *)
Lemma run_events : forall c es s tr f, mrun c s es = (tr, f) -> exists rest, es = map fst tr ++ rest.
Proof.
  intros c. induction es as [|e es IH]; intros s tr f H; cbn [mrun] in H; [injection H as <- <-; now exists []|]. destruct (mstep c s e).
  - destruct (mrun c s0 es) as [tr1 f1] eqn:R. injection H as <- <-. destruct (IH _ _ _ R) as (r & ->). now exists r.
  - injection H as <- <-. now exists es.
  - injection H as <- <-. now exists (e :: es).
  - injection H as <- <-. now exists es.
Qed.
Lemma run_bytes : forall c es s tr f, mrun c s es = (tr, f) -> Forall ev_bytes es -> hist_bytes tr.
Proof.
  intros c es s tr f H B. destruct (run_events _ _ _ _ _ H) as (r & ->). apply Forall_app in B. destruct B as [B _]. unfold hist_bytes. clear - B. induction tr as [|x tr IH]; constructor; inversion B; subst; auto.
Qed.
