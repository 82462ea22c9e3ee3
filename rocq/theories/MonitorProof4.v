(** Proofs about the monitor, continued: once-only requests, distinct keys, host key
    signatures, after authentication. *)
From Coq Require Import String.
From Verif Require Import Base Text SshbufModel SshbufSpec Dec Auth2Model Auth2Spec Auth2Proof MonitorModel MonitorSpec MonitorProof MonitorProof2 MonitorProof3.

(** ** Once *)
Definition ordered (c : mcfg) (tr : hist) : Prop := forall pre x post, tr = pre ++ x :: post -> is_open c pre (rq_of x).
Definition amo (tr : hist) (r : rq) : Prop := forall a x b y d, tr = a ++ x :: b ++ y :: d -> rq_of x = r -> rq_of y = r -> False.
Lemma run_ordered : forall c es tr f, mrun c (minit c) es = (tr, f) -> ordered c tr.
Proof. intros c es tr f H pre [e o] post E. destruct (run_answered _ _ _ _ _ _ _ _ H E) as (_ & _ & O & _). exact O. Qed.
Lemma amo_start : forall c tr r, ordered c tr -> once r = true -> (forall x, ~ opens c x r) -> amo tr r.
Proof.
  intros c tr r O On N a x b y d E Rx Ry. destruct (O (a ++ x :: b) y d) as (bef & aft & E1 & H & F); [rewrite <- app_assoc; exact E|]. rewrite Ry in *. destruct H as [[-> _]|(b0 & z & _ & Oz)]; [|now apply (N z)]. cbn [app] in E1. subst aft.
  rewrite Forall_forall in F. apply (F x); [apply in_or_app; right; now left|]. split; [exact Rx|now left].
Qed.
Lemma amo_step : forall c tr p r, ordered c tr -> amo tr p -> p <> r -> once r = true -> ~ open_at_start r -> (forall x, opens c x r -> rq_of x = p) -> amo tr r.
Proof.
  intros c tr p r O Ap Np On Ns Op a x b y d E Rx Ry.
  destruct (O (a ++ x :: b) y d) as (bef & aft & E1 & H & F); [rewrite <- app_assoc; exact E|]. rewrite Ry in H, F. destruct H as [[_ H]|(b0 & z & -> & Oz)]; [contradiction|]. apply Op in Oz.
  destruct (O a x (b ++ y :: d) E) as (bef2 & aft2 & E2 & H2 & _). rewrite Rx in H2. destruct H2 as [[_ H2]|(b2 & z2 & -> & Oz2)]; [contradiction|]. apply Op in Oz2.
  assert (Nx : ~ In x aft) by (intros I; rewrite Forall_forall in F; apply (F x I); split; [exact Rx|now left]).
  apply app_eq_app in E1. destruct E1 as (l & [[E3 E4]|[E3 E4]]).
  - apply Nx. rewrite E4. apply in_or_app. right. now left.
  - destruct l as [|w l]; [apply Nx; cbn [app] in E4; subst aft; now left|]. cbn [app] in E4. injection E4 as <- E4. induction l as [|w l' _] using rev_ind.
    + apply app_inj_tail in E3. destruct E3 as [_ <-]. congruence.
    + change (x :: l' ++ [w]) with ((x :: l') ++ [w]) in E3. rewrite app_assoc in E3. apply app_inj_tail in E3. destruct E3 as [_ <-].
      apply (Ap b2 z2 (aft2 ++ x :: l') z (aft ++ y :: d)); [|exact Oz2|exact Oz]. rewrite E, E2, E4. repeat (rewrite <- app_assoc; cbn [app]). reflexivity.
Qed.
Lemma once_all : forall c tr, ordered c tr -> amo tr RState /\ amo tr RModuli /\ amo tr RSign /\ amo tr RPwnam /\ amo tr RAuthServ /\ amo tr RBanner /\ amo tr RPamStart.
Proof.
  intros c tr O.
  assert (St : amo tr RSign) by (apply (amo_start c); [exact O|reflexivity|intros x H; unfold opens in H; destruct (rq_of x); cbn [decides] in H; intuition discriminate]).
  assert (Pw : amo tr RPwnam).
  { apply (amo_step c tr RSign); [exact O|exact St|discriminate|reflexivity|unfold open_at_start; intuition discriminate|]. intros x H. unfold opens in H. destruct (rq_of x); cbn [decides] in H; try reflexivity; intuition discriminate. }
  repeat split; auto.
  - apply (amo_start c); [exact O|reflexivity|intros x H; unfold opens in H; destruct (rq_of x); cbn [decides] in H; intuition discriminate].
  - apply (amo_start c); [exact O|reflexivity|intros x H; unfold opens in H; destruct (rq_of x); cbn [decides] in H; intuition discriminate].
  - apply (amo_step c tr RPwnam); [exact O|exact Pw|discriminate|reflexivity|unfold open_at_start; intuition discriminate|]. intros x H. unfold opens in H. destruct (rq_of x); cbn [decides] in H; try reflexivity; intuition discriminate.
  - apply (amo_step c tr RPwnam); [exact O|exact Pw|discriminate|reflexivity|unfold open_at_start; intuition discriminate|]. intros x H. unfold opens in H. destruct (rq_of x); cbn [decides] in H; try reflexivity; intuition discriminate.
  - apply (amo_step c tr RPwnam); [exact O|exact Pw|discriminate|reflexivity|unfold open_at_start; intuition discriminate|]. intros x H. unfold opens in H. destruct (rq_of x); cbn [decides] in H; try reflexivity; intuition discriminate.
Qed.

(** ** Failures *)
Lemma run_failures : forall c es h s tr f, inv c h s -> 0 <= cf_max (mc_auth c) -> mrun c s es = (tr, f) -> zlen (filter is_failed (h ++ tr)) <= cf_max (mc_auth c) + 1.
Proof.
  intros c. induction es as [|e es IH]; intros h s tr f I M H; cbn [mrun] in H.
  - injection H as <- _. rewrite app_nil_r, <- (v_fail _ _ _ I). destruct (v_max _ _ _ I); lia.
  - assert (One : forall x, zlen (filter is_failed (h ++ [x])) <= cf_max (mc_auth c) + 1).
    { intros x. rewrite filter_snoc, zlen_app, <- (v_fail _ _ _ I). assert (zlen (if is_failed x then [x] else []) <= 1) by (destruct (is_failed x); cbn; lia). destruct (v_max _ _ _ I); lia. }
    destruct (mstep c s e) eqn:S.
    + destruct (mrun c s0 es) as [tr1 f1] eqn:R. injection H as <- <-. replace (h ++ (e, o) :: tr1) with ((h ++ [(e, o)]) ++ tr1) by (rewrite <- app_assoc; reflexivity). eapply IH; [eapply step_inv; eassumption|exact M|exact R].
    + injection H as <- _. apply One.
    + injection H as <- _. rewrite app_nil_r, <- (v_fail _ _ _ I). destruct (v_max _ _ _ I); lia.
    + injection H as <- _. apply One.
Qed.

(** ** The handler behind an answered request *)
Lemma ob_handle : forall c h s e o, inv c h s -> res_ob (mstep c s e) = Some o -> exists s1, handle c false s (o_rq o) (e_body e) (e_ans e) = HRet s1 (o_one o) (o_meth o) (o_sub o).
Proof.
  intros c h s e o I H. unfold mstep in H. destruct (monitor_read c false s e) as [[[[[en s2] one] m] sub]|] eqn:R; [|discriminate].
  assert (E : exists v, o = mkOb (en_rq en) one m sub v).
  { destruct (multi_step c s2 one m sub) as [[[s3 au] pa]|]; [|injection H as <-; eauto]. destruct (if au then final_check c s3 en m (e_ans e) else Some false) as [au'|]; [|injection H as <-; eauto].
    cbv zeta in H. destruct (cf_max (mc_auth c) <? _) in H; [injection H as <-; eauto|]. destruct au'; [|injection H as <-; eauto]. destruct (_ || _) in H; injection H as <-; eauto. }
  destruct E as (v & ->). destruct (read_spec c h s e en s2 one m sub v I R) as (s1 & Hd & _). now exists s1.
Qed.
Lemma run_handle : forall c es tr f pre e o post, mrun c (minit c) es = (tr, f) -> tr = pre ++ (e, o) :: post ->
  exists s0 s1, inv c pre s0 /\ handle c false s0 (o_rq o) (e_body e) (e_ans e) = HRet s1 (o_one o) (o_meth o) (o_sub o).
Proof.
  intros c es tr f pre e o post H E. destruct (run_inv c es [] (minit c) tr f (inv_init c) H) as (A & _). destruct (A _ _ _ _ E) as (s0 & I & R). destruct (ob_handle _ _ _ _ _ I R) as (s1 & Hd). exists s0, s1. auto.
Qed.

(** ** Keys *)
Lemma keys_distinct : forall c es tr f a e1 o1 b e2 o2 d, mrun c (minit c) es = (tr, f) -> Forall ev_bytes es -> tr = a ++ (e1, o1) :: b ++ (e2, o2) :: d ->
  o_rq o1 = RKeyVerify -> o_one o1 = true -> o_rq o2 = RKeyVerify ->
  exists blob1 sig1 data1 key1 blob2 sig2 data2, keyverify_body (e_body e1) blob1 sig1 data1 /\ mc_parse c blob1 = Some key1 /\ keyverify_body (e_body e2) blob2 sig2 data2 /\ mc_same c blob2 key1 = false.
Proof.
  intros c es tr f a e1 o1 b e2 o2 d H B E R1 One1 R2. pose proof (run_bytes _ _ _ _ _ H B) as Bt. rewrite E in Bt. unfold hist_bytes in Bt. apply Forall_app in Bt. destruct Bt as [Ba Bt]. inversion Bt as [|? ? B1 Bt2]; subst. apply Forall_app in Bt2. destruct Bt2 as [Bb Bt3]. inversion Bt3 as [|? ? B2 _]; subst. cbn [fst] in B1, B2.
  destruct (run_handle _ _ _ _ _ _ _ _ H eq_refl) as (s & s1 & I & Hd). rewrite R1 in Hd. destruct (keyverify_inv _ _ _ _ _ _ _ _ (v_core _ _ _ I) Ba B1 Hd) as (_ & k & sig & data & kb & _ & F1 & P1 & _).
  assert (E' : a ++ (e1, o1) :: b ++ (e2, o2) :: d = (a ++ (e1, o1) :: b) ++ (e2, o2) :: d) by (rewrite <- app_assoc; reflexivity). destruct (run_handle _ _ _ _ _ _ _ _ H E') as (t & t1 & J & Hd2). rewrite R2 in Hd2.
  assert (Bh : hist_bytes (a ++ (e1, o1) :: b)) by (apply Forall_app; split; [exact Ba|constructor; auto]). destruct (keyverify_inv _ _ _ _ _ _ _ _ (v_core _ _ _ J) Bh B2 Hd2) as (_ & k2 & sig2 & data2 & kb2 & K2 & F2 & P2 & _).
  assert (U : In kb (m_used t)) by (eapply (i_used _ _ _ (v_core _ _ _ J) (e1, o1)); [apply in_or_app; right; left; reflexivity|exact R1|exact One1|exact F1|exact P1]).
  destruct (i_key _ _ _ (v_core _ _ _ J) k2 K2) as (? & ? & _ & _ & _ & _ & _ & _ & _ & Au & _).
  exists (k_blob k), sig, data, kb, (k_blob k2), sig2, data2. split; [now apply keyverify_wire|]. split; [exact P1|]. split; [now apply keyverify_wire|]. unfold already_used in Au. destruct (mc_same c (k_blob k2) kb) eqn:S; [|reflexivity]. exfalso.
  assert (X : existsb (mc_same c (k_blob k2)) (m_used t) = true) by (apply existsb_exists; eauto). rewrite X in Au. discriminate.
Qed.

(** ** Host key signatures *)
Lemma sign_pre : forall c es tr f pre e o post, mrun c (minit c) es = (tr, f) -> Forall ev_bytes es -> tr = pre ++ (e, o) :: post -> o_rq o = RSign ->
  exists blob data, sign_body c (e_body e) blob data /\ mc_host c blob = true /\ hash_len (zlen data) = true.
Proof.
  intros c es tr f pre e o post H B E R. assert (Be : ev_bytes e) by (pose proof (run_bytes _ _ _ _ _ H B) as Bt; unfold hist_bytes in Bt; rewrite E, Forall_app in Bt; destruct Bt as [_ Bt]; inversion Bt; subst; assumption).
  destruct (run_answered _ _ _ _ _ _ _ _ H E) as (_ & _ & O & _). destruct (run_handle _ _ _ _ _ _ _ _ H E) as (s & s1 & I & Hd). rewrite R in O, Hd. pose proof (i_sid _ _ _ (v_core _ _ _ I)) as Sd. rewrite (open_sign _ _ O) in Sd.
  cbn [handle] in Hd. unfold ans_sign, quiet in Hd. destruct (sign_fields c (e_body e)) as [[blob data]|] eqn:F; [|discriminate]. cbv zeta in Hd. destruct (mc_host c blob) eqn:Mh; cbn [negb] in Hd; [|discriminate]. rewrite Sd in Hd. change (zlen (@nil Z) =? 0) with true in Hd. rewrite orb_true_l, andb_true_r in Hd.
  destruct (hash_len (zlen data)) eqn:Hl; cbn [negb] in Hd; [|discriminate]. exists blob, data. split; [now apply sign_wire|auto].
Qed.

(** ** After authentication *)
Definition post_ok (c : mcfg) (pty : bool) (r : rq) : Prop :=
  r = RModuli \/ r = RSign \/ ((r = RAudit \/ r = RAuditCmd) /\ mc_audit c = true) \/ ((r = RPty \/ r = RPtyCleanup) /\ pty = true).
Definition ptab (c : mcfg) (pty : bool) (t : list ent) : Prop := NoDup (map en_rq t) /\ ~ In RPwnam (map en_rq t) /\ forall r, permitted t r -> r = RState \/ r = RTerm \/ post_ok c pty r.
Lemma permit_absent : forall t r b, ~ In r (map en_rq t) -> permit t r b = t.
Proof. induction t as [|e t IH]; intros r b N; cbn [permit]; [reflexivity|]. cbn [map In] in N. destruct (rq_eqb (en_rq e) r) eqn:E; [apply rq_eqb_spec in E; tauto|]. rewrite IH; tauto. Qed.
Lemma post_nodup : forall c, NoDup (map en_rq (postauth_table c)) /\ ~ In RPwnam (map en_rq (postauth_table c)).
Proof. intros c. unfold postauth_table. destruct (mc_audit c); cbn; split; repeat constructor; cbn; intuition discriminate. Qed.
Lemma ptab_init : forall c pty s, ptab c pty (m_tab (post_init c pty s)).
Proof.
  intros c pty s. unfold post_init. destruct (post_nodup c) as [N1 N2].
  assert (P0 : forall r, permitted (postauth_table c) r -> (r = RAudit \/ r = RAuditCmd) /\ mc_audit c = true).
  { intros r (en & I & <- & P). unfold postauth_table in I. apply in_app_or in I. destruct I as [I|I]; [cbn in I; decompose [or] I; subst; try discriminate; contradiction|]. destruct (mc_audit c); [|destruct I]. cbn in I. decompose [or] I; subst; cbn; auto. contradiction. }
  set (t := permit (permit (permit (permit (postauth_table c) RState true) RModuli true) RSign true) RTerm true).
  assert (R : map en_rq t = map en_rq (postauth_table c)) by (unfold t; now rewrite !permit_rqs).
  assert (P1 : forall r, permitted t r -> r = RState \/ r = RTerm \/ post_ok c pty r).
  { intros r P. unfold t in P. unfold post_ok. repeat (apply permit_permitted in P; [|rewrite ?permit_rqs; exact N1]; destruct P as [[-> _]|[_ P]]; [auto|]). right. right. right. right. left. now apply P0. }
  clearbody t. assert (Q : ptab c pty t) by (split; [rewrite R; exact N1|split; [rewrite R; exact N2|exact P1]]). destruct pty; [|exact Q]. cbn [m_tab set_tab]. split; [rewrite !permit_rqs, R; exact N1|]. split; [rewrite !permit_rqs, R; exact N2|].
  intros r P. unfold post_ok. apply permit_permitted in P; [|rewrite permit_rqs, R; exact N1]. destruct P as [[-> _]|[_ P]]; [auto 10|]. apply permit_permitted in P; [|rewrite R; exact N1]. destruct P as [[-> _]|[_ P]]; [auto 10|]. now apply P1.
Qed.
Lemma post_spec : forall c pty es s sid, ptab c pty (m_tab s) -> m_sid s = sid -> sid <> [] -> Forall ev_bytes es -> forall e r, In (e, r) (post_run c s es) ->
  post_ok c pty r /\ e_type e = rq_num r /\
  (r = RSign -> exists blob data, sign_body c (e_body e) blob data /\ mc_host c blob = true /\ (hash_len (zlen data) = true \/ data = hostproof sid blob)).
Proof.
  intros c pty. induction es as [|e0 es IH]; intros s sid T Es Ns B e r I; [destruct I|]. inversion B as [|? ? B0 B1]; subst. cbn [post_run] in I. unfold monitor_read in I. destruct (find _ (m_tab s)) as [en|] eqn:Fd; [|destruct I]. apply find_some in Fd. destruct Fd as [In_ Ty]. apply Z.eqb_eq in Ty.
  destruct (en_permit en) eqn:Pm; cbn [negb] in I; [|destruct I]. destruct (handle c true s (en_rq en) (e_body e0) (e_ans e0)) as [|s1 one m sub] eqn:Hd; [destruct I|]. destruct T as (T1 & T2 & T3).
  assert (Pr : en_rq en = RState \/ en_rq en = RTerm \/ post_ok c pty (en_rq en)) by (apply T3; exists en; auto).
  assert (Po : post_ok c pty (en_rq en)) by (destruct Pr as [E|[E|Pr]]; [rewrite E in Hd; discriminate Hd|rewrite E in Hd; discriminate Hd|exact Pr]).
  assert (S1 : ptab c pty (m_tab s1) /\ m_sid s1 = m_sid s /\ (en_rq en = RSign -> exists blob data, sign_body c (e_body e0) blob data /\ mc_host c blob = true /\ (hash_len (zlen data) = true \/ data = hostproof (m_sid s) blob))).
  { assert (Nz : zlen (m_sid s) =? 0 = false) by (destruct (m_sid s); [congruence|]; apply Z.eqb_neq; rewrite zlen_cons; pose proof (zlen_nonneg Z l); lia).
    assert (Sm : s1 = s -> en_rq en <> RSign -> ptab c pty (m_tab s1) /\ m_sid s1 = m_sid s /\ (en_rq en = RSign -> exists blob data, sign_body c (e_body e0) blob data /\ mc_host c blob = true /\ (hash_len (zlen data) = true \/ data = hostproof (m_sid s) blob))) by (intros -> N; split; [split; auto|split; [reflexivity|intros X; contradiction]]).
    destruct Po as [E|[E|[[[E|E] _]|[[E|E] _]]]]; rewrite E in *.
    - cbn [handle] in Hd. unfold ans_moduli, quiet in Hd. chew Hd. apply Sm; [reflexivity|discriminate].
    - cbn [handle] in Hd. unfold ans_sign, quiet in Hd. destruct (sign_fields c (e_body e0)) as [[blob data]|] eqn:F; [|discriminate]. cbv zeta in Hd. destruct (mc_host c blob) eqn:Mh; cbn [negb] in Hd; [|discriminate]. rewrite Nz in Hd. cbn [orb] in Hd.
      destruct (negb (hash_len (zlen data)) && negb (beqb data (hostproof (m_sid s) blob))) eqn:Hl; [discriminate|]. destruct (negb (a_ok (e_ans e0))); [discriminate|]. injection Hd as <- _ _ _. split; [rewrite allow_tab, permit_absent by exact T2; split; auto|]. split; [reflexivity|]. intros _. exists blob, data. split; [now apply sign_wire|]. split; [exact Mh|].
      apply andb_false_iff in Hl. rewrite !negb_false_iff in Hl. destruct Hl as [Hl|Hl]; [now left|right; now apply beqb_eq].
    - cbn [handle] in Hd. unfold quiet in Hd. destruct (a_ok (e_ans e0)); [|discriminate]. injection Hd as <- _ _ _. apply Sm; [reflexivity|discriminate].
    - cbn [handle] in Hd. unfold quiet in Hd. destruct (get_cstr (e_body e0)); [|discriminate]. injection Hd as <- _ _ _. apply Sm; [reflexivity|discriminate].
    - cbn [handle] in Hd. unfold quiet in Hd. injection Hd as <- _ _ _. apply Sm; [reflexivity|discriminate].
    - cbn [handle] in Hd. unfold quiet in Hd. destruct (get_cstr (e_body e0)); [|discriminate]. injection Hd as <- _ _ _. apply Sm; [reflexivity|discriminate]. }
  destruct S1 as (U1 & U2 & U3). destruct I as [I|I].
  - injection I as <- <-. split; [exact Po|]. split; [congruence|exact U3].
  - refine (IH (if en_once en then allow s1 (en_rq en) false else s1) (m_sid s) _ _ Ns B1 e r I); [|now destruct (en_once en)]. destruct (en_once en); [|exact U1]. destruct U1 as (V1 & V2 & V3). rewrite allow_tab. split; [now rewrite permit_rqs|]. split; [now rewrite permit_rqs|]. intros r0 P. apply permit_permitted in P; [|exact V1]. destruct P as [[_ P]|[_ P]]; [discriminate|now apply V3].
Qed.
(** The session id when authentication succeeds *)
Lemma sid_len : forall l : list Z, hash_len (zlen l) = true -> l <> []. Proof. intros l H ->. discriminate H. Qed.
Lemma opened_before : forall c h r, is_open c h r -> ~ open_at_start r -> exists x, In x h /\ opens c x r.
Proof. intros c h r (a & b & -> & [[_ H]|(b0 & x & -> & O)] & _) N; [contradiction|]. exists x. split; [|exact O]. apply in_or_app. left. apply in_or_app. right. now left. Qed.
Lemma auth_sid : forall c es tr s, mrun c (minit c) es = (tr, FAuth s) -> Forall ev_bytes es -> session_id c tr (m_sid s) /\ m_sid s <> [].
Proof.
  intros c es tr s H B. pose proof (run_bytes _ _ _ _ _ H B) as Bt. pose proof (run_ordered _ _ _ _ H) as Or. destruct (run_inv c es [] (minit c) tr _ (inv_init c) H) as (_ & _ & D). destruct (D s eq_refl) as (pre & e & o & s0 & -> & I & Dn). cbn [app] in I. destruct (step_done _ _ _ _ _ _ I Dn) as [Su Co].
  assert (Sg : last_of (is_rq RSign) (pre ++ [(e, o)]) <> None).
  { destruct Su as (_ & _ & _ & _ & Ac & _). unfold hist_bytes in Bt. apply Forall_app in Bt. destruct Bt as [B1 B2]. inversion B2 as [|? ? B3 _]; subst. destruct (Ac B1 B3) as (u & r & (x & L & _) & _). apply last_of_in in L. destruct L as [Ix Rx]. apply is_rq_spec in Rx.
    apply in_split in Ix. destruct Ix as (p1 & p2 & ->). pose proof (Or p1 x (p2 ++ [(e, o)])) as Ox. rewrite <- app_assoc in Ox. specialize (Ox eq_refl). rewrite Rx in Ox. destruct (opened_before _ _ _ Ox) as (y & Iy & Oy); [unfold open_at_start; intuition discriminate|].
    assert (Ry : rq_of y = RSign) by (unfold opens in Oy; destruct (rq_of y); cbn [decides] in Oy; try reflexivity; intuition discriminate).
    intros N. unfold last_of in N. assert (Q : is_rq RSign y = false) by (apply (find_none _ _ N y); apply -> in_rev; apply in_or_app; left; apply in_or_app; now left). rewrite (proj2 (is_rq_spec _ _) Ry) in Q. discriminate. }
  assert (Ns : m_sid s <> []) by (pose proof (i_sid _ _ _ Co) as P; destruct (last_of (is_rq RSign) (pre ++ [(e, o)])); [destruct P as (bl & _ & P); now apply sid_len|congruence]).
  split; [|exact Ns]. apply core_sid; assumption.
Qed.
