(** Proofs about the monitor (C31, C32, C56). *)
From Coq Require Import String.
From Verif Require Import Base Text SshbufModel SshbufSpec Dec Auth2Model Auth2Spec Auth2Proof MonitorModel MonitorSpec.

(** ** Tables *)
Lemma rq_eqb_spec : forall a b, rq_eqb a b = true <-> a = b.
Proof. intros a b. unfold rq_eqb. split; [|intros ->; apply Z.eqb_refl]. destruct a, b; cbn [rq_num]; intros H; try reflexivity; discriminate. Qed.
Lemma rq_eqb_refl : forall a, rq_eqb a a = true.
Proof. intros a. now apply rq_eqb_spec. Qed.
Lemma rq_eq_dec : forall a b : rq, {a = b} + {a <> b}.
Proof. decide equality. Qed.
Definition permitted (t : list ent) (r : rq) : Prop := exists en, In en t /\ en_rq en = r /\ en_permit en = true.
Definition good_ent (c : mcfg) (en : ent) : Prop :=
  en_once en = once (en_rq en) /\ en_decide en = decides (en_rq en) /\ built c (en_rq en) /\
  (en_isauth en = true -> decides (en_rq en) = true \/ en_rq en = RBsdQuery \/ en_rq en = RKeyAllowed \/ en_rq en = RGssSetup).
Definition good_tab (c : mcfg) (t : list ent) : Prop := Forall (good_ent c) t /\ NoDup (map en_rq t).
Lemma permit_rqs : forall t r b, map en_rq (permit t r b) = map en_rq t.
Proof. induction t as [|e t IH]; intros r b; [reflexivity|]. cbn [permit]. destruct (rq_eqb (en_rq e) r); [reflexivity|]. cbn [map]. now rewrite IH. Qed.
Lemma permit_good : forall c t r b, good_tab c t -> good_tab c (permit t r b).
Proof.
  intros c t r b [F N]. split; [|now rewrite permit_rqs]. clear N. induction F as [|e t G F IH]; [constructor|]. cbn [permit]. destruct (rq_eqb (en_rq e) r); constructor; auto.
Qed.
Lemma permit_auth_good : forall c t, good_tab c t -> good_tab c (permit_auth t).
Proof.
  intros c t [F N]. split.
  - clear N. unfold permit_auth. induction F as [|e t G F IH]; [constructor|]. cbn [map]. constructor; [|exact IH]. destruct (en_isauth e || en_decide e); exact G.
  - replace (map en_rq (permit_auth t)) with (map en_rq t); [exact N|]. unfold permit_auth. rewrite map_map. apply map_ext. intros e. now destruct (en_isauth e || en_decide e).
Qed.
Lemma permit_permitted : forall t r b r', NoDup (map en_rq t) -> permitted (permit t r b) r' -> (r' = r /\ b = true) \/ (r' <> r /\ permitted t r').
Proof.
  induction t as [|e t IH]; intros r b r' N (en & I & E & P); [destruct I|]. cbn [map] in N. inversion N as [|? ? N1 N2]. subst. cbn [permit] in I.
  destruct (rq_eqb (en_rq e) r) eqn:Q.
  - apply rq_eqb_spec in Q. destruct I as [<- |I].
    + cbn [set_permit en_rq en_permit] in *. left. auto.
    + right. split; [|exists en; split; [now right|auto]]. intros Eq. apply N1. rewrite Q, <- Eq. now apply in_map.
  - destruct I as [<- |I].
    + right. split; [intros Eq; rewrite Eq, rq_eqb_refl in Q; discriminate|exists e; split; [now left|auto]].
    + destruct (IH r b (en_rq en) N2) as [A|[A (en' & B)]]; [exists en; auto|auto|right; split; [exact A|]]. exists en'. split; [now right|apply B].
Qed.
Lemma permit_auth_permitted : forall c t r, good_tab c t -> permitted (permit_auth t) r ->
  permitted t r \/ decides r = true \/ r = RBsdQuery \/ r = RKeyAllowed \/ r = RGssSetup.
Proof.
  intros c t r [F _] (en & I & E & P). unfold permit_auth in I. apply in_map_iff in I. destruct I as (e & Ee & I). rewrite Forall_forall in F. destruct (F e I) as (_ & D & _ & A).
  destruct (en_isauth e || en_decide e) eqn:Q.
  - subst en. cbn [set_permit en_rq] in E. subst r. right. apply orb_true_iff in Q. destruct Q as [Q|Q]; [exact (A Q)|left; congruence].
  - subst en. left. exists e. auto.
Qed.
Lemma pre_good : forall c, good_tab c (preauth_table c).
Proof.
  intros c. unfold preauth_table. split.
  - destruct (mc_pam c) eqn:E1, (mc_audit c) eqn:E2, (mc_bsd c) eqn:E3, (cf_gss (mc_auth c)) eqn:E4; cbn [app];
      repeat (apply Forall_cons; [unfold good_ent; cbn; intuition discriminate|]); constructor.
  - destruct (mc_pam c), (mc_audit c), (mc_bsd c), (cf_gss (mc_auth c)); cbn [app map en_rq]; repeat (constructor; [cbn [In]; intuition discriminate|]); constructor.
Qed.
Lemma pre_permitted : forall c r, permitted (preauth_table c) r -> r = RAudit.
Proof.
  intros c r (en & I & E & P). unfold preauth_table in I.
  assert (Z : forall t, In en t -> forallb (fun en => negb (en_permit en) || rq_eqb (en_rq en) RAudit) t = true -> r = RAudit).
  { intros t J F. rewrite forallb_forall in F. specialize (F en J). cbv beta in F. rewrite P in F. cbn [negb orb] in F. apply rq_eqb_spec in F. congruence. }
  apply (Z _ I). destruct (mc_pam c), (mc_audit c), (mc_bsd c), (cf_gss (mc_auth c)); reflexivity.
Qed.

(** ** Histories *)
Lemma last_of_snoc : forall p h x, last_of p (h ++ [x]) = if p x then Some x else last_of p h.
Proof. intros p h x. unfold last_of. rewrite rev_app_distr. cbn [rev app find]. destruct (p x); reflexivity. Qed.
Lemma last_of_in : forall p h x, last_of p h = Some x -> In x h /\ p x = true.
Proof. intros p h x H. unfold last_of in H. apply find_some in H. destruct H as [H1 H2]. split; [now apply in_rev|exact H2]. Qed.
Lemma is_rq_spec : forall r x, is_rq r x = true <-> rq_of x = r.
Proof. intros r x. unfold is_rq. apply rq_eqb_spec. Qed.
Lemma open_snoc_opens : forall c h x r, opens c x r -> is_open c (h ++ [x]) r.
Proof. intros c h x r H. exists (h ++ [x]), []. rewrite app_nil_r. split; [reflexivity|split; [right; eauto|constructor]]. Qed.
Lemma open_snoc_keep : forall c h x r, is_open c h r -> ~ closes x r -> is_open c (h ++ [x]) r.
Proof.
  intros c h x r (a & b & -> & H & F) N. exists a, (b ++ [x]). rewrite app_assoc. split; [reflexivity|split; [exact H|]]. apply Forall_app. split; [exact F|constructor; auto].
Qed.

(** ** What each handler does *)
(** To the table *)
Definition noclose (r : rq) (a : mans) (r' : rq) : Prop := r = RGssStep -> a_ok a = true -> r' <> RGssStep.
Lemma allow_tab : forall s r b, m_tab (allow s r b) = permit (m_tab s) r b. Proof. reflexivity. Qed.
Ltac fields := cbn [m_tab set_tab set_sid set_mfail set_style set_account set_mlists add_call set_pam set_bsd set_mgss set_key set_used allow] in *.
Ltac tabsame := first [reflexivity|match goal with |- m_tab (if ?b then _ else _) = _ => destruct b; reflexivity|  |- m_tab (set_key (if ?b then _ else _) _) = _ => destruct b; reflexivity end].
Ltac chew H := repeat match type of H with
  | HFatal = HRet _ _ _ _ => discriminate H
  | HRet _ _ _ _ = HRet _ _ _ _ => injection H as <- <- <- <-
  | context [match ?x with _ => _ end] => match x with
      | get_str _ => destruct x as [[? ?]|]
      | get_cstr _ => destruct x as [[? ?]|]
      | get_int _ _ => destruct x as [[? ?]|]
      | _ => destruct x eqn:?
      end
  end.
Lemma handle_tab : forall c s r e one m sub s' v, good_tab c (m_tab s) -> handle c false s r (e_body e) (e_ans e) = HRet s' one m sub ->
  good_tab c (m_tab s') /\
  forall r', permitted (m_tab s') r' -> opens c (e, mkOb r one m sub v) r' \/ (permitted (m_tab s) r' /\ noclose r (e_ans e) r').
Proof.
  intros c s r e one m sub s' v G H.
  assert (K : m_tab s' = m_tab s -> (r = RGssStep -> a_ok (e_ans e) = false) -> good_tab c (m_tab s') /\
    forall r', permitted (m_tab s') r' -> opens c (e, mkOb r one m sub v) r' \/ (permitted (m_tab s) r' /\ noclose r (e_ans e) r')).
  { intros -> X. split; [exact G|]. intros r' P. right. split; [exact P|]. intros Y Z. rewrite X in Z by exact Y. discriminate. }
  assert (P1 : forall t r0 b r', good_tab c t -> permitted (permit t r0 b) r' -> (r' = r0 /\ b = true) \/ (r' <> r0 /\ permitted t r')) by (intros t r0 b r' [_ N]; now apply permit_permitted).
  destruct r; cbn [handle] in H; unfold quiet in H.
  - injection H as <- <- <- <-. apply K; [reflexivity|discriminate].
  - unfold ans_moduli, quiet in H. chew H; (apply K; [tabsame|discriminate]).
  - unfold ans_sign, quiet in H. destruct (sign_fields c (e_body e)) as [[blob data]|]; [|discriminate]. cbv zeta in H. destruct (negb (mc_host c blob)); [discriminate|].
    match type of H with (if ?b then _ else _) = _ => destruct b; [discriminate|] end. destruct (negb (a_ok (e_ans e))); [discriminate|]. injection H as <- <- <- <-.
    assert (T : forall b : bool, m_tab (if b then set_sid s data else s) = m_tab s) by (intros []; reflexivity). rewrite allow_tab, T. split; [now apply permit_good|].
    intros r' P. apply P1 in P; [|exact G]. destruct P as [[-> _]|[N P]]; [left; reflexivity|right]. split; [exact P|intros X; discriminate X].
  - unfold ans_pwnam, quiet in H. destruct (negb (m_attempt s =? 0)); [discriminate|]. destruct (get_cstr (e_body e)) as [[u b']|]; [|discriminate]. destruct (mc_refuse c); [discriminate|]. cbv zeta in H. injection H as <- <- <- <-.
    set (s1 := match a_pw (e_ans e) with Some root => _ | None => _ end). assert (T : m_tab s1 = m_tab s) by (unfold s1; destruct (a_pw (e_ans e)); reflexivity). clearbody s1.
    assert (G2 : good_tab c (permit (permit (m_tab s1) RAuthServ true) RBanner true)) by (rewrite T; now do 2 apply permit_good).
    assert (Q : forall r', permitted (permit (permit (m_tab s1) RAuthServ true) RBanner true) r' -> r' = RAuthServ \/ r' = RBanner \/ permitted (m_tab s) r').
    { intros r' P. apply P1 in P; [|rewrite T; now apply permit_good]. destruct P as [[-> _]|[_ P]]; [auto|]. apply P1 in P; [|now rewrite T]. rewrite T in P. intuition. }
    destruct (mc_pam c && mc_usepam c) eqn:B; rewrite ?allow_tab.
    + split; [now apply permit_good|]. intros r' P. apply P1 in P; [|exact G2]. destruct P as [[-> _]|[_ P]].
      * left. right. right. split; [reflexivity|]. apply andb_true_iff in B. apply B.
      * destruct (Q r' P) as [E|[E|P']]; [left; cbn; auto|left; cbn; auto|right]. split; [exact P'|intros X; discriminate X].
    + split; [exact G2|]. intros r' P. destruct (Q r' P) as [E|[E|P']]; [left; cbn; auto|left; cbn; auto|right]. split; [exact P'|intros X; discriminate X].
  - unfold ans_authserv, quiet in H. destruct (get_cstr (e_body e)) as [[u b']|]; [|discriminate]. destruct (get_cstr b') as [[y ?]|]; [|discriminate]. injection H as <- <- <- <-.
    change (m_tab (set_style (set_tab s (permit_auth (m_tab s))) (if is_nil y then None else Some y))) with (permit_auth (m_tab s)). split; [now apply permit_auth_good|].
    intros r' P. apply (permit_auth_permitted c) in P; [|exact G]. destruct P as [P|P]; [right; split; [exact P|intros X; discriminate X]|left; exact P].
  - injection H as <- <- <- <-. apply K; [reflexivity|discriminate].
  - unfold ans_passwd in H. chew H; (apply K; [tabsame|discriminate]).
  - unfold ans_pam_start, quiet in H. destruct (negb (mc_usepam c)); [discriminate|]. cbv zeta in H. injection H as <- <- <- <-. destruct (cf_en (mc_auth c) mKbd) eqn:B; rewrite ?allow_tab.
    + split; [now do 2 apply permit_good|]. intros r' P. apply P1 in P; [|now apply permit_good]. destruct P as [[-> _]|[_ P]]; [left; cbn; auto|]. apply P1 in P; [|exact G]. destruct P as [[-> _]|[_ P]]; [left; cbn; auto|right]. split; [exact P|intros X; discriminate X].
    + split; [now apply permit_good|]. intros r' P. apply P1 in P; [|exact G]. destruct P as [[-> _]|[_ P]]; [left; cbn; auto|right]. split; [exact P|intros X; discriminate X].
  - unfold ans_pam_account in H. chew H; (apply K; [tabsame|discriminate]).
  - unfold ans_pam_init, quiet in H. destruct (negb (cf_en (mc_auth c) mKbd)); [discriminate|]. destruct (m_pam s); [discriminate|]. destruct (a_ok (e_ans e)) eqn:A; injection H as <- <- <- <-; [|apply K; [reflexivity|discriminate]].
    rewrite !allow_tab. change (m_tab (set_pam s (Some false))) with (m_tab s). split; [now do 2 apply permit_good|]. intros r' P. apply P1 in P; [|now apply permit_good]. destruct P as [[-> _]|[_ P]]; [left; cbn; auto|]. apply P1 in P; [|exact G].
    destruct P as [[-> _]|[_ P]]; [left; cbn; auto|right]. split; [exact P|intros X; discriminate X].
  - unfold ans_pam_query in H. destruct (m_pam s); [|discriminate]. injection H as <- <- <- <-. rewrite allow_tab. change (m_tab (set_pam s (Some (a_ok (e_ans e))))) with (m_tab s). split; [now apply permit_good|].
    intros r' P. apply P1 in P; [|exact G]. destruct P as [[-> _]|[_ P]]; [left; cbn; auto|right]. split; [exact P|intros X; discriminate X].
  - unfold ans_pam_respond in H. chew H; (apply K; [tabsame|discriminate]).
  - unfold ans_pam_free in H. destruct (m_pam s); [|discriminate]. injection H as <- <- <- <-. rewrite allow_tab. change (m_tab (set_pam s None)) with (m_tab s). split; [now apply permit_good|].
    intros r' P. apply P1 in P; [|exact G]. destruct P as [[-> _]|[_ P]]; [left; cbn; auto|right]. split; [exact P|intros X; discriminate X].
  - chew H; (apply K; [tabsame|discriminate]).
  - unfold ans_bsd_query, quiet in H. chew H; (apply K; [tabsame|discriminate]).
  - unfold ans_bsd_respond in H. chew H; (apply K; [tabsame|discriminate]).
  - unfold ans_keyallowed in H. chew H; (apply K; [tabsame|discriminate]).
  - unfold ans_keyverify in H. cbv zeta in H. chew H; (apply K; [tabsame|discriminate]).
  - unfold ans_gss_setup, quiet in H. destruct (negb (cf_en (mc_auth c) mGss)); [discriminate|]. destruct (get_str (e_body e)); [|discriminate]. injection H as <- <- <- <-. rewrite allow_tab. split; [now apply permit_good|].
    intros r' P. apply P1 in P; [|exact G]. destruct P as [[-> _]|[_ P]]; [left; cbn; auto|right]. split; [exact P|intros X; discriminate X].
  - unfold ans_gss_step, quiet in H. destruct (negb (cf_en (mc_auth c) mGss)); [discriminate|]. destruct (get_str (e_body e)); [|discriminate]. cbv zeta in H. destruct (a_ok (e_ans e)) eqn:A; injection H as <- <- <- <-; [|apply K; [reflexivity|reflexivity]].
    rewrite !allow_tab. replace (m_tab (if a_force (e_ans e) then set_mgss s true else s)) with (m_tab s) by (destruct (a_force (e_ans e)); reflexivity). split; [now do 3 apply permit_good|].
    intros r' P. apply P1 in P; [|now do 2 apply permit_good]. destruct P as [[-> _]|[_ P]]; [left; cbn; auto|]. apply P1 in P; [|now apply permit_good]. destruct P as [[-> _]|[_ P]]; [left; cbn; auto|].
    apply P1 in P; [|exact G]. destruct P as [[_ P]|[N P]]; [discriminate|right]. split; [exact P|intros _ _; exact N].
  - unfold ans_gss_userok in H. cbv zeta in H. destruct (negb (cf_en (mc_auth c) mGss)); [discriminate|]. injection H as <- <- <- <-. apply K; [|discriminate]. match goal with |- m_tab (if ?b then _ else _) = _ => destruct b; reflexivity end.
  - unfold ans_gss_mic, quiet in H. destruct (negb (cf_en (mc_auth c) mGss)); [discriminate|]. destruct (get_str (e_body e)) as [[u b']|]; [|discriminate]. destruct (get_str b'); [|discriminate]. injection H as <- <- <- <-.
    destruct (a_ok (e_ans e)) eqn:A; [|apply K; [reflexivity|discriminate]]. rewrite allow_tab. split; [now apply permit_good|].
    intros r' P. apply P1 in P; [|exact G]. destruct P as [[-> _]|[_ P]]; [left; cbn; auto|right]. split; [exact P|intros X; discriminate X].
  - injection H as <- <- <- <-. apply K; [reflexivity|discriminate].
  - chew H. apply K; [reflexivity|discriminate].
  - discriminate.
  - chew H. apply K; [reflexivity|discriminate].
Qed.
