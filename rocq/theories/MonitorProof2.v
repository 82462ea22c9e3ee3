(** Proofs about the monitor, continued: the state against the history. *)
From Coq Require Import String.
From Verif Require Import Base Text SshbufModel SshbufSpec Dec Auth2Model Auth2Spec Auth2Proof MonitorModel MonitorSpec MonitorProof.

(** Fields a handler does not touch *)
Definition nopam (r : rq) : bool := match r with RPamInit | RPamQuery | RPamRespond | RPamFree => false | _ => true end.
Lemma handle_frame : forall c s r b a s' one m sub, handle c false s r b a = HRet s' one m sub ->
  m_failures s' = m_failures s /\
  (r <> RPwnam -> m_attempt s' = m_attempt s /\ m_user s' = m_user s /\ m_valid s' = m_valid s /\ m_root s' = m_root s /\ m_lists s' = m_lists s) /\
  (r <> RAuthServ -> m_style s' = m_style s) /\ (r <> RSign -> m_sid s' = m_sid s) /\ (nopam r = true -> m_pam s' = m_pam s) /\
  (r <> RBsdQuery -> r <> RBsdRespond -> m_bsd s' = m_bsd s) /\ (r <> RGssStep -> r <> RGssUserok -> m_gss s' = m_gss s) /\
  (r <> RKeyAllowed -> r <> RKeyVerify -> m_key s' = m_key s) /\ (r <> RKeyVerify -> m_used s' = m_used s).
Proof.
  intros c s r b a s' one m sub H.
  assert (I : forall (B : bool) (x y : mst) (P : mst -> Prop), P x -> P y -> P (if B then x else y)) by (intros [] x y P; auto).
  destruct r; cbn [handle] in H; unfold quiet, ans_moduli, ans_sign, ans_pwnam, ans_authserv, ans_passwd, ans_pam_start, ans_pam_account, ans_pam_init, ans_pam_query, ans_pam_respond, ans_pam_free, ans_bsd_query, ans_bsd_respond, ans_keyallowed, ans_keyverify, ans_gss_setup, ans_gss_step, ans_gss_userok, ans_gss_mic, quiet in H; cbv zeta in H; chew H;
    repeat match goal with |- context [if ?q then _ else _] => destruct q end; cbn; repeat split; intros; try congruence; try (destruct (a_pw a); reflexivity); auto.
Qed.

(** The state as read off the history *)
Definition pam_of (h : hist) : option bool :=
  match last_of pamish h with
  | None => None
  | Some x => match rq_of x with RPamInit => if ok x then Some false else None | RPamQuery | RPamRespond => Some (ok x) | _ => None end
  end.
Definition bsd_of (h : hist) : bool := match last_of bsdish h with Some x => is_rq RBsdQuery x | None => false end.
Definition pw_valid (p : option bool) : bool := match p with Some _ => true | None => false end.
Definition pw_root (p : option bool) : bool := match p with Some b => b | None => false end.
Definition kmeth (k : ktype) : mth := match k with KUser => mPubkey | KHost => mHost end.
Record core (c : mcfg) (h : hist) (s : mst) : Prop := mkCore {
  i_pw : match last_of (is_rq RPwnam) h with
         | None => m_attempt s = 0 /\ m_valid s = false /\ m_root s = false
         | Some x => m_attempt s = 1 /\ (exists rest, get_cstr (e_body (fst x)) = Some (m_user s, rest)) /\
                     m_valid s = pw_valid (a_pw (e_ans (fst x))) /\ m_root s = pw_root (a_pw (e_ans (fst x)))
         end;
  i_style : match last_of (is_rq RAuthServ) h with
         | None => m_style s = None
         | Some x => exists u b1 y b2, get_cstr (e_body (fst x)) = Some (u, b1) /\ get_cstr b1 = Some (y, b2) /\ m_style s = if is_nil y then None else Some y
         end;
  i_sid : match last_of (is_rq RSign) h with
         | None => m_sid s = []
         | Some x => exists blob, sign_fields c (e_body (fst x)) = Some (blob, m_sid s) /\ hash_len (zlen (m_sid s)) = true
         end;
  i_pam : m_pam s = pam_of h;
  i_bsd : m_bsd s = bsd_of h;
  i_gss : m_gss s = true -> exists y, In y h /\ rq_of y = RGssStep /\ ok y = true /\ a_force (e_ans (fst y)) = true;
  i_key : forall k, m_key s = Some k -> exists e o, last_of keyish h = Some (e, o) /\ o_rq o = RKeyAllowed /\
          keyallowed_fields c (e_body e) = Some (knum (k_type k), k_cuser k, k_chost k, k_blob k) /\
          k_nopres k = a_nopres (e_ans e) /\ k_needverify k = a_needverify (e_ans e) /\ a_ok (e_ans e) = true /\
          cf_en (mc_auth c) (kmeth (k_type k)) = true /\ already_used c s (k_blob k) = false /\ m_valid s = true;
  i_used : forall x blob sig data kb, In x h -> rq_of x = RKeyVerify -> o_one (snd x) = true ->
          keyverify_fields (e_body (fst x)) = Some (blob, sig, data) -> mc_parse c blob = Some kb -> In kb (m_used s);
}.
Lemma core_init : forall c, core c [] (minit c).
Proof. intros c. constructor; try (cbn; auto; fail); try (intros; discriminate). Qed.

Lemma open_sign : forall c h, is_open c h RSign -> last_of (is_rq RSign) h = None.
Proof.
  intros c h (a & b & -> & [[-> _]|(b0 & x & _ & O)] & F).
  - cbn [app]. destruct (last_of (is_rq RSign) b) as [x|] eqn:E; [|reflexivity]. apply last_of_in in E. destruct E as [I R]. rewrite Forall_forall in F. exfalso. apply (F x I). apply is_rq_spec in R. split; [exact R|left; reflexivity].
  - exfalso. unfold opens in O. destruct (rq_of x); cbn [decides] in O; intuition discriminate.
Qed.
Lemma same_last : forall (r : rq) h e o, o_rq o <> r -> last_of (is_rq r) (h ++ [(e, o)]) = last_of (is_rq r) h.
Proof. intros r h e o N. rewrite last_of_snoc. destruct (is_rq r (e, o)) eqn:E; [|reflexivity]. apply is_rq_spec in E. contradiction. Qed.
Lemma new_last : forall (r : rq) h e o, o_rq o = r -> last_of (is_rq r) (h ++ [(e, o)]) = Some (e, o).
Proof. intros r h e o E. rewrite last_of_snoc. unfold is_rq, rq_of. cbn [snd]. rewrite E, rq_eqb_refl. reflexivity. Qed.

Lemma handle_core : forall c h s r e one m sub s' o, core c h s -> is_open c h r ->
  handle c false s r (e_body e) (e_ans e) = HRet s' one m sub -> o_rq o = r -> o_one o = one -> core c (h ++ [(e, o)]) s'.
Proof.
  intros c h s r e one m sub s' o I Op H Ho Hone. destruct (handle_frame _ _ _ _ _ _ _ _ _ H) as (_ & Fpw & Fst & Fsid & Fpam & Fbsd & Fgss & Fkey & Fused).
  destruct I as [Ipw Ist Isid Ipam Ibsd Igss Ikey Iused].
  assert (Hr : rq_of (e, o) = r) by exact Ho.
  assert (IQ : forall r', is_rq r' (e, o) = rq_eqb r r') by (intros r'; unfold is_rq; now rewrite Hr). constructor.
  - destruct (rq_eq_dec r RPwnam) as [E|N].
    + rewrite new_last by congruence. cbn [fst]. subst r. rewrite E in H. cbn [handle] in H. unfold ans_pwnam, quiet in H. destruct (m_attempt s =? 0) eqn:A; cbn [negb] in H; [|discriminate]. destruct (get_cstr (e_body e)) as [[u b']|] eqn:G; [|discriminate]. destruct (mc_refuse c); [discriminate|]. cbv zeta in H. injection H as <- _ _ _.
      apply Z.eqb_eq in A. destruct (a_pw (e_ans e)), (mc_pam c && mc_usepam c); cbn; rewrite A; (split; [reflexivity|split; [eauto|auto]]).
    + rewrite same_last by congruence. destruct (Fpw N) as (-> & -> & -> & -> & _). exact Ipw.
  - destruct (rq_eq_dec r RAuthServ) as [E|N].
    + rewrite new_last by congruence. cbn [fst]. rewrite E in H. cbn [handle] in H. unfold ans_authserv, quiet in H. destruct (get_cstr (e_body e)) as [[u b1]|] eqn:G1; [|discriminate]. destruct (get_cstr b1) as [[y b2]|] eqn:G2; [|discriminate]. injection H as <- _ _ _.
      exists u, b1, y, b2. auto.
    + rewrite same_last by congruence. rewrite (Fst N). exact Ist.
  - destruct (rq_eq_dec r RSign) as [E|N].
    + rewrite E in Op. rewrite (open_sign _ _ Op) in Isid. rewrite new_last by congruence. cbn [fst]. rewrite E in H. cbn [handle] in H. unfold ans_sign, quiet in H. destruct (sign_fields c (e_body e)) as [[blob data]|] eqn:G; [|discriminate]. cbv zeta in H. destruct (negb (mc_host c blob)); [discriminate|].
      rewrite Isid in H. change (zlen (@nil Z) =? 0) with true in H. cbn [orb] in H. rewrite andb_true_r in H. destruct (hash_len (zlen data)) eqn:L; cbn [negb] in H; [|discriminate]. destruct (negb (a_ok (e_ans e))); [discriminate|]. injection H as <- _ _ _. exists blob. split; [reflexivity|exact L].
    + rewrite same_last by congruence. rewrite (Fsid N). exact Isid.
  - unfold pam_of. rewrite last_of_snoc. unfold pamish. rewrite !IQ. destruct (nopam r) eqn:N.
    + rewrite (Fpam eq_refl), Ipam. unfold pam_of. destruct r; try discriminate; reflexivity.
    + destruct r; try discriminate; cbv [rq_eqb rq_num Z.eqb orb Pos.eqb]; rewrite Hr; unfold ok; cbn [fst]; cbn [handle] in H.
      * unfold ans_pam_init, quiet in H. destruct (negb (cf_en (mc_auth c) mKbd)); [discriminate|]. destruct (m_pam s) eqn:P; [discriminate|]. destruct (a_ok (e_ans e)); injection H as <- _ _ _; [reflexivity|exact P].
      * unfold ans_pam_query in H. destruct (m_pam s); [|discriminate]. injection H as <- _ _ _. reflexivity.
      * unfold ans_pam_respond in H. destruct (m_pam s); [|discriminate]. destruct (get_int 4 (e_body e)) as [[num ?]|]; [|discriminate]. destruct (32 <? num); [discriminate|]. injection H as <- _ _ _. reflexivity.
      * unfold ans_pam_free in H. destruct (m_pam s); [|discriminate]. injection H as <- _ _ _. reflexivity.
  - unfold bsd_of. rewrite last_of_snoc. unfold bsdish. destruct (rq_eq_dec r RBsdQuery) as [E1|N1]; [|destruct (rq_eq_dec r RBsdRespond) as [E2|N2]].
    + rewrite E1 in *. rewrite !IQ. cbv [rq_eqb rq_num Z.eqb Pos.eqb orb andb]. cbn [handle] in H. unfold ans_bsd_query, quiet in H. destruct (negb (cf_en (mc_auth c) mKbd)); [discriminate|]. injection H as <- _ _ _. unfold ok. cbn [fst].
      destruct (a_ok (e_ans e)); [|exact Ibsd]. rewrite IQ. reflexivity.
    + rewrite E2 in *. rewrite !IQ. cbv [rq_eqb rq_num Z.eqb Pos.eqb orb andb]. cbn [handle] in H. unfold ans_bsd_respond in H. destruct (negb (cf_en (mc_auth c) mKbd)); [discriminate|]. destruct (negb (m_bsd s)); [discriminate|]. destruct (get_cstr (e_body e)); [|discriminate]. injection H as <- _ _ _.
      rewrite IQ. reflexivity.
    + rewrite (Fbsd N1 N2), Ibsd. unfold bsd_of. rewrite !IQ. destruct r; try congruence; reflexivity.
  - intros G. destruct (m_gss s) eqn:Gs.
    + destruct (Igss eq_refl) as (y & A & B). exists y. split; [apply in_or_app; now left|exact B].
    + destruct (rq_eq_dec r RGssStep) as [E1|N1]; [|destruct (rq_eq_dec r RGssUserok) as [E2|N2]].
      * rewrite E1 in H. cbn [handle] in H. unfold ans_gss_step, quiet in H. destruct (negb (cf_en (mc_auth c) mGss)); [discriminate|]. destruct (get_str (e_body e)); [|discriminate]. cbv zeta in H. destruct (a_ok (e_ans e)) eqn:A; injection H as <- _ _ _; [|congruence].
        destruct (a_force (e_ans e)) eqn:F; [|cbn in G; congruence]. exists (e, o). split; [apply in_or_app; right; now left|]. split; [congruence|]. split; [exact A|exact F].
      * rewrite E2 in H. cbn [handle] in H. unfold ans_gss_userok in H. cbv zeta in H. destruct (negb (cf_en (mc_auth c) mGss)); [discriminate|]. rewrite Gs, andb_false_r in H. cbn [andb] in H. injection H as <- _ _ _. congruence.
      * rewrite (Fgss N1 N2) in G. congruence.
  - intros k K. rewrite last_of_snoc. unfold keyish. destruct (rq_eq_dec r RKeyAllowed) as [E1|N1]; [|destruct (rq_eq_dec r RKeyVerify) as [E2|N2]].
    + rewrite !IQ. rewrite E1 in *. cbv [rq_eqb rq_num Z.eqb Pos.eqb orb]. exists e, o. split; [reflexivity|split; [congruence|]].
      assert (Fu : m_used s' = m_used s) by (apply Fused; congruence). assert (Fv : m_valid s' = m_valid s) by (apply Fpw; congruence).
      cbn [handle] in H. unfold ans_keyallowed in H. destruct (keyallowed_fields c (e_body e)) as [[[[ty cu] ch] blob]|]; [|discriminate]. cbv zeta in H.
      destruct (m_valid s) eqn:V; cbn [negb] in H; [|injection H as <- _ _ _; discriminate].
      destruct (Z.eqb_spec ty MM_USERKEY) as [->|Nu]; [|destruct (Z.eqb_spec ty MM_HOSTKEY) as [->|Nh]; [|discriminate]].
      * injection H as <- _ _ _. cbn [set_key m_key] in K. destruct (cf_en (mc_auth c) mPubkey && negb (already_used c s blob) && a_ok (e_ans e)) eqn:B; [|discriminate]. apply andb_true_iff in B. destruct B as [B B3]. apply andb_true_iff in B. destruct B as [B1 B2]. apply negb_true_iff in B2.
        injection K as <-. cbn [k_type k_cuser k_chost k_blob k_nopres k_needverify knum kmeth]. splits; auto.
      * injection H as <- _ _ _. cbn [set_key m_key] in K. destruct (cf_en (mc_auth c) mHost && negb (already_used c s blob) && a_ok (e_ans e)) eqn:B; [|discriminate]. apply andb_true_iff in B. destruct B as [B B3]. apply andb_true_iff in B. destruct B as [B1 B2]. apply negb_true_iff in B2.
        injection K as <-. cbn [k_type k_cuser k_chost k_blob k_nopres k_needverify knum kmeth]. splits; auto.
    + exfalso. rewrite E2 in H. cbn [handle] in H. unfold ans_keyverify in H. cbv zeta in H. destruct (keyverify_fields (e_body e)) as [[[bl sg] dt]|]; [|discriminate]. destruct (m_key s); [|discriminate]. destruct (negb (beqb (k_blob k0) bl)); [discriminate|]. destruct (mc_parse c bl); [|discriminate].
      match type of H with (if ?b then _ else _) = _ => destruct b; [discriminate|] end. injection H as <- _ _ _. discriminate.
    + rewrite !IQ. replace (rq_eqb r RKeyAllowed || rq_eqb r RKeyVerify) with false by (destruct r; try congruence; reflexivity). rewrite (Fkey N1 N2) in K. destruct (Ikey k K) as (e1 & o1 & A1 & A2 & A3 & A4 & A5 & A6 & A7 & A8 & A9). exists e1, o1. splits; auto.
      * unfold already_used. rewrite (Fused N2). exact A8.
      * destruct (rq_eq_dec r RPwnam) as [Ep|Np]; [|destruct (Fpw Np) as (_ & _ & -> & _); exact A9].
        rewrite Ep in H. cbn [handle] in H. unfold ans_pwnam in H. destruct (m_attempt s =? 0) eqn:At; cbn [negb] in H; [|discriminate]. apply Z.eqb_eq in At. destruct (last_of (is_rq RPwnam) h) as [x|]; [destruct Ipw as [B _]; rewrite At in B; discriminate|destruct Ipw as (_ & B & _); congruence].
  - intros x blob sig data kb Ix Rx Ox Kx Px. apply in_app_or in Ix. destruct Ix as [Ix|[<- |[]]].
    + specialize (Iused x blob sig data kb Ix Rx Ox Kx Px). destruct (rq_eq_dec r RKeyVerify) as [E|N]; [|now rewrite (Fused N)].
      rewrite E in H. cbn [handle] in H. unfold ans_keyverify in H. cbv zeta in H. destruct (keyverify_fields (e_body e)) as [[[bl sg] dt]|]; [|discriminate]. destruct (m_key s); [|discriminate]. destruct (negb (beqb (k_blob k) bl)); [discriminate|]. destruct (mc_parse c bl); [|discriminate].
      match type of H with (if ?b then _ else _) = _ => destruct b; [discriminate|] end. injection H as <- _ _ _. match goal with |- In _ (m_used (set_key (if ?b then _ else _) None)) => destruct b end; cbn [set_key m_used set_used]; [now right|exact Iused].
    + cbn [fst snd] in *. rewrite Rx in Hr. rewrite <- Hr in H. cbn [handle] in H. unfold ans_keyverify in H. cbv zeta in H. rewrite Kx in H. destruct (m_key s); [|discriminate]. destruct (negb (beqb (k_blob k) blob)); [discriminate|]. rewrite Px in H.
      match type of H with (if ?b then _ else _) = _ => destruct b; [discriminate|] end. injection H as <- E _ _. rewrite Ox in Hone. rewrite <- Hone in E. rewrite E. cbn [set_key m_used set_used]. now left.
Qed.
