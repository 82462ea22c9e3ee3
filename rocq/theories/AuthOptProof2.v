(** Proofs for C35: option lines. *)
From Coq Require Import String.
From Verif Require Import Base Text MatchModel MiscNumModel MiscNumSpec MiscNumProof AddrModel AddrProof PermitModel PermitProof AuthOptModel AuthOptSpec.

(** ** Keywords *)
Definition low (w : list Z) : Prop := map tolower w = w.
Lemma skip_word_spec : forall w s r, skip_word w s = Some r <-> exists t, map tolower t = map tolower w /\ s = t ++ r.
Proof.
  induction w as [|a w IH]; intros s r.
  - cbn [skip_word]. split; [intros E; injection E as ->; exists []; auto|]. intros ([|] & E & ->); [reflexivity|discriminate].
  - destruct s as [|c s]; cbn [skip_word].
    + split; [discriminate|]. intros ([|] & E & E2); [discriminate|discriminate].
    + destruct (tolower a =? tolower c) eqn:E.
      * rewrite IH. split.
        -- intros (t & E2 & ->). exists (c :: t). cbn. split; [f_equal; [lia|assumption]|reflexivity].
        -- intros ([|d t] & E2 & E3); [discriminate|]. cbn in E2, E3. injection E2 as _ E2. injection E3 as _ ->. eauto.
      * split; [discriminate|]. intros ([|d t] & E2 & E3); [discriminate|]. cbn in E2, E3. injection E2 as E2 _. injection E3 as <- _. lia.
Qed.
Lemma skip_word_ok : forall w t r, low w -> word w t -> skip_word w (t ++ r) = Some r.
Proof. intros w t r L W. apply skip_word_spec. exists t. split; [|reflexivity]. unfold low, word in *. congruence. Qed.
Fixpoint clash (w k : list Z) : bool :=
  match w, k with a :: w, b :: k => if tolower a =? b then clash w k else true | _, _ => false end.
Lemma clash_none : forall w k t r, word k t -> clash w k = true -> skip_word w (t ++ r) = None.
Proof.
  induction w as [|a w IH]; intros k t r W C; [discriminate|]. destruct k as [|b k]; [discriminate|]. destruct t as [|c t]; [discriminate|].
  cbn in W. injection W as W1 W2. cbn [clash] in C. cbn [app skip_word]. rewrite W1. destruct (tolower a =? b); [|reflexivity]. now apply (IH k).
Qed.
Lemma flag_none : forall w k t r, word k t -> clash w k = true -> opt_flag w false (t ++ r) = None.
Proof. intros w k t r W C. unfold opt_flag. cbv iota beta. now rewrite (clash_none w k). Qed.
Lemma flag_none_t : forall w k t r, word k t -> clash w k = true -> clash (bs "no-") k = true -> opt_flag w true (t ++ r) = None.
Proof. intros w k t r W C N. unfold opt_flag. cbv iota. rewrite (clash_none (bs "no-") k t r W N). now rewrite (clash_none w k). Qed.
Lemma word_app : forall a b t, word (a ++ b) t -> exists t1 t2, t = t1 ++ t2 /\ word a t1 /\ word b t2.
Proof. intros a b t W. unfold word in *. destruct (map_eq_app _ _ _ _ W) as (t1 & t2 & -> & E1 & E2). eauto. Qed.
Lemma no_low : low (bs "no-"). Proof. reflexivity. Qed.
Lemma flag_none_n : forall w k t1 t r, word (bs "no-") t1 -> word k t -> clash w k = true -> opt_flag w true ((t1 ++ t) ++ r) = None.
Proof. intros w k t1 t r W1 W C. unfold opt_flag. cbv iota. rewrite <- app_assoc. rewrite (skip_word_ok _ _ _ no_low W1). now rewrite (clash_none w k). Qed.
Lemma flag_none_f : forall w t1 t r, word (bs "no-") t1 -> clash w (bs "no-") = true -> opt_flag w false ((t1 ++ t) ++ r) = None.
Proof. intros w t1 t r W1 C. rewrite <- app_assoc. now apply (flag_none w (bs "no-")). Qed.
Lemma flag_yes : forall w n t r, low w -> word w t -> (n = true -> clash (bs "no-") w = true) -> opt_flag w n (t ++ r) = Some (true, r).
Proof.
  intros w n t r L W C. unfold opt_flag. destruct n; cbv iota.
  - rewrite (clash_none (bs "no-") w t r W (C eq_refl)). now rewrite (skip_word_ok w).
  - now rewrite (skip_word_ok w).
Qed.
Lemma flag_no : forall w t1 t r, low w -> word (bs "no-") t1 -> word w t -> opt_flag w true ((t1 ++ t) ++ r) = Some (false, r).
Proof. intros w t1 t r L W1 W. unfold opt_flag. cbv iota. rewrite <- app_assoc, (skip_word_ok _ _ _ no_low W1). now rewrite (skip_word_ok w). Qed.
Lemma match_none : forall w k t r, word k t -> clash w k = true -> opt_match w (t ++ r) = None.
Proof. intros w k t r W C. unfold opt_match. now rewrite (clash_none w k). Qed.
Lemma match_yes : forall w t r, low w -> word w t -> opt_match w (t ++ 61 :: r) = Some r.
Proof. intros w t r L W. unfold opt_match. rewrite (skip_word_ok w) by assumption. reflexivity. Qed.
Lemma flag_spec : forall w n s b r, low w -> opt_flag w n s = Some (b, r) ->
  exists t, s = t ++ r /\ word (if b then w else bs "no-" ++ w) t /\ (n = false -> b = true).
Proof.
  intros w n s b r L H. unfold opt_flag in H. destruct n; cbv iota in H.
  - destruct (skip_word (bs "no-") s) as [r1|] eqn:E.
    + apply skip_word_spec in E as (t1 & E1 & ->). destruct (skip_word w r1) as [r2|] eqn:E2; [|discriminate]. injection H as <- <-.
      apply skip_word_spec in E2 as (t2 & E2 & ->). exists (t1 ++ t2). rewrite app_assoc. split; [reflexivity|]. split; [|discriminate].
      unfold word. rewrite map_app, E1, E2. unfold low in L. now rewrite L.
    + destruct (skip_word w s) as [r2|] eqn:E2; [|discriminate]. injection H as <- <-. apply skip_word_spec in E2 as (t2 & E2 & ->).
      exists t2. split; [reflexivity|]. split; [|discriminate]. unfold word, low in *. cbv iota. congruence.
  - destruct (skip_word w s) as [r2|] eqn:E2; [|discriminate]. injection H as <- <-. apply skip_word_spec in E2 as (t2 & E2 & ->).
    exists t2. split; [reflexivity|]. split; [|auto]. unfold word, low in *. cbv iota. congruence.
Qed.
Lemma match_spec : forall w s r, low w -> opt_match w s = Some r -> exists t, s = t ++ 61 :: r /\ word w t.
Proof.
  intros w s r L H. unfold opt_match in H. destruct (skip_word w s) as [[|c r1]|] eqn:E; [discriminate| |discriminate].
  destruct (c =? 61) eqn:Ec; [|discriminate]. injection H as ->. assert (c = 61) by lia. subst c.
  apply skip_word_spec in E as (t & E & ->). exists t. split; [reflexivity|]. unfold word, low in *. congruence.
Qed.

(** ** Quoting *)
Lemma escape_cons : forall c v, escape (c :: v) = (if c =? 34 then [92; 34] else [c]) ++ escape v. Proof. reflexivity. Qed.
Lemma dequote_body_spec : forall n s v r, (length s <= n)%nat -> dequote_body s = Some (v, r) -> s = escape v ++ 34 :: r /\ (last v 0 <> 92).
Proof.
  induction n as [|n IH]; intros s v r Hn H; [destruct s; [discriminate|cbn in Hn; lia]|]. destruct s as [|c s]; [discriminate|].
  cbn [dequote_body] in H. destruct (c =? 34) eqn:Ec.
  - injection H as <- <-. assert (c = 34) by lia. subst c. split; [reflexivity|cbn; lia].
  - destruct s as [|d s']; [discriminate|]. destruct ((c =? 92) && (d =? 34)) eqn:Ed.
    + destruct (dequote_body s') as [[v1 r1]|] eqn:E; [|discriminate]. injection H as <- <-.
      destruct (IH s' v1 r1) as [-> Hl]; [cbn in Hn; lia|assumption|]. rewrite escape_cons. change (34 =? 34) with true. cbv iota.
      assert (c = 92 /\ d = 34) as [-> ->] by lia. split; [reflexivity|]. destruct v1; [cbn; lia|assumption].
    + destruct (dequote_body (d :: s')) as [[v1 r1]|] eqn:E; [|discriminate]. injection H as <- <-.
      destruct (IH (d :: s') v1 r1) as [E1 Hl]; [cbn in Hn |- *; lia|assumption|]. rewrite escape_cons, Ec. cbn [app]. split; [now f_equal|].
      destruct v1 as [|x v1]; [|assumption]. cbn in E1 |- *. injection E1 as -> _. lia.
Qed.
Lemma dequote_body_ok : forall v r, last v 0 <> 92 -> dequote_body (escape v ++ 34 :: r) = Some (v, r).
Proof.
  induction v as [|c v IH]; intros r L; [reflexivity|]. rewrite escape_cons.
  assert (L' : last v 0 <> 92) by (destruct v; [cbn; lia|assumption]).
  destruct (c =? 34) eqn:Ec.
  - assert (c = 34) by lia. subst c. cbn [app dequote_body]. change (92 =? 34) with false. change ((92 =? 92) && (34 =? 34)) with true. cbv iota. now rewrite IH.
  - cbn [app dequote_body]. rewrite Ec. destruct (escape v ++ 34 :: r) as [|d s'] eqn:Es; [destruct (escape v); discriminate|].
    replace ((c =? 92) && (d =? 34)) with false.
    + rewrite <- Es, IH by assumption. reflexivity.
    + symmetry. destruct v as [|x v]; [cbn in L; lia|]. rewrite escape_cons in Es. destruct (x =? 34) eqn:Ex; cbn [app] in Es; injection Es as <- _; lia.
Qed.
Lemma dequote_spec : forall s v r, opt_dequote s = Some (v, r) <-> s = quoted v ++ r /\ last v 0 <> 92.
Proof.
  intros s v r. unfold opt_dequote, quoted. split.
  - destruct s as [|c s]; [discriminate|]. destruct (c =? 34) eqn:Ec; [|discriminate]. intros H. apply (dequote_body_spec (length s)) in H; [|lia]. destruct H as [-> L].
    assert (c = 34) by lia. subst c. cbn. rewrite <- app_assoc. auto.
  - intros [-> L]. cbn [app]. change (34 =? 34) with true. cbv iota. rewrite <- app_assoc. cbn [app]. now apply dequote_body_ok.
Qed.

(** ** The effect of one option *)
Section Opt.
Variable serv : list Z -> option Z.
Variable ptime : list Z -> option Z.
Notation effect := (effect serv ptime).
Notation effects := (effects serv ptime).
Notation one_option := (one_option serv ptime).

Lemma has_58 : forall v, existsb (Z.eqb 58) v = true <-> In 58 v.
Proof. intros v. rewrite existsb_exists. split; [intros (x & H & E); now replace 58 with x by lia|intros H; exists 58; split; [assumption|reflexivity]]. Qed.
Lemma permit_ok : forall bare l s l' r, handle_permit serv bare l s = Some (l', r) <->
  exists v w, s = quoted v ++ r /\ last v 0 <> 92 /\ zlen l <= 4096 /\ (if bare then listening v w else w = v) /\ destination serv w /\ l' = l ++ [w].
Proof.
  intros bare l s l' r. unfold handle_permit, SSH_AUTHOPT_PERMIT_MAX, NI_MAXHOST.
  assert (W : forall v w, (if bare then listening v w else w = v) <-> w = (if bare && negb (existsb (Z.eqb 58) v) then bs "*:" ++ v else v)).
  { intros v w. destruct bare; [|cbn [andb]; tauto]. unfold listening. cbn [andb]. rewrite <- has_58. destruct (existsb (Z.eqb 58) v); cbn [negb]; split.
    - intros [[_ ->]|[H _]]; [reflexivity|congruence].
    - intros ->. auto.
    - intros [[H _]|[_ ->]]; [discriminate|reflexivity].
    - intros ->. right. split; [discriminate|reflexivity]. }
  assert (D : forall w, destination serv w <-> match hpdelim2 w with
     | Some (host, Some cp, _) => zlen host < 1025 /\ (cp = bs "*" \/ 0 < a2port serv cp) | _ => False end).
  { intros w. unfold destination. split.
    - intros (h & s0 & pt & -> & Hs & Hl & Hh & Hp). assert (E : hpdelim2 (h ++ s0 :: pt) = Some (h, Some pt, Some s0)).
      { apply hpdelim2_some. split; [exists s0; auto|]. destruct Hh as [Hh|(n & -> & Hn)]; [auto|right; eauto]. }
      rewrite E. split; [lia|assumption].
    - destruct (hpdelim2 w) as [[[host [cp|]] d]|] eqn:E; [|contradiction|contradiction]. intros [Hl Hp]. apply hpdelim2_some in E as ((s0 & -> & Hs & ->) & Hh).
      exists host, s0, cp. split; [reflexivity|split; [assumption|split; [lia|split; [|assumption]]]]. destruct Hh as [Hh|(n & -> & Hn)]; [auto|right; eauto]. }
  split.
  - destruct (4096 <? zlen l) eqn:El; [discriminate|]. destruct (opt_dequote s) as [[v r1]|] eqn:Ed; [|discriminate]. cbv zeta. apply dequote_spec in Ed as [-> L].
    set (w := if bare && negb (existsb (Z.eqb 58) v) then bs "*:" ++ v else v). destruct (hpdelim2 w) as [[[host cp] d]|] eqn:E; [|discriminate].
    destruct (1025 <=? zlen host) eqn:Eh; [discriminate|]. destruct cp as [cp|]; [|discriminate].
    destruct (negb (beqb cp (bs "*")) && (a2port serv cp <=? 0)) eqn:Ep; [discriminate|]. intros H. injection H as <- <-.
    exists v, w. split; [reflexivity|split; [assumption|split; [lia|split; [now apply W|split; [|reflexivity]]]]]. apply D. rewrite E. split; [lia|].
    apply andb_false_iff in Ep as [Ep|Ep]; [left; apply beqb_eq; now apply negb_false_iff in Ep|right; lia].
  - intros (v & w & -> & L & Hl & Hw & Hd & ->). replace (4096 <? zlen l) with false by lia. apply W in Hw. cbv zeta.
    assert (Eq : opt_dequote (quoted v ++ r) = Some (v, r)) by now apply dequote_spec. rewrite Eq. rewrite <- Hw. apply D in Hd.
    destruct (hpdelim2 w) as [[[host [cp|]] d]|]; [|contradiction|contradiction]. destruct Hd as [H1 H2]. replace (1025 <=? zlen host) with false by lia.
    replace (negb (beqb cp (bs "*")) && (a2port serv cp <=? 0)) with false; [reflexivity|]. symmetry. apply andb_false_iff. destruct H2 as [-> |H2]; [left; reflexivity|right; lia].
Qed.
Lemma envname_iff : forall n, valid_env_name n = true <-> envname n.
Proof.
  intros n. unfold valid_env_name, envname. rewrite andb_true_iff, forallb_forall, Forall_forall.
  assert (P : forall c, isalnum c || (c =? 95) = true <-> (48 <= c <= 57 \/ 65 <= c <= 90 \/ 97 <= c <= 122 \/ c = 95)) by (intros c; unfold isalnum, isdigit, isupper; lia).
  split; intros [A B]; (split; [destruct n; [discriminate || now contradiction A|(discriminate || reflexivity)]|intros x Hx; apply P; auto]).
Qed.
Lemma env_has_iff : forall n e, env_has n e = true <-> exists y, e = n ++ 61 :: y.
Proof.
  intros n e. unfold env_has. rewrite beqb_eq. split.
  - intros H. exists (zdrop (zlen n + 1) e). rewrite <- (ztake_zdrop _ (zlen n + 1) e) at 1. rewrite H, <- app_assoc. reflexivity.
  - intros (y & ->). replace (n ++ 61 :: y) with ((n ++ [61]) ++ y) by now rewrite <- app_assoc. apply ztake_app_exact. rewrite zlen_app. reflexivity.
Qed.
Lemma env_ok : forall l s l' r, handle_env l s = Some (l', r) <->
  exists v n x, s = quoted v ++ r /\ last v 0 <> 92 /\ zlen l <= 1024 /\ v = n ++ 61 :: x /\ envname n /\
   (((exists y, In (n ++ 61 :: y) l) /\ l' = l) \/ ((forall y, ~ In (n ++ 61 :: y) l) /\ l' = l ++ [v])).
Proof.
  intros l s l' r. unfold handle_env, SSH_AUTHOPT_ENV_MAX.
  assert (X : forall n, existsb (env_has n) l = true <-> exists y, In (n ++ 61 :: y) l).
  { intros n. rewrite existsb_exists. split; [intros (e & He & H); apply env_has_iff in H as (y & ->); eauto|intros (y & H); exists (n ++ 61 :: y); split; [assumption|apply env_has_iff; eauto]]. }
  split.
  - destruct (1024 <? zlen l) eqn:El; [discriminate|]. destruct (opt_dequote s) as [[v r1]|] eqn:Ed; [|discriminate]. apply dequote_spec in Ed as [-> L].
    pose proof (strchr_cut_spec 61 v) as Sc. destruct (strchr_cut 61 v) as [[n x]|]; [|discriminate]. destruct Sc as [Ev Hn].
    destruct (valid_env_name n) eqn:Ee; [|discriminate]. cbn [negb]. intros H. injection H as <- <-. apply envname_iff in Ee.
    exists v, n, x. split; [reflexivity|split; [assumption|split; [lia|split; [assumption|split; [assumption|]]]]]. specialize (X n).
    destruct (existsb (env_has n) l); [left; split; [now apply X|reflexivity]|right; split; [|reflexivity]]. intros y Hy. destruct X as [_ X]. discriminate X. eauto.
  - intros (v & n & x & -> & L & Hl & Ev & Hn & Hc). replace (1024 <? zlen l) with false by lia.
    assert (Eq : opt_dequote (quoted v ++ r) = Some (v, r)) by now apply dequote_spec. rewrite Eq. pose proof (strchr_cut_spec 61 v) as Sc.
    assert (N61 : ~ In 61 n). { destruct Hn as [_ Hn]. rewrite Forall_forall in Hn. intros K. specialize (Hn _ K). lia. }
    destruct (strchr_cut 61 v) as [[n1 x1]|].
    + destruct Sc as [Sc Sn]. assert (n1 = n) as ->.
      { rewrite Sc in Ev. clear - Ev Sn N61. revert n Ev N61. induction n1 as [|a n1 IH]; intros [|b n] Ev N61; cbn in Ev; [reflexivity| | |].
        - injection Ev as <- _. destruct N61; now left.
        - injection Ev as -> _. destruct Sn; now left.
        - injection Ev as <- Ev. f_equal. apply IH; [intros K; apply Sn; now right|assumption|intros K; apply N61; now right]. }
      apply envname_iff in Hn. rewrite Hn. cbn [negb]. specialize (X n). destruct Hc as [[Hc ->]|[Hc ->]].
      * apply X in Hc. now rewrite Hc.
      * destruct (existsb (env_has n) l); [|reflexivity]. destruct (proj1 X eq_refl) as [y Hy]. destruct (Hc y Hy).
    + exfalso. apply Sc. rewrite Ev. apply in_or_app. right. now left.
Qed.
Lemma tun_ok : forall v n, (a2tun1 v = n /\ n <> SSH_TUNID_ERR) <-> tunnel_number v n.
Proof.
  intros v n. unfold a2tun1, tunnel_number, strcaseeq, SSH_TUNID_ERR, SSH_TUNID_MAX, SSH_TUNID_ANY. change (map tolower (bs "any")) with (bs "any").
  destruct (beqb (map tolower v) (bs "any")) eqn:E.
  - apply beqb_eq in E. split; [intros [<- H]; left; auto|intros [[_ ->]|[H _]]; [split; lia|contradiction]].
  - apply beqb_neq in E. pose proof (strtonum_ok v 0 (2147483647 - 2) n ltac:(unfold LLONG_MIN; lia) ltac:(unfold LLONG_MAX; lia)) as S.
    destruct (strtonum v 0 (2147483647 - 2)) as [m|e].
    + split; [intros [<- H]; right; split; [assumption|]; destruct (proj1 S eq_refl); split; [assumption|lia]|].
      intros [[H _]|(_ & H1 & H2)]; [contradiction|]. assert (Q : numeral v n /\ 0 <= n <= 2147483647 - 2) by (split; [assumption|lia]). apply S in Q. injection Q as ->. split; [reflexivity|lia].
    + split; [intros [<- H]; contradiction|]. intros [[H _]|(_ & H1 & H2)]; [contradiction|]. assert (Q : numeral v n /\ 0 <= n <= 2147483647 - 2) by (split; [assumption|lia]). apply S in Q. discriminate.
Qed.
Lemma expiry_eq : forall o t, t <> 0 -> (if (a_expiry o =? 0) || (t <? a_expiry o) then w_expiry t o else o) = w_expiry (earliest (a_expiry o) t) o.
Proof.
  intros o t H. unfold earliest. destruct (a_expiry o =? 0) eqn:E; cbn [orb]; [reflexivity|]. replace (t =? 0) with false by lia.
  destruct (t <? a_expiry o) eqn:E2; [now replace (Z.min (a_expiry o) t) with t by lia|]. replace (Z.min (a_expiry o) t) with (a_expiry o) by lia. now destruct o.
Qed.

Lemma valued_app : forall w v k, word w k -> last v 0 <> 92 -> valued w v (k ++ 61 :: quoted v). Proof. intros w v k W L. split; [assumption|]. exists k. auto. Qed.
Lemma opt_forward : forall o s o' r, one_option o s = Some (o', r) ->
  (exists i t, i <> Empty /\ s = t ++ r /\ spelled i t /\ effect i o o') \/ (o' = o /\ r = s).
Proof.
  intros o s o' r H. unfold AuthOptModel.one_option in H.
  destruct (opt_flag (bs "restrict") false s) as [[b s1]|] eqn:E1.
  { injection H as <- <-. apply flag_spec in E1 as (t & -> & W & B); [|reflexivity]. rewrite B in W by reflexivity. left. exists Restrict, t. split; [discriminate|]. split; [reflexivity|split; [exact W|reflexivity]]. } clear E1.
  destruct (opt_flag (bs "cert-authority") false s) as [[b s1]|] eqn:E1.
  { injection H as <- <-. apply flag_spec in E1 as (t & -> & W & B); [|reflexivity]. rewrite B in * by reflexivity. left. exists CertAuthority, t. split; [discriminate|]. split; [reflexivity|split; [exact W|reflexivity]]. } clear E1.
  destruct (opt_flag (bs "port-forwarding") true s) as [[b s1]|] eqn:E1; [injection H as <- <-; apply flag_spec in E1 as (t & -> & W & _); [|reflexivity]; left; destruct b; [exists (Flag FPort true), t|exists (Flag FPort false), t]; (split; [discriminate|split; [reflexivity|split; [exact W|reflexivity]]])|]. clear E1.
  destruct (opt_flag (bs "agent-forwarding") true s) as [[b s1]|] eqn:E1; [injection H as <- <-; apply flag_spec in E1 as (t & -> & W & _); [|reflexivity]; left; destruct b; [exists (Flag FAgent true), t|exists (Flag FAgent false), t]; (split; [discriminate|split; [reflexivity|split; [exact W|reflexivity]]])|]. clear E1.
  destruct (opt_flag (bs "x11-forwarding") true s) as [[b s1]|] eqn:E1; [injection H as <- <-; apply flag_spec in E1 as (t & -> & W & _); [|reflexivity]; left; destruct b; [exists (Flag FX11 true), t|exists (Flag FX11 false), t]; (split; [discriminate|split; [reflexivity|split; [exact W|reflexivity]]])|]. clear E1.
  destruct (opt_flag (bs "touch-required") true s) as [[b s1]|] eqn:E1; [injection H as <- <-; apply flag_spec in E1 as (t & -> & W & _); [|reflexivity]; left; destruct b; [exists (Flag FTouch true), t|exists (Flag FTouch false), t]; (split; [discriminate|split; [reflexivity|split; [exact W|reflexivity]]])|]. clear E1.
  destruct (opt_flag (bs "verify-required") true s) as [[b s1]|] eqn:E1; [injection H as <- <-; apply flag_spec in E1 as (t & -> & W & _); [|reflexivity]; left; destruct b; [exists (Flag FVerify true), t|exists (Flag FVerify false), t]; (split; [discriminate|split; [reflexivity|split; [exact W|reflexivity]]])|]. clear E1.
  destruct (opt_flag (bs "pty") true s) as [[b s1]|] eqn:E1; [injection H as <- <-; apply flag_spec in E1 as (t & -> & W & _); [|reflexivity]; left; destruct b; [exists (Flag FPty true), t|exists (Flag FPty false), t]; (split; [discriminate|split; [reflexivity|split; [exact W|reflexivity]]])|]. clear E1.
  destruct (opt_flag (bs "user-rc") true s) as [[b s1]|] eqn:E1; [injection H as <- <-; apply flag_spec in E1 as (t & -> & W & _); [|reflexivity]; left; destruct b; [exists (Flag FRc true), t|exists (Flag FRc false), t]; (split; [discriminate|split; [reflexivity|split; [exact W|reflexivity]]])|]. clear E1.
  destruct (opt_match (bs "command") s) as [s1|] eqn:E1; [apply match_spec in E1 as (k & -> & W); [|reflexivity]; unfold once in H;
    match type of H with match ?x with _ => _ end = _ => destruct x eqn:Eo; [discriminate|] end;
    destruct (opt_dequote s1) as [[v s2]|] eqn:Eq; [|discriminate];
    injection H as <- <-; apply dequote_spec in Eq as [-> L]; left; exists (Command v), (k ++ 61 :: quoted v); (split; [discriminate|]);
    (split; [now rewrite <- app_assoc|]); (split; [cbn [spelled]; now apply valued_app|cbn [AuthOptSpec.effect]; auto])|]. clear E1.
  destruct (opt_match (bs "principals") s) as [s1|] eqn:E1; [apply match_spec in E1 as (k & -> & W); [|reflexivity]; unfold once in H;
    match type of H with match ?x with _ => _ end = _ => destruct x eqn:Eo; [discriminate|] end;
    destruct (opt_dequote s1) as [[v s2]|] eqn:Eq; [|discriminate];
    injection H as <- <-; apply dequote_spec in Eq as [-> L]; left; exists (Principals v), (k ++ 61 :: quoted v); (split; [discriminate|]);
    (split; [now rewrite <- app_assoc|]); (split; [cbn [spelled]; now apply valued_app|cbn [AuthOptSpec.effect]; auto])|]. clear E1.
  destruct (opt_match (bs "from") s) as [s1|] eqn:E1; [apply match_spec in E1 as (k & -> & W); [|reflexivity]; unfold once in H;
    match type of H with match ?x with _ => _ end = _ => destruct x eqn:Eo; [discriminate|] end;
    destruct (opt_dequote s1) as [[v s2]|] eqn:Eq; [|discriminate];
    injection H as <- <-; apply dequote_spec in Eq as [-> L]; left; exists (From v), (k ++ 61 :: quoted v); (split; [discriminate|]);
    (split; [now rewrite <- app_assoc|]); (split; [cbn [spelled]; now apply valued_app|cbn [AuthOptSpec.effect]; auto])|]. clear E1.
  destruct (opt_match (bs "expiry-time") s) as [s1|] eqn:E1.
  { apply match_spec in E1 as (k & -> & W); [|reflexivity]. destruct (opt_dequote s1) as [[v s2]|] eqn:Eq; [|discriminate]. apply dequote_spec in Eq as [-> L].
    destruct (ptime v) as [t|] eqn:Et; [|discriminate]. destruct (t =? 0) eqn:E0; [discriminate|]. injection H as <- <-. left. exists (Expiry v), (k ++ 61 :: quoted v).
    split; [discriminate|]. split; [now rewrite <- app_assoc|]. split; [cbn [spelled]; now apply valued_app|]. cbn [AuthOptSpec.effect]. exists t. split; [assumption|]. split; [lia|]. apply expiry_eq. lia. } clear E1.
  destruct (opt_match (bs "environment") s) as [s1|] eqn:E1.
  { apply match_spec in E1 as (k & -> & W); [|reflexivity]. destruct (handle_env (a_env o) s1) as [[l s2]|] eqn:Eq; [|discriminate]. injection H as <- <-.
    apply env_ok in Eq as (v & n & x & -> & L & Hl & Ev & Hn & Hc). left. exists (Environment v), (k ++ 61 :: quoted v).
    split; [discriminate|]. split; [now rewrite <- app_assoc|]. split; [cbn [spelled]; now apply valued_app|]. cbn [AuthOptSpec.effect]. split; [assumption|]. exists n, x. split; [assumption|split; [assumption|]].
    destruct Hc as [[Hc ->]|[Hc ->]]; [left; split; [assumption|now destruct o]|right; auto]. } clear E1.
  destruct (opt_match (bs "permitopen") s) as [s1|] eqn:E1.
  { apply match_spec in E1 as (k & -> & W); [|reflexivity]. destruct (handle_permit serv false (a_open o) s1) as [[l s2]|] eqn:Eq; [|discriminate]. injection H as <- <-.
    apply permit_ok in Eq as (v & w & -> & L & Hl & -> & Hd & ->). left. exists (PermitOpen v), (k ++ 61 :: quoted v).
    split; [discriminate|]. split; [now rewrite <- app_assoc|]. split; [cbn [spelled]; now apply valued_app|]. cbn [AuthOptSpec.effect]. auto. } clear E1.
  destruct (opt_match (bs "permitlisten") s) as [s1|] eqn:E1.
  { apply match_spec in E1 as (k & -> & W); [|reflexivity]. destruct (handle_permit serv true (a_listen o) s1) as [[l s2]|] eqn:Eq; [|discriminate]. injection H as <- <-.
    apply permit_ok in Eq as (v & w & -> & L & Hl & Hw & Hd & ->). left. exists (PermitListen v), (k ++ 61 :: quoted v).
    split; [discriminate|]. split; [now rewrite <- app_assoc|]. split; [cbn [spelled]; now apply valued_app|]. cbn [AuthOptSpec.effect]. split; [assumption|]. exists w. auto. } clear E1.
  destruct (opt_match (bs "tunnel") s) as [s1|] eqn:E1.
  { apply match_spec in E1 as (k & -> & W); [|reflexivity]. destruct (opt_dequote s1) as [[v s2]|] eqn:Eq; [|discriminate]. apply dequote_spec in Eq as [-> L]. cbv zeta in H.
    destruct (a2tun1 v =? SSH_TUNID_ERR) eqn:E0; [discriminate|]. injection H as <- <-. left. exists (Tunnel v), (k ++ 61 :: quoted v).
    split; [discriminate|]. split; [now rewrite <- app_assoc|]. split; [cbn [spelled]; now apply valued_app|]. cbn [AuthOptSpec.effect]. exists (a2tun1 v). split; [|reflexivity]. apply tun_ok. split; [reflexivity|lia]. }
  injection H as <- <-. right. auto.
Qed.

Ltac nones := repeat match goal with
  | W : word ?k ?t |- context [opt_flag ?w false (?t ++ ?r)] => rewrite (flag_none w k t r W eq_refl)
  | W : word ?k ?t |- context [opt_flag ?w true (?t ++ ?r)] => rewrite (flag_none_t w k t r W eq_refl eq_refl)
  | W1 : word (bs "no-") ?t1 |- context [opt_flag ?w false ((?t1 ++ ?t) ++ ?r)] => rewrite (flag_none_f w t1 t r W1 eq_refl)
  | W1 : word (bs "no-") ?t1, W : word ?k ?t |- context [opt_flag ?w true ((?t1 ++ ?t) ++ ?r)] => rewrite (flag_none_n w k t1 t r W1 W eq_refl)
  | W : word ?k ?t |- context [opt_match ?w (?t ++ ?r)] => rewrite (match_none w k t r W eq_refl)
  end.
Lemma opt_backward : forall i t r o o', i <> Empty -> spelled i t -> effect i o o' -> one_option o (t ++ r) = Some (o', r).
Proof.
  intros i t r o o' NE S E. destruct i as [| |f b|v|v|v|v|v|v|v|v|]; try contradiction; unfold AuthOptModel.one_option; cbn [spelled AuthOptSpec.effect] in S, E.
  - rewrite (flag_yes (bs "restrict") false t r eq_refl S); [now subst|discriminate].
  - nones. rewrite (flag_yes (bs "cert-authority") false t r eq_refl S); [now subst|discriminate].
  - subst o'. destruct b.
    + destruct f; cbn [fword set_flag] in *; nones; rewrite (flag_yes _ true t r eq_refl S) by (intros; reflexivity); reflexivity.
    + apply word_app in S as (t1 & t2 & -> & W1 & W). destruct f; cbn [fword set_flag] in *; nones; rewrite (flag_no _ t1 t2 r eq_refl W1 W); reflexivity.
  - destruct S as (L & k & W & ->). rewrite <- app_assoc. nones. cbn [app]. rewrite (match_yes _ k _ eq_refl W). destruct E as [E ->]. unfold once. rewrite E.
    now rewrite (proj2 (dequote_spec _ v r) (conj eq_refl L)).
  - destruct S as (L & k & W & ->). rewrite <- app_assoc. nones. cbn [app]. rewrite (match_yes _ k _ eq_refl W). destruct E as [E ->]. unfold once. rewrite E.
    now rewrite (proj2 (dequote_spec _ v r) (conj eq_refl L)).
  - destruct S as (L & k & W & ->). rewrite <- app_assoc. nones. cbn [app]. rewrite (match_yes _ k _ eq_refl W). destruct E as [E ->]. unfold once. rewrite E.
    now rewrite (proj2 (dequote_spec _ v r) (conj eq_refl L)).
  - destruct S as (L & k & W & ->). rewrite <- app_assoc. nones. cbn [app]. rewrite (match_yes _ k _ eq_refl W). destruct E as (x & E1 & E2 & ->).
    rewrite (proj2 (dequote_spec _ v r) (conj eq_refl L)), E1. replace (x =? 0) with false by lia. now rewrite expiry_eq.
  - destruct S as (L & k & W & ->). rewrite <- app_assoc. nones. cbn [app]. rewrite (match_yes _ k _ eq_refl W). destruct E as (Hl & n & x & Ev & Hn & Hc).
    destruct Hc as [[Hc ->]|[Hc ->]].
    + rewrite (proj2 (env_ok (a_env o) _ (a_env o) r)); [now destruct o|]. exists v, n, x. split; [reflexivity|]. auto 10.
    + rewrite (proj2 (env_ok (a_env o) _ (a_env o ++ [v]) r)); [reflexivity|]. exists v, n, x. split; [reflexivity|]. auto 10.
  - destruct S as (L & k & W & ->). rewrite <- app_assoc. nones. cbn [app]. rewrite (match_yes _ k _ eq_refl W). destruct E as (Hl & Hd & ->).
    rewrite (proj2 (permit_ok false (a_open o) _ (a_open o ++ [v]) r)); [reflexivity|]. exists v, v. auto 10.
  - destruct S as (L & k & W & ->). rewrite <- app_assoc. nones. cbn [app]. rewrite (match_yes _ k _ eq_refl W). destruct E as (Hl & w & Hw & Hd & ->).
    rewrite (proj2 (permit_ok true (a_listen o) _ (a_listen o ++ [w]) r)); [reflexivity|]. exists v, w. auto 10.
  - destruct S as (L & k & W & ->). rewrite <- app_assoc. nones. cbn [app]. rewrite (match_yes _ k _ eq_refl W). destruct E as (n & Hn & ->).
    rewrite (proj2 (dequote_spec _ v r) (conj eq_refl L)). apply tun_ok in Hn as [-> Hn]. cbv zeta. now replace (n =? SSH_TUNID_ERR) with false by lia.
Qed.
Lemma opt_comma : forall o r, one_option o (44 :: r) = Some (o, 44 :: r).
Proof. intros o r. reflexivity. Qed.
End Opt.
