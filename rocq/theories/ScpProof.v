(** Proofs about the scp receiver: what any peer and any system can make it do. *)
From Coq Require Import String.
From Verif Require Import Base Text AddrModel MiscNumModel ScpModel ScpSpec.
Local Open Scope Z_scope.

Lemma beqb_eq' : forall a b, beqb a b = true <-> a = b.
Proof. apply beqb_eq. Qed.

Lemma path_snoc : forall targ ns n, path targ (ns ++ [n]) = (if beqb (path targ ns) (bs "/") && is_nil ns then [] else path targ ns) ++ 47 :: n.
Proof.
  intros targ ns n. destruct ns as [|a ns].
  - cbn [app path flat_map is_nil]. rewrite app_nil_r, andb_true_r. reflexivity.
  - cbn [is_nil]. rewrite andb_false_r. cbn [app path]. change (a :: ns ++ [n]) with ((a :: ns) ++ [n]). rewrite flat_map_app. cbn [flat_map]. rewrite app_nil_r, app_assoc. reflexivity.
Qed.
Lemma path_not_slash : forall targ n ns, n <> [] -> path targ (n :: ns) <> bs "/".
Proof.
  intros targ n ns Hn H. cbn [path flat_map] in H. apply (f_equal (@length Z)) in H.
  rewrite !app_length in H. change (length (bs "/")) with 1%nat in H. cbn [length] in H. destruct n; [congruence|]. cbn [length] in H. lia.
Qed.
Lemma path_of_path : forall targ ns n, Forall plain_name ns -> path_of (path targ ns) true n = path targ (ns ++ [n]).
Proof.
  intros targ ns n H. unfold path_of. rewrite path_snoc. destruct ns as [|a ns].
  - cbn [path is_nil]. rewrite andb_true_r. destruct (beqb targ (bs "/")) eqn:E; [|reflexivity].
    apply beqb_eq in E. subst. reflexivity.
  - cbn [is_nil]. rewrite andb_false_r. inversion H; subst. destruct H2 as (Ha & _).
    destruct (beqb (path targ (a :: ns)) (bs "/")) eqn:E; [|reflexivity]. apply beqb_eq in E. now apply path_not_slash in E.
Qed.
Lemma cstr_no0 : forall l, ~ In 0 (cstr l).
Proof. induction l as [|c l IH]; cbn; [tauto|]. destruct (c =? 0) eqn:E; [tauto|]. cbn. intros [H|H]; [lia|tauto]. Qed.
Lemma digits_incl : forall s a b v x r, digits s a b = (v, x, r) -> incl r s.
Proof.
  induction s as [|c s IH]; cbn; intros a b v x r H; [inversion H; subst; apply incl_refl|].
  destruct (isdigit c); [|inversion H; subst; apply incl_refl]. apply IH in H. now apply incl_tl.
Qed.
Lemma number_incl : forall s v r, number s = Some (v, r) -> incl r s.
Proof.
  intros s v r H. unfold number in H. destruct (digits s 0 false) as [[v' x] rr] eqn:E. apply digits_incl in E. destruct x; [|discriminate].
  destruct rr as [|c rr]; [discriminate|]. destruct (c =? 32); [|discriminate]. inversion H; subst.
  intros y Hy. apply E. now right.
Qed.
Lemma parse_ctl_incl : forall s m z n, parse_ctl s = Some (m, z, n) -> incl n s.
Proof.
  intros s m z n H. unfold parse_ctl in H. destruct s as [|a [|b [|c [|d [|sp r]]]]]; try discriminate.
  destruct (is_oct a && is_oct b && is_oct c && is_oct d && (sp =? 32)); [|discriminate].
  destruct (number r) as [[sz nm]|] eqn:E; [|discriminate]. apply number_incl in E. destruct (INT64_MAX <? sz); [discriminate|].
  inversion H; subst. intros y Hy. do 5 right. now apply E.
Qed.
Lemma bad_name_plain : forall n, bad_name n = false -> ~ In 0 n -> plain_name n.
Proof.
  intros n H H0. unfold bad_name in H. rewrite !orb_false_iff in H. destruct H as (((H1 & H2) & H3) & H4). unfold plain_name.
  splits.
  - destruct n; [discriminate|congruence].
  - intros Hi. rewrite <- not_true_iff_false in H2. apply H2, existsb_exists. exists 47. split; [assumption|lia].
  - assumption.
  - intros E. apply beqb_eq in E. congruence.
  - intros E. apply beqb_eq in E. congruence.
Qed.

Section P.
Variable Os : os.
Variable C : conf.
Variable root : list Z.
Variable pats : list (list Z).

Definition expected (n : list Z) : Prop := pats = [] \/ exists p, In p pats /\ (p = n \/ c_fnmatch C p n = true).
Definition absent (p : list Z) (t : list eff) : Prop := exists b1 b2, t = b1 ++ EStat p :: b2 /\ os_stat Os (EStat p :: b2) = None.
Definition place (p : list Z) : Prop :=
  within root p /\ (c_r C = false -> p = root \/ exists n, plain_name n /\ expected n /\ p = path root [n]).
Definition modest (e : eff) : Prop :=
  forall m, gives e = Some m -> Z.land (Z.land m (c_umask C)) (Z.lnot 448) = 0 /\ (changes_mode e -> Z.land m (c_umask C) = 0).
Definition good (b : list eff) (e : eff) : Prop :=
  (forall p, names e = Some p -> place p) /\
  (makes_dir e = true -> c_r C = true) /\
  (c_p C = false -> modest e /\ (forall p, changes_mode e -> names e = Some p -> absent p b)).
Fixpoint all_ev (t : list eff) : Prop := match t with [] => True | e :: b => good b e /\ all_ev b end.
Fixpoint failed (t : list eff) : Prop := match t with [] => False | e :: b => (file_call e /\ os_ok Os t = false) \/ failed b end.
Definition inv (base : list eff) (s : st) : Prop :=
  all_ev (tr s) /\ (exists x, tr s = x ++ base) /\ 0 <= errs s /\ (noted s = true -> 0 < errs s) /\ (failed (tr s) -> 0 < errs s).

Lemma absent_app : forall p x t, absent p t -> absent p (x ++ t).
Proof. intros p x t (b1 & b2 & -> & H). exists (x ++ b1), b2. split; [now rewrite app_assoc|assumption]. Qed.
Lemma inv_base : forall b b' s, (exists x, b = x ++ b') -> inv b s -> inv b' s.
Proof. intros b b' s (x & ->) (A & (y & B) & R). split; [assumption|]. split; [|assumption]. exists (y ++ x). now rewrite <- app_assoc. Qed.
Lemma inv_self : forall b s, inv b s -> inv (tr s) s.
Proof. intros b s (A & _ & R). split; [assumption|]. split; [now exists []|assumption]. Qed.
Lemma inv_inp : forall b s i, inv b s -> inv b (with_inp i s).
Proof. intros b s i H. exact H. Qed.
Lemma inv_incr : forall b s, inv b s -> inv b (incr s).
Proof. intros b s (A & B & D & E & F). unfold incr, inv. cbn [tr errs noted]. repeat split; try assumption; try lia. Qed.
Lemma inv_note : forall b s, inv b s -> inv b (note s).
Proof. intros b s (A & B & D & E & F). unfold note, inv. cbn [tr errs noted]. repeat split; try assumption; try lia. Qed.
Lemma inv_emit : forall b s e, inv b s -> good (tr s) e -> (~ file_call e) -> inv b (emit e s).
Proof.
  intros b s e (A & (x & B) & D & E & F) G N. unfold emit, inv. cbn [tr errs noted all_ev failed]. refine (conj (conj G A) (conj _ (conj D (conj E _)))).
  - exists (e :: x). now rewrite B.
  - intros [(H & _)|H]; [tauto|auto].
Qed.
Lemma good_reply : forall b e, (e = EOk \/ e = EErr) -> good b e.
Proof. intros b e [-> | ->]; (split; [intros; discriminate|]; split; [intros; discriminate|]; intros _; split; [intros m H; discriminate H|intros; discriminate]). Qed.
Lemma inv_call : forall b s e, inv b s -> good (tr s) e -> let '(ok, s') := call Os e s in (ok = true -> inv b s') /\ inv b (note_if (negb ok) s') /\ inv b (run_err s').
Proof.
  intros b s e (A & (x & B) & D & E & F) G. unfold call.
  assert (Hx : exists y, e :: tr s = y ++ b) by (exists (e :: x); now rewrite B).
  splits.
  - intros Hok. unfold emit, inv. cbn [tr errs noted all_ev failed]. refine (conj (conj G A) (conj Hx (conj D (conj E _)))). rewrite Hok. intros [(_ & H)|H]; [discriminate|auto].
  - destruct (os_ok Os (e :: tr s)) eqn:Hok; cbn [negb note_if]; unfold note, emit, inv; cbn [tr errs noted all_ev failed].
    2:{ refine (conj (conj G A) (conj Hx (conj _ (conj _ _)))); intros; lia. }
    refine (conj (conj G A) (conj Hx (conj D (conj E _)))). rewrite Hok. intros [(_ & H)|H]; [discriminate|auto].
  - unfold run_err, incr, emit, inv. cbn [tr errs noted all_ev]. refine (conj (conj (good_reply _ _ (or_intror eq_refl)) (conj G A)) (conj _ (conj _ (conj _ _)))); [|lia|intros H; specialize (E H); lia|lia].
    destruct Hx as (y & Hy). exists (EErr :: y). now rewrite Hy.
Qed.
Lemma inv_ok : forall b s, inv b s -> inv b (emit EOk s).
Proof. intros. apply inv_emit; [assumption| |intros []]. apply good_reply. now left. Qed.
Lemma inv_run_err : forall b s, inv b s -> inv b (run_err s).
Proof. intros. unfold run_err. apply inv_emit; [now apply inv_incr| |intros []]. apply good_reply. now right. Qed.
Lemma inv_flush : forall b s, inv b s -> inv b (flush s).
Proof.
  intros b s H. unfold flush. destruct (noted s) eqn:E; [|now apply inv_ok]. apply inv_run_err.
  destruct H as (A & B & D & E' & F). unfold inv. cbn [tr errs noted]. repeat split; try assumption; intros; discriminate.
Qed.
Lemma inv_stat : forall b s p, inv b s -> place p -> inv b (emit (EStat p) s).
Proof.
  intros. apply inv_emit; [assumption| |intros []]. split; [cbn; intros q E; inversion E; now subst|]. split; [intros; discriminate|].
  intros _. split; [intros m E; discriminate E|intros q []].
Qed.
Lemma inv_resp : forall b s, inv b s -> inv b (fst (response s)).
Proof.
  intros b s H. unfold response. destruct (inp s) as [|c r]; [assumption|]. destruct (c =? 0); [assumption|].
  destruct (read_line _ r) as [[a r']|]; cbn [fst]; [|assumption]. apply inv_incr. exact H.
Qed.

Definition inv_res (b : list eff) (r : res) : Prop := match r with Done s | Exit s => inv b s | Fuel => True end.
Definition inv_fres (b : list eff) (r : fres) : Prop := match r with FNext _ s | FQuit s => inv b s | FFuel => True end.
Definition inv_cres (b : list eff) (r : cres) : Prop := match r with CDone _ s | CQuit s => inv b s | CFuel => True end.

(** Calls on a place that set no mode. *)
Lemma good_plain : forall b e p, names e = Some p -> place p -> gives e = None -> makes_dir e = false -> good b e.
Proof.
  intros b e p N P G M. split; [intros q E; rewrite N in E; inversion E; now subst|]. split; [intros E; congruence|].
  intros _. split; [intros m E; congruence|]. intros q H. destruct e; try discriminate; destruct H.
Qed.

Lemma inv_copy : forall b np cnt, place np -> forall f left_ w s, inv b s -> inv_cres b (copy Os f np cnt left_ w s).
Proof.
  intros b np cnt P. induction f as [|f IH]; intros left_ w s H; [exact I|]. cbn [copy].
  destruct (left_ <=? 0); [exact H|]. destruct (zlen (inp s) <? Z.min cnt left_); [now apply inv_run_err, inv_inp|].
  destruct w; [now apply IH, inv_inp|].
  pose proof (inv_call b (with_inp (zdrop (Z.min cnt left_) (inp s)) s) (EWrite np (ztake (Z.min cnt left_) (inp s))) (inv_inp _ _ _ H) (good_plain _ (EWrite np _) np eq_refl P eq_refl eq_refl)) as K.
  destruct (call Os _ _) as [ok s2]. destruct K as (_ & K & _). now apply IH.
Qed.

Lemma land_lnot : forall m u, Z.land (Z.land m (Z.lnot u)) u = 0.
Proof. intros. rewrite <- Z.land_assoc. rewrite (Z.land_comm (Z.lnot u)). rewrite Z.land_lnot_diag. apply Z.land_0_r. Qed.
Lemma land_lor : forall m u k, Z.land k (Z.lnot 448) = 0 -> Z.land m u = 0 -> Z.land (Z.land (Z.lor m k) u) (Z.lnot 448) = 0.
Proof.
  intros m u k Hk Hm. rewrite Z.land_lor_distr_l, Hm, Z.lor_0_l. rewrite <- Z.land_assoc, (Z.land_comm u), Z.land_assoc, Hk. apply Z.land_0_l.
Qed.
Lemma eff_mode_modest : forall m, c_p C = false -> Z.land (eff_mode C m) (c_umask C) = 0.
Proof. intros m H. unfold eff_mode. rewrite H. apply land_lnot. Qed.
Definition tidy (m : Z) : Prop := c_p C = false -> Z.land m (c_umask C) = 0.
Lemma modest_of : forall e m, gives e = Some m -> Z.land m (c_umask C) = 0 -> modest e.
Proof. intros e m G H m' E. rewrite G in E. inversion E; subst. rewrite H. split; [apply Z.land_0_l|reflexivity]. Qed.

Lemma inv_set_mode : forall b np ex om s, place np -> tidy om -> (ex = None -> absent np (tr s)) -> inv b s -> inv b (set_mode Os C np ex om s).
Proof.
  intros b np ex om s P T A H. unfold set_mode. destruct (c_p C) eqn:Ep.
  - destruct (is_some ex || negb (om =? Z.lor om S_IWUSR)); [|assumption].
    assert (G : good (tr s) (EFchmod np om)).
    { split; [cbn; intros q E; inversion E; now subst|]. split; [intros; discriminate|]. intros E; congruence. }
    pose proof (inv_call b s _ H G) as K. destruct (call Os _ s). apply K.
  - destruct ex; cbn [is_some negb andb]; [assumption|]. destruct (negb (om =? Z.lor om S_IWUSR)); [|assumption].
    assert (G : good (tr s) (EFchmod np (Z.land om (Z.lnot (c_umask C))))).
    { split; [cbn; intros q E; inversion E; now subst|]. split; [intros; discriminate|]. intros _. split; [|intros q _ E; inversion E; subst; now apply A].
      eapply modest_of; [reflexivity|]. apply land_lnot. }
    pose proof (inv_call b s _ H G) as K. destruct (call Os _ s). apply K.
Qed.
Lemma tr_note_if : forall b s, tr (note_if b s) = tr s.
Proof. intros []; reflexivity. Qed.
Lemma inv_finish : forall b np ex om z tm w s, place np -> tidy om -> (ex = None -> absent np (tr s)) -> inv b s -> inv_fres b (finish Os C np ex om z tm w s).
Proof.
  intros b np ex om z tm w s P T A H. unfold finish.
  set (s1 := if _ && _ then _ else s).
  assert (H1 : inv b s1 /\ (ex = None -> absent np (tr s1))).
  { subst s1. destruct (_ && _); [|tauto].
    pose proof (inv_call b s (ETrunc np z) H (good_plain _ (ETrunc np z) np eq_refl P eq_refl eq_refl)) as K.
    unfold call in *. split; [apply K|]. intros E. rewrite tr_note_if. cbn [tr emit]. apply (absent_app np [_]). now apply A. }
  clearbody s1. destruct H1 as (H1 & A1).
  pose proof (inv_set_mode b np ex om s1 P T A1 H1) as H2. set (s2 := set_mode _ _ _ _ _ _) in *. clearbody s2.
  pose proof (inv_call b s2 (EClose np) H2 (good_plain _ (EClose np) np eq_refl P eq_refl eq_refl)) as K.
  destruct (call Os (EClose np) s2) as [okc s3]. destruct K as (_ & K & _). set (s4 := note_if (negb okc) s3) in *. clearbody s4.
  pose proof (inv_resp b s4 K) as H5. destruct (response s4) as [s5 q]. cbn [fst] in H5. destruct q; [exact H5|].
  destruct tm as [t|]; [|now apply inv_flush]. destruct w; [now apply inv_flush|].
  pose proof (inv_call b s5 (EUtimes np t) H5 (good_plain _ (EUtimes np t) np eq_refl P eq_refl eq_refl)) as K6.
  destruct (call Os (EUtimes np t) s5) as [okt s6]. apply inv_flush, K6.
Qed.
Lemma copy_trace : forall np cnt f left_ w s w' s', copy Os f np cnt left_ w s = CDone w' s' -> exists x, tr s' = x ++ tr s.
Proof.
  induction f as [|f IH]; intros left_ w s w' s' H; [discriminate|]. cbn [copy] in H.
  destruct (left_ <=? 0); [inversion H; subst; now exists []|]. destruct (zlen (inp s) <? Z.min cnt left_); [discriminate|].
  destruct w; [apply IH in H; exact H|]. unfold call in H. apply IH in H. destruct H as (x & H). rewrite tr_note_if in H. cbn [tr emit with_inp] in H.
  eexists (x ++ [_]). rewrite <- app_assoc. exact H.
Qed.
Lemma inv_recv : forall b np ex om z tm s, place np -> tidy om -> (ex = None -> absent np (tr s)) -> inv b s -> inv_fres b (recv_file Os C np ex om z tm s).
Proof.
  intros b np ex om z tm s P T A H. unfold recv_file.
  assert (G : good (tr s) (EOpen np (Z.lor om S_IWUSR))).
  { split; [cbn; intros q E; inversion E; now subst|]. split; [intros; discriminate|]. intros Ep. split; [|intros q []].
    intros m E. inversion E; subst. split; [apply land_lor; [reflexivity|now apply T]|intros []]. }
  pose proof (inv_call b s _ H G) as K. unfold call in *. destruct (os_ok Os (EOpen np (Z.lor om S_IWUSR) :: tr s)) eqn:Hok; cbn [negb].
  2:{ apply K. }
  destruct K as (K & _ & _). specialize (K eq_refl). apply inv_ok in K.
  set (s2 := emit EOk _) in *.
  assert (A2 : ex = None -> absent np (tr (emit (EBuf np) s2))).
  { intros E. subst s2. cbn [tr emit]. apply (absent_app np [_; _; _]). now apply A. }
  assert (K3 : inv b (emit (EBuf np) s2)) by (apply inv_emit; [assumption|now eapply (good_plain _ (EBuf np) np)|intros []]).
  destruct (os_blk Os (EBuf np :: tr s2)) as [cnt|].
  - pose proof (inv_copy b np (Z.pos cnt) P (S (length (inp (emit (EBuf np) s2)))) z false _ K3) as Kc.
    destruct (copy Os _ np (Z.pos cnt) z false _) as [w s4|s4|] eqn:Ec; [|exact Kc|exact I].
    apply copy_trace in Ec. destruct Ec as (x & Ec). apply inv_finish; [assumption|assumption| |exact Kc].
    intros E. rewrite Ec. apply absent_app. now apply A2.
  - cbn [inv_fres]. apply inv_run_err in K3. destruct K3 as (Q1 & (y & Q2) & Q3 & Q4 & Q5).
    set (s3 := run_err _) in *.
    assert (Ee : 0 < errs s3) by (subst s3; cbn [errs run_err emit incr]; destruct H as (_ & _ & Hp & _); cbn; lia).
    unfold emit, inv. cbn [tr errs noted all_ev]. refine (conj (conj (good_plain _ (EClose np) np eq_refl P eq_refl eq_refl) Q1) (conj _ (conj Q3 (conj _ _)))); try (intros; assumption).
    exists (EClose np :: y). now rewrite Q2.
Qed.
Lemma inv_enter : forall b targ s, place targ -> inv b s -> inv b (fst (enter Os C targ s)).
Proof.
  intros b targ s P H. unfold enter. destruct (c_d C).
  - unfold stat. cbn [fst snd]. destruct (negb (is_dir (os_stat Os (EStat targ :: tr s)))); cbn [fst].
    + apply inv_run_err. now apply inv_stat.
    + apply inv_stat; [|assumption]. apply inv_ok. now apply inv_stat.
  - cbn [is_dir negb]. unfold stat. cbn [fst]. apply inv_stat; [|assumption]. now apply inv_ok.
Qed.
Lemma name_ok_expected : forall n, name_ok C pats n = true -> expected n.
Proof.
  intros n H. unfold name_ok in H. apply orb_true_iff in H. destruct H as [H|H]; [left; destruct pats; [reflexivity|discriminate]|].
  right. apply existsb_exists in H. destruct H as (p & Hi & Hp). exists p. split; [assumption|]. apply orb_true_iff in Hp. rewrite beqb_eq in Hp. assumption.
Qed.

Lemma inv_loop : forall f b targ d tm s, (exists ns, Forall plain_name ns /\ targ = path root ns) -> (c_r C = false -> targ = root) ->
  inv b s -> inv_res b (loop Os C f targ d pats tm s).
Proof.
  induction f as [|f IH]; intros b targ d tm s W R H; [exact I|]. cbn [loop].
  destruct (inp s) as [|c r]; [exact H|]. destruct (c =? 10); [now apply inv_run_err, inv_inp|].
  destruct (read_line 2046 r) as [[line r']|]; [|now apply inv_run_err, inv_inp]. cbv zeta.
  assert (H1 : inv b (with_inp r' s)) by exact H. set (s1 := with_inp r' s) in *. clearbody s1. clear H s.
  destruct (c =? 1); [apply IH; try assumption; now apply inv_incr|].
  destruct (c =? 2); [exact H1|]. destruct (c =? 69); [now apply inv_ok|].
  set (arg := cstr _). assert (Harg : ~ In 0 arg) by apply cstr_no0. clearbody arg.
  destruct (c =? 84).
  { destruct (parse_times arg) as [tm'|]; [|now apply inv_run_err]. apply IH; try assumption. now apply inv_ok. }
  destruct ((c =? 67) || (c =? 68)); [|now apply inv_run_err].
  destruct (parse_ctl arg) as [[[m size] name]|] eqn:Ec; [|now apply inv_run_err].
  destruct (bad_name name || negb (name_ok C pats name)) eqn:Eb; [now apply inv_run_err|].
  apply orb_false_iff in Eb. destruct Eb as (Eb & En). apply negb_false_iff in En.
  assert (Pn : plain_name name). { apply bad_name_plain; [assumption|]. intros Hi. apply Harg. apply (parse_ctl_incl _ _ _ _ Ec). assumption. }
  set (np := path_of targ d name).
  assert (Wn : exists ns, Forall plain_name ns /\ np = path root ns).
  { destruct W as (ns & Hn & ->). subst np. destruct d; [|cbn [path_of]; now exists ns]. exists (ns ++ [name]). split; [apply Forall_app; split; [assumption|now constructor]|].
    now apply path_of_path. }
  assert (Pp : place np).
  { split; [destruct Wn as (ns & Hn & E); exists ns; split; assumption|]. intros Er. subst np. rewrite (R Er). destruct d; [|now left].
    right. exists name. split; [assumption|]. split; [now apply name_ok_expected|].
    pose proof (path_of_path root [] name (Forall_nil _)) as E. exact E. }
  unfold stat. set (ex := os_stat Os (EStat np :: tr s1)).
  assert (H2 : inv b (emit (EStat np) s1)) by now apply inv_stat.
  assert (A2 : ex = None -> absent np (tr (emit (EStat np) s1))).
  { intros E. exists [], (tr s1). split; [reflexivity|exact E]. }
  clearbody ex. set (s2 := emit (EStat np) s1) in *. clearbody s2.
  assert (T : tidy (eff_mode C m)) by (intros Ep; now apply eff_mode_modest).
  destruct (c =? 68).
  2:{ pose proof (inv_recv b np ex (eff_mode C m) size tm s2 Pp T A2 H2) as K. destruct (recv_file _ _ _ _ _ _ _ _) as [tm' s3|s3|]; [|exact K|exact I].
      now apply IH. }
  destruct (c_r C) eqn:Er; cbn [negb]; [|now apply inv_run_err].
  assert (Gm : c_p C = true \/ absent np (tr s2) -> forall x, good (x ++ tr s2) (EChmod np (eff_mode C m))).
  { intros Hc x. split; [cbn; intros q E; inversion E; now subst|]. split; [intros _; exact Er|]. intros Ep. destruct Hc as [Hc|Hc]; [congruence|].
    split; [eapply modest_of; [reflexivity|now apply T]|]. intros q _ E. inversion E; subst. now apply absent_app. }
  set (g := if is_some ex then _ else _).
  assert (Hg : match g with
               | (None, s3) => inv b (run_err s3)
               | (Some modf, s3) => inv b s3 /\ (modf = true -> c_p C = true \/ absent np (tr s2)) /\ exists x, tr s3 = x ++ tr s2
               end).
  { subst g. destruct ex as [k|]; cbn [is_some].
    - destruct (is_dir (Some k)); [|now apply inv_run_err]. split; [|split].
      + destruct (c_p C) eqn:Ep; [|assumption]. unfold call. cbn [snd]. apply inv_emit; [assumption| |intros []]. apply (Gm (or_introl eq_refl) []).
      + intros E. now left.
      + destruct (c_p C); [|now exists []]. unfold call. cbn [snd tr emit]. now exists [EChmod np (eff_mode C m)].
    - assert (G : good (tr s2) (EMkdir np (Z.lor (eff_mode C m) S_IRWXU))).
      { split; [cbn; intros q E; inversion E; now subst|]. split; [intros _; exact Er|]. intros Ep. split; [|intros q []].
        intros m' E. inversion E; subst. split; [apply land_lor; [reflexivity|now apply T]|intros []]. }
      pose proof (inv_call b s2 _ H2 G) as K. unfold call in *. destruct (os_ok Os (EMkdir np (Z.lor (eff_mode C m) S_IRWXU) :: tr s2)) eqn:Hok; [|apply K]. split; [apply K; reflexivity|]. split; [intros _; right; now apply A2|].
      cbn [tr emit]. now exists [EMkdir np (Z.lor (eff_mode C m) S_IRWXU)]. }
  clearbody g. destruct g as [[modf|] s3]; [|apply IH; [assumption|congruence|assumption]].
  destruct Hg as (H3 & Hm & (x3 & X3)).
  pose proof (inv_enter (tr s3) np s3 Pp (inv_self _ _ H3)) as H4. destruct (enter Os C np s3) as [s4 [dd|]]; cbn [fst] in H4.
  2:{ cbn [inv_res]. eapply inv_base; [|exact H4]. destruct H3 as (_ & B & _). exact B. }
  pose proof (IH (tr s3) np dd None s4 Wn ltac:(congruence) H4) as H5.
  assert (Bb : exists x, tr s3 = x ++ b) by (destruct H3 as (_ & B & _); exact B).
  destruct (loop Os C f np dd pats None s4) as [s5|s5|]; [|cbn [inv_res]; eapply inv_base; eassumption|exact I].
  cbn [inv_res] in H5.
  set (s6 := match tm with Some t => _ | None => s5 end).
  assert (H6 : inv (tr s3) s6).
  { subst s6. destruct tm as [t|]; [|assumption]. unfold call. cbn [snd]. apply inv_emit; [assumption| |intros []].
    split; [cbn; intros q E; inversion E; now subst|]. split; [intros _; exact Er|]. intros _. split; [intros m' E; discriminate E|intros q []]. }
  clearbody s6. apply IH; [assumption|congruence|]. eapply inv_base; [exact Bb|].
  destruct modf; [|assumption]. unfold call. cbn [snd]. apply inv_emit; [assumption| |intros []].
  destruct H6 as (_ & (y & Y) & _). rewrite Y, X3, app_assoc. apply Gm. now apply Hm.
Qed.

Lemma all_ev_happens : forall t after e before, all_ev t -> t = after ++ e :: before -> good before e.
Proof.
  intros t after. revert t. induction after as [|a after IH]; intros t e before H E; subst; cbn in H; [tauto|]. eapply IH; [|reflexivity]. tauto.
Qed.
Lemma failed_happens : forall t after e before, t = after ++ e :: before -> file_call e -> os_ok Os (e :: before) = false -> failed t.
Proof.
  intros t after. revert t. induction after as [|a after IH]; intros t e before E F O; subst; cbn; [now left|]. right. eapply IH; try reflexivity; eassumption.
Qed.
End P.

Lemma sink_inv : forall Os C targ i, exists pats,
  (pats = match c_src C with
          | Some src => if negb (c_r C) && negb (c_T C) then match expand src with XOk l => l | _ => [] end else []
          | None => []
          end) /\ inv_res Os C targ pats [] (sink Os C targ (start i)).
Proof.
  intros. eexists. split; [reflexivity|]. set (pats := match c_src C with Some _ => _ | None => _ end).
  unfold sink.
  assert (I0 : inv Os C targ pats [] (start i)).
  { repeat split; cbn; try lia; try discriminate; try tauto. now exists []. }
  assert (P0 : place C targ pats targ).
  { split; [exists []; split; [constructor|reflexivity]|]. intros _. now left. }
  pose proof (inv_enter Os C targ pats [] targ (start i) P0 I0) as H.
  destruct (enter Os C targ (start i)) as [s1 [d|]]; cbn [fst] in H; [|exact H].
  assert (L : inv_res Os C targ pats [] (loop Os C (S (length (inp s1))) targ d pats None s1)).
  { apply inv_loop; [exists []; split; [constructor|reflexivity]|reflexivity|exact H]. }
  destruct (c_src C) as [src|]; [|exact L]. subst pats. destruct (negb (c_r C) && negb (c_T C)); [|exact L].
  destruct (expand src); [exact L|exact H|exact I].
Qed.
