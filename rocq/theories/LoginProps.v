(** C74: who may log in. *)
From Coq Require Import String.
From Verif Require Import Base Text MatchModel MatchSpec MatchProof MatchProps MiscNumModel AddrModel AddrSpec AddrProps ServModel ServSpec ServProof ServProof2 ServProof4 ServProof5 ServProps LoginModel LoginSpec.
Local Open Scope Z_scope.

Lemma rcut : forall s, match strrchr_cut 64 s with None => ~ In 64 s | Some (a, b) => s = a ++ 64 :: b /\ ~ In 64 b end.
Proof.
  induction s as [|c s IH]; cbn [strrchr_cut]; [intros []|]. destruct (strrchr_cut 64 s) as [[a b]|].
  - destruct IH as [-> IH]. split; [reflexivity|assumption].
  - destruct (c =? 64) eqn:E; [assert (c = 64) by lia; subst; auto|]. intros [H|H]; [lia|auto].
Qed.
Lemma cut_unique : forall (a b a' b' : list Z), a ++ 64 :: b = a' ++ 64 :: b' -> ~ In 64 b -> ~ In 64 b' -> a = a' /\ b = b'.
Proof.
  induction a as [|c a IH]; intros b [|c' a'] b' H Hb Hb'; cbn [app] in H.
  - inversion H. auto.
  - inversion H; subst. exfalso. apply Hb. apply in_or_app. right. now left.
  - inversion H; subst. exfalso. apply Hb'. apply in_or_app. right. now left.
  - inversion H; subst. destruct (IH b a' b') as [-> ->]; auto.
Qed.

(** match_host_and_ip for a list checked when the configuration was read. *)
Lemma host_and_ip_checked : forall pton h t l, (forall s a, pton s = Some a -> wf a) -> Forall fits (entries l) ->
  addr_match_list pton None l <> -2 ->
  (match_host_and_ip pton (Some h) (Some t) l = Some 1 /\ place pton h t l) \/ (match_host_and_ip pton (Some h) (Some t) l = Some 0 /\ ~ place pton h t l).
Proof.
  intros pton h t l Hp Hf Hc.
  assert (V : forall e, In e (split 44 l) -> ~ invalid_entry pton e).
  { intros e He Hi. apply Hc. apply (C13_check pton l Hp). eauto. }
  destruct (pton t) as [x|] eqn:Et.
  - destruct (C13_host_and_ip pton h t x l Hp Et Hf) as [A B].
    assert (NB : match_host_and_ip pton (Some h) (Some t) l <> Some (-1)).
    { rewrite B. intros (pre & e & post & Q & I & _). apply (V e); [rewrite Q; apply in_or_app; right; now left|exact I]. }
    assert (P : match_host_and_ip pton (Some h) (Some t) l = Some 1 <-> place pton h t l).
    { rewrite A. unfold place. split.
      - intros (F & G & K & L). split; [intros x0 e X; rewrite Et in X; injection X as <-; intros He; now apply G|]. split; [exact K|].
        destruct L as [(e & L)|L]; [left; exists x, e; tauto|now right].
      - intros (G & K & L). split; [exact V|]. split; [intros e He; now apply G|]. split; [exact K|].
        destruct L as [(x0 & e & X & L)|L]; [left; rewrite Et in X; injection X as <-; eauto|now right]. }
    assert (R : match_host_and_ip pton (Some h) (Some t) l = Some 1 \/ match_host_and_ip pton (Some h) (Some t) l = Some 0 \/ match_host_and_ip pton (Some h) (Some t) l = Some (-1)).
    { unfold match_host_and_ip. destruct (_ =? -2); [auto|]. destruct (_ =? -1); [auto|]. destruct (C11_total (map tolower h) l true) as (m & Q & _). unfold match_hostname. rewrite Q. destruct (m =? -1); [auto|]. destruct (_ && _); auto. }
    destruct R as [R|[R|R]]; [left; split; [exact R|now apply P]|right; split; [exact R|rewrite <- P, R; discriminate]|congruence].
  - unfold match_host_and_ip, addr_match_list. rewrite Et. change (0 =? -2) with false. change (0 =? -1) with false. change (0 =? 0) with true. cbv zeta iota. destruct (C11_hostname h l Hf) as [N P].
    destruct (C11_total (map tolower h) l true) as (m & Q & Hm). fold (match_hostname h l) in Q. rewrite Q in *.
    assert (PL : place pton h t l <-> ~ some_negative true (map tolower h) (entries l) /\ some_positive true (map tolower h) (entries l)).
    { unfold place. split; [intros (_ & K & [(x & e & X & _)|L]); [congruence|auto]|]. intros [K L]. split; [intros x e X; congruence|]. auto. }
    rewrite andb_true_r. destruct Hm as [->|[->| ->]].
    + right. split; [reflexivity|]. rewrite PL. intros [K _]. now apply K, N.
    + right. split; [reflexivity|]. rewrite PL, <- P. discriminate.
    + left. split; [reflexivity|]. now apply PL, P.
Qed.
Lemma user_checked : forall E h t u p, (forall s a, e_pton E s = Some a -> wf a) -> short p -> user_pattern_ok E p = true ->
  (match_user (e_pton E) u (Some h) (Some t) p = Some 1 /\ covers (e_pton E) h t u p) \/ (match_user (e_pton E) u (Some h) (Some t) p = Some 0 /\ ~ covers (e_pton E) h t u p).
Proof.
  intros E h t u p Hp Hs Hc. unfold match_user, covers. unfold user_pattern_ok in Hc. pose proof (rcut p) as R. destruct (strrchr_cut 64 p) as [[a b]|].
  - destruct R as [-> Nb]. destruct (match_pattern u a) eqn:MP.
    + apply negb_true_iff, Z.eqb_neq in Hc. apply match_pattern_glob in MP. destruct (host_and_ip_checked (e_pton E) h t b Hp (Hs a b eq_refl Nb) Hc) as [[A B]|[A B]].
      * left. split; [exact A|]. right. exists a, b. auto.
      * right. split; [exact A|]. intros [[X _]|(a' & b' & X & Y & Z0 & W)]; [apply X; apply in_or_app; right; now left|].
        destruct (cut_unique _ _ _ _ X Nb Y) as [<- <-]. exact (B W).
    + right. split; [reflexivity|]. intros [[X _]|(a' & b' & X & Y & Z0 & W)]; [apply X; apply in_or_app; right; now left|].
      destruct (cut_unique _ _ _ _ X Nb Y) as [<- <-]. apply match_pattern_glob in Z0. congruence.
  - destruct (match_pattern u p) eqn:MP.
    + left. split; [reflexivity|]. left. split; [exact R|]. now apply match_pattern_glob.
    + right. split; [reflexivity|]. intros [[_ X]|(a' & b' & X & _)]; [apply match_pattern_glob in X; congruence|]. apply R. rewrite X. apply in_or_app. right. now left.
Qed.

(** The patterns in force were checked. *)
Definition good_users (E : env) (o : opts) : Prop := forall a, In a [allow_users; deny_users] -> Forall (fun p => user_pattern_ok E p = true) (o_arr o a).
Definition users_op (p : op) : bool := match p with OGroups allow_users | OGroups deny_users => false | _ => true end.
Lemma table_users : forallb (fun '(n, p, _) => users_op p) keywords = true.
Proof. vm_compute. reflexivity. Qed.
Lemma exec_users : forall E p k rest ws o o' m, find_keyword keywords k = Some (p, m) -> exec E p k rest ws true o = Some o' -> good_users E o -> good_users E o'.
Proof.
  intros E p k rest ws o o' m F H G a Ha. destruct (exec_arr E _ _ _ _ _ _ _ F H a) as [(v & A & B & _)|[_ B]]; rewrite B; [|exact (G a Ha)].
  assert (GR : is_growing a = true) by (destruct Ha as [<-|[<-|[]]]; reflexivity). rewrite GR. apply Forall_app. split; [exact (G a Ha)|].
  destruct (find_keyword_in _ _ _ _ F) as (n & I & _). pose proof table_users as T. rewrite forallb_forall in T. specialize (T _ I). cbn in T.
  destruct p; cbn [op_arr] in A; try destruct A as [-> ->]; try contradiction.
  - cbn [exec] in H. destruct (is_nil ws || _) eqn:Q; [discriminate|]. apply orb_false_iff in Q. destruct Q as [_ Q]. apply negb_false_iff in Q. rewrite forallb_forall in Q.
    apply Forall_forall. intros w Hw. specialize (Q w Hw). now apply andb_true_iff in Q.
  - exfalso. destruct Ha as [<-|[<-|[]]]; discriminate T.
  - exfalso. destruct Ha as [X|[X|[]]]; discriminate X.
  - exfalso. pose proof (keyword_grow _ _ _ F) as KG. cbn [grow_op] in KG. destruct A as [<- _]. rewrite GR in KG. discriminate.
Qed.
Lemma run_users : forall E ds o o', run_dirs E ds o = Some o' -> good_users E o -> good_users E o'.
Proof.
  induction ds as [|d ds IH]; intros o o' H G; cbn [run_dirs] in H; [injection H as <-; exact G|].
  destruct (find_keyword keywords (d_key d)) as [[p m]|] eqn:F; [|discriminate]. destruct (exec E p (d_key d) (d_rest d) (d_args d) true o) as [o1|] eqn:X; [|discriminate].
  eapply IH; [exact H|]. eapply exec_users; eauto.
Qed.
Lemma connection_users : forall E cmdline text inc c r, self_contained (e_sshdir E) inc text -> connection E cmdline text inc c = Settings r -> good_users E r.
Proof.
  intros E cmdline text inc c r SC H. destruct (connection_runs E _ _ _ _ _ SC H) as (out & cds & gen & mine & o2 & mo & _ & _ & _ & _ & R1 & R2 & CS).
  assert (G0 : good_users E init_opts) by (intros a _; constructor).
  pose proof (run_users E _ _ _ R1 G0) as G1. pose proof (run_users E _ _ _ R2 G0) as G2.
  destruct (copy_set_get _ _ _ CS) as (_ & _ & K). intros a Ha. rewrite K. cbn [fill_default o_arr].
  destruct Ha as [<-|[<-|[]]]; destruct (is_nil _); first [apply G2; cbn; auto|apply G1; cbn; auto].
Qed.

Lemma deny_checked : forall E h t u ps, (forall s a, e_pton E s = Some a -> wf a) -> Forall short ps -> Forall (fun p => user_pattern_ok E p = true) ps ->
  (deny_loop E u (Some h) (Some t) ps = Some false /\ forall p, In p ps -> ~ covers (e_pton E) h t u p) \/
  (deny_loop E u (Some h) (Some t) ps = Some true /\ exists p, In p ps /\ covers (e_pton E) h t u p).
Proof.
  intros E h t u ps Hp. induction ps as [|p ps IH]; intros Hs Hc; [left; split; [reflexivity|intros p []]|].
  inversion Hs as [|? ? S1 S2]; subst. inversion Hc as [|? ? C1 C2]; subst. cbn [deny_loop].
  destruct (user_checked E h t u p Hp S1 C1) as [[-> B]|[-> B]]; cbn.
  - right. split; [reflexivity|]. exists p. auto.
  - destruct (IH S2 C2) as [[-> Q]|[-> (q & Q1 & Q2)]]; [left; split; [reflexivity|]; intros q [<-|Hq]; auto|right; split; [reflexivity|]; exists q; auto].
Qed.
Lemma allow_checked : forall E h t u ps, (forall s a, e_pton E s = Some a -> wf a) -> Forall short ps -> Forall (fun p => user_pattern_ok E p = true) ps ->
  (allow_loop E u (Some h) (Some t) ps = Some false /\ forall p, In p ps -> ~ covers (e_pton E) h t u p) \/
  (allow_loop E u (Some h) (Some t) ps = Some true /\ exists p, In p ps /\ covers (e_pton E) h t u p).
Proof.
  intros E h t u ps Hp. induction ps as [|p ps IH]; intros Hs Hc; [left; split; [reflexivity|intros p []]|].
  inversion Hs as [|? ? S1 S2]; subst. inversion Hc as [|? ? C1 C2]; subst. cbn [allow_loop].
  destruct (user_checked E h t u p Hp S1 C1) as [[-> B]|[-> B]]; cbn.
  - right. split; [reflexivity|]. exists p. auto.
  - destruct (IH S2 C2) as [[-> Q]|[-> (q & Q1 & Q2)]]; [left; split; [reflexivity|]; intros q [<-|Hq]; auto|right; split; [reflexivity|]; exists q; auto].
Qed.
Lemma ga_match_iff : forall gs ps, ga_match gs ps = true <-> exists g p, In g gs /\ In p ps /\ glob p g.
Proof.
  intros gs ps. unfold ga_match. rewrite existsb_exists. split.
  - intros (g & A & B). apply existsb_exists in B. destruct B as (p & B & C). apply match_pattern_glob in C. eauto.
  - intros (g & p & A & B & C). exists g. split; [exact A|]. apply existsb_exists. exists p. split; [exact B|]. now apply match_pattern_glob.
Qed.
Lemma mode_bits : forall m, Z.land m 73 = 0 <-> forall b, In b [0; 3; 6] -> Z.testbit m b = false.
Proof.
  intros m. split.
  - intros H b Hb. assert (X : Z.testbit (Z.land m 73) b = false) by (rewrite H; apply Z.bits_0). rewrite Z.land_spec in X. cbn [In] in Hb.
    destruct Hb as [<-|[<-|[<-|[]]]]; cbn in X; now rewrite andb_true_r in X.
  - intros H. apply Z.bits_inj_0. intros n. rewrite Z.land_spec. destruct (Z.testbit 73 n) eqn:Q; [|apply andb_false_r].
    rewrite andb_true_r. apply H. destruct (Z.ltb_spec n 0); [rewrite Z.testbit_neg_r in Q by lia; discriminate|].
    destruct (Z.ltb_spec n 7).
    + assert (n = 0 \/ n = 1 \/ n = 2 \/ n = 3 \/ n = 4 \/ n = 5 \/ n = 6) by lia.
      destruct H2 as [->|[->|[->|[->|[->|[->| ->]]]]]]; cbn [In]; auto; discriminate Q.
    + exfalso. rewrite Z.bits_above_log2 in Q; [discriminate|lia|]. cbn. lia.
Qed.
Lemma shell_iff : forall M a, shell_ok M a = true <-> exists f mode, f = (if list_eq_dec Z.eq_dec (ac_shell a) [] then bs "/bin/sh" else ac_shell a) /\ m_stat M f = Some (true, mode) /\
                         exists bit, In bit [0; 3; 6] /\ Z.testbit mode bit = true.
Proof.
  intros M a. unfold shell_ok. assert (Q : shell_of a = (if list_eq_dec Z.eq_dec (ac_shell a) [] then bs "/bin/sh" else ac_shell a)).
  { unfold shell_of. destruct (list_eq_dec Z.eq_dec (ac_shell a) []) as [->|N]; [reflexivity|]. destruct (ac_shell a); [congruence|reflexivity]. }
  rewrite Q. destruct (m_stat M _) as [[reg mode]|] eqn:S.
  - split.
    + intros H. apply andb_true_iff in H. destruct H as [-> H]. apply negb_true_iff, Z.eqb_neq in H. do 2 eexists. split; [reflexivity|]. split; [exact S|].
      destruct (Z.testbit mode 0) eqn:B0; [exists 0; cbn; auto|]. destruct (Z.testbit mode 3) eqn:B3; [exists 3; cbn; auto|]. destruct (Z.testbit mode 6) eqn:B6; [exists 6; cbn; auto|].
      exfalso. apply H. apply mode_bits. intros b [<-|[<-|[<-|[]]]]; assumption.
    + intros (f & mode' & -> & S' & bit & B & T). rewrite S in S'. injection S' as -> ->. apply andb_true_iff. split; [reflexivity|]. apply negb_true_iff, Z.eqb_neq. intros Z0.
      apply mode_bits with (b := bit) in Z0; [congruence|exact B].
  - split; [discriminate|]. intros (f & mode & -> & S' & _). congruence.
Qed.
Lemma groups_iff : forall E o n, groups_ok o (match e_groups E n with Some gs => gs | None => [] end) = true <->
  o_arr o deny_groups = [] /\ o_arr o allow_groups = [] \/
           exists g gs, e_groups E n = Some (g :: gs) /\
             (forall h p, In h (g :: gs) -> In p (o_arr o deny_groups) -> ~ glob p h) /\
             (o_arr o allow_groups = [] \/ exists h p, In h (g :: gs) /\ In p (o_arr o allow_groups) /\ glob p h).
Proof.
  intros E o n. unfold groups_ok. set (gs := match e_groups E n with Some gs => gs | None => [] end).
  assert (G : forall g r, gs = g :: r <-> e_groups E n = Some (g :: r)).
  { intros g r. unfold gs. destruct (e_groups E n); split; congruence. }
  destruct gs as [|g r] eqn:GE.
  - cbn [is_nil]. destruct (o_arr o deny_groups) as [|d ds], (o_arr o allow_groups) as [|w ws]; cbn [is_nil negb orb]; (split; [try discriminate; auto|]);
      try reflexivity; intros [[X Y]|(g & r & X & _)]; try discriminate; apply G in X; discriminate.
  - assert (EG : e_groups E n = Some (g :: r)) by now apply G. cbn [is_nil].
    assert (D : ga_match (g :: r) (o_arr o deny_groups) = false <-> forall h p, In h (g :: r) -> In p (o_arr o deny_groups) -> ~ glob p h).
    { rewrite <- not_true_iff_false, ga_match_iff. split; [intros H h p A B C; apply H; eauto|intros H (h & p & A & B & C); eapply H; eauto]. }
    assert (W : ga_match (g :: r) (o_arr o allow_groups) = true <-> exists h p, In h (g :: r) /\ In p (o_arr o allow_groups) /\ glob p h) by apply ga_match_iff.
    destruct (o_arr o deny_groups) as [|d ds] eqn:DG; cbn [is_nil negb andb orb].
    + destruct (o_arr o allow_groups) as [|w ws]; cbn [is_nil negb andb orb].
      * split; [auto|reflexivity].
      * split.
        -- intros H. right. exists g, r. split; [exact EG|]. split; [intros h p _ []|]. right. apply W. destruct (ga_match (g :: r) (w :: ws)); [reflexivity|discriminate].
        -- intros [[_ X]|(g' & r' & X & _ & [Y|Y])]; [discriminate|discriminate|]. rewrite EG in X. injection X as <- <-. apply W in Y. now rewrite Y.
    + split.
      * intros H. right. exists g, r. split; [exact EG|]. destruct (ga_match (g :: r) (d :: ds)) eqn:Q; [discriminate|]. split; [now apply D|].
        destruct (o_arr o allow_groups) as [|w ws]; cbn [is_nil negb andb] in *; [now left|]. right. apply W. destruct (ga_match (g :: r) (w :: ws)); [reflexivity|discriminate].
      * intros [[X _]|(g' & r' & X & Y & Z0)]; [discriminate|]. rewrite EG in X. injection X as <- <-. apply D in Y. rewrite Y.
        destruct Z0 as [->|Z0]; [reflexivity|]. apply W in Z0. rewrite Z0. cbn. now rewrite andb_false_r.
Qed.

(** The decision is the policy; no pattern of an accepted configuration makes the server die. *)
Theorem C74_decision : forall E M cmdline text inc c user host ip o,
  (forall s a, e_pton E s = Some a -> wf a) ->
  self_contained (e_sshdir E) inc text -> ci_host c = Some host -> ci_address c = Some ip ->
  connection E cmdline text inc (mkConn (Some user) (match m_account M user with None => true | Some _ => false end) (ci_host c) (ci_address c) (ci_laddress c) (ci_lport c) (ci_rdomain c) (ci_test c)) = Settings o ->
  Forall short (o_arr o deny_users) -> Forall short (o_arr o allow_users) ->
  (forall a o', getpwnamallow E M cmdline text inc c user = LYes a o' <-> o' = o /\ m_account M user = Some a /\ policy E M o host ip a) /\
  (getpwnamallow E M cmdline text inc c user = LNo <-> forall a, m_account M user = Some a -> ~ policy E M o host ip a).
Proof.
  intros E M cmdline text inc c user host ip o Hp SC Hh Hi CN SD SA.
  pose proof (connection_users E _ _ _ _ _ SC CN) as GU. unfold getpwnamallow. cbv zeta. assert (CN' : connection E cmdline text inc (with_user c user (match m_account M user with None => true | Some _ => false end)) = Settings o) by exact CN. rewrite CN'. clear CN'.
  destruct (m_account M user) as [a|].
  2:{ split; [intros a o'; split; [discriminate|intros (_ & X & _); discriminate]|]. split; [intros _ a X; discriminate|reflexivity]. }
  assert (AU : (allowed_user E M o (with_user c user false) a = VYes /\ policy E M o host ip a) \/ (allowed_user E M o (with_user c user false) a = VNo /\ ~ policy E M o host ip a)).
  { unfold allowed_user. cbn [with_user ci_host ci_address]. rewrite Hh, Hi.
    destruct (negb (m_pam M) && m_locked M (ac_name a)) eqn:L.
    { right. split; [reflexivity|]. intros [[X|X] _ _ _ _]; rewrite X in L; [discriminate|]. now rewrite andb_false_r in L. }
    assert (NC : no_chroot o = false <-> exists t, o_str o chroot_directory = Some t /\ map tolower t <> bs "none").
    { unfold no_chroot. destruct (o_str o chroot_directory) as [t|]; [|split; [discriminate|intros (t & X & _); discriminate]].
      rewrite <- not_true_iff_false, strcaseeq_iff. change (map tolower (bs "none")) with (bs "none"). split; [intros N; exists t; auto|intros (t' & X & Y); congruence]. }
    destruct (no_chroot o && negb (shell_ok M a)) eqn:S.
    { apply andb_true_iff in S. destruct S as [S1 S2]. right. split; [reflexivity|]. intros [_ [X|X] _ _ _]; [apply NC in X; congruence|]. apply shell_iff in X. rewrite X in S2. discriminate. }
    destruct (deny_checked E host ip (ac_name a) (o_arr o deny_users) Hp SD (GU deny_users ltac:(cbn; auto))) as [[-> D]|[-> (p & D1 & D2)]].
    2:{ right. split; [reflexivity|]. intros [_ _ X _ _]. exact (X p D1 D2). }
    assert (AL : ((if is_nil (o_arr o allow_users) then Some true else allow_loop E (ac_name a) (Some host) (Some ip) (o_arr o allow_users)) = Some true /\ (o_arr o allow_users = [] \/ exists p, In p (o_arr o allow_users) /\ covers (e_pton E) host ip (ac_name a) p)) \/
                 ((if is_nil (o_arr o allow_users) then Some true else allow_loop E (ac_name a) (Some host) (Some ip) (o_arr o allow_users)) = Some false /\ ~ (o_arr o allow_users = [] \/ exists p, In p (o_arr o allow_users) /\ covers (e_pton E) host ip (ac_name a) p))).
    { pose proof (GU allow_users ltac:(cbn; auto)) as G. destruct (allow_checked E host ip (ac_name a) (o_arr o allow_users) Hp SA G) as [[-> D']|[-> D']].
      - destruct (o_arr o allow_users) as [|w ws]; cbn [is_nil]; [left; auto|]. right. split; [reflexivity|]. intros [X|(p & X & Y)]; [discriminate|exact (D' p X Y)].
      - left. split; [now destruct (is_nil _)|now right]. }
    destruct AL as [[-> AL]|[-> AL]]; [|right; split; [reflexivity|intros [_ _ _ X _]; exact (AL X)]].
    destruct (groups_ok o _) eqn:G.
    - left. split; [reflexivity|]. constructor; auto.
      + destruct (m_pam M); [auto|]. right. exact L.
      + destruct (no_chroot o) eqn:Q; [right; apply shell_iff; destruct (shell_ok M a); [reflexivity|discriminate]|left; now apply NC].
      + now apply groups_iff.
    - right. split; [reflexivity|]. intros [_ _ _ _ X]. apply groups_iff in X. congruence. }
  destruct AU as [[-> P]|[-> P]].
  - split; [intros a' o'; split; [intros X; injection X as <- <-; auto|intros (-> & X & _); injection X as <-; reflexivity]|].
    split; [discriminate|]. intros X. exfalso. exact (X a eq_refl P).
  - split; [intros a' o'; split; [discriminate|intros (_ & X & Y); injection X as <-; contradiction]|].
    split; [intros _ a' X; injection X as <-; exact P|reflexivity].
Qed.
Print Assumptions C74_decision.

(** ** A machine *)
Definition demo_pton4 (s : list Z) : option xaddr := if beqb s (bs "192.0.2.1") then Some (mkX INET [3221225985; 0; 0; 0] 0) else None.
Lemma demo_pton4_ok : forall s a, demo_pton4 s = Some a -> wf a.
Proof. intros s a H. unfold demo_pton4 in H. destruct (beqb s _); [|discriminate]. injection H as <-. split; [reflexivity|]. repeat constructor; lia. Qed.
Definition login_E : env :=
  mkEnv demo_pton4 (fun _ => None) (e_groups (demo_env [] [])) (fun _ => Some []) (fun _ => None) (bs "/etc/ssh") (bs "x") (fun w => w) (fun w => w)
    (fun _ _ => true) (fun _ => true) (fun _ w => Some w) (fun _ => None) (fun _ => None) (fun _ => None) (fun _ _ _ => true).
Definition login_M : machine :=
  mkMachine (fun u => if beqb u (bs "bob") then Some (mkAccount u 1000 (bs "/bin/bash")) else if beqb u (bs "root") then Some (mkAccount u 0 []) else
                      if beqb u (bs "al@corp") then Some (mkAccount u 1001 []) else None)
    (fun _ => false) (fun f => if beqb f (bs "/bin/bash") || beqb f (bs "/bin/sh") then Some (true, 493) else None) false.
Definition login_text : list Z := bs "AllowUsers bob@192.0.2.1,!bad.* root" ++ nl ++ bs "AllowGroups staff" ++ nl.
Definition who (text : list Z) (u : string) : option (option Z) :=
  match start login_E [] text with
  | Some (t, inc) => match getpwnamallow login_E login_M [] t inc (demo_conn "x") (bs u) with LYes a _ => Some (Some (ac_uid a)) | LNo => Some None | _ => None end
  | None => None
  end.
Example C74_demo : who login_text "bob" = Some (Some 1000) /\ who login_text "root" = Some None /\ who login_text "eve" = Some None /\
  who (bs "DenyUsers bo?" ++ nl) "bob" = Some None /\ who (bs "DenyUsers bo?" ++ nl) "root" = Some (Some 0).
Proof. vm_compute. repeat split; reflexivity. Qed.
(** A user whose name contains an at sign cannot be named: DenyUsers with the very name does not keep them out. *)
Theorem C74_named_refuted : exists text a o inc, start login_E [] text = Some (text, inc) /\
  getpwnamallow login_E login_M [] text inc (demo_conn "x") (bs "al@corp") = LYes a o /\ In (ac_name a) (o_arr o deny_users).
Proof.
  exists (bs "DenyUsers al@corp" ++ nl). destruct (getpwnamallow login_E login_M [] (bs "DenyUsers al@corp" ++ nl) [] (demo_conn "x") (bs "al@corp")) as [a o| | |] eqn:G.
  2,3,4: exfalso; assert (X : match getpwnamallow login_E login_M [] (bs "DenyUsers al@corp" ++ nl) [] (demo_conn "x") (bs "al@corp") with LYes _ _ => true | _ => false end = true) by (vm_compute; reflexivity); rewrite G in X; discriminate.
  exists a, o, []. split; [vm_compute; reflexivity|]. split; [exact G|].
  assert (X : match getpwnamallow login_E login_M [] (bs "DenyUsers al@corp" ++ nl) [] (demo_conn "x") (bs "al@corp") with LYes a o => existsb (beqb (ac_name a)) (o_arr o deny_users) | _ => false end = true) by (vm_compute; reflexivity).
  rewrite G in X. apply existsb_exists in X. destruct X as (w & W1 & W2). apply beqb_eq in W2. now rewrite W2.
Qed.
Print Assumptions C74_named_refuted.
