(** Proofs for ServProps, part 4: reading files. *)
From Coq Require Import String.
From Verif Require Import Base Text MatchModel MiscNumModel ArgvModel AddrModel ServModel ServSpec ServProof ServProof2 ServProof3.
Local Open Scope Z_scope.

Lemma is_match : forall k m p, find_keyword keywords k = Some (p, m) -> (p = OMatch <-> spelled k "match").
Proof.
  intros k m p F. split.
  - intros ->. apply checked in F. cbn [check_op] in F. now apply same_str in F.
  - intros S. rewrite (find_keyword_lower keywords k (bs "match") S) in F. vm_compute in F. congruence.
Qed.
Lemma is_include : forall k m p, find_keyword keywords k = Some (p, m) -> (p = OInclude <-> spelled k "include").
Proof.
  intros k m p F. split.
  - intros ->. apply checked in F. cbn [check_op] in F. now apply same_str in F.
  - intros S. rewrite (find_keyword_lower keywords k (bs "include") S) in F. vm_compute in F. congruence.
Qed.
Lemma match_known : forall k, spelled k "match" -> find_keyword keywords k = Some (OMatch, true).
Proof. intros k S. rewrite (find_keyword_lower keywords k (bs "match") S). vm_compute. reflexivity. Qed.
Lemma include_known : forall k, spelled k "include" -> find_keyword keywords k = Some (OInclude, true).
Proof. intros k S. rewrite (find_keyword_lower keywords k (bs "include") S). vm_compute. reflexivity. Qed.
Lemma selector_full : forall E w, selector E w = full_name (e_sshdir E) w.
Proof. reflexivity. Qed.

(** A directive list executed. *)
Fixpoint run_dirs (E : env) (ds : list directive) (o : opts) : option opts :=
  match ds with
  | [] => Some o
  | d :: r => match find_keyword keywords (d_key d) with
              | None => None
              | Some (p, _) => match exec E p (d_key d) (d_rest d) (d_args d) true o with None => None | Some o' => run_dirs E r o' end
              end
  end.
Lemma run_dirs_app : forall E a b o, run_dirs E (a ++ b) o = match run_dirs E a o with None => None | Some o' => run_dirs E b o' end.
Proof.
  induction a as [|d a IH]; intros b o; cbn [run_dirs app]; [reflexivity|]. destruct (find_keyword keywords (d_key d)) as [[p m]|]; [|reflexivity].
  destruct (exec E p (d_key d) (d_rest d) (d_args d) true o); [apply IH|reflexivity].
Qed.
Lemma picks_app : forall P a a' b b', picks P a a' -> picks P b b' -> picks P (a ++ b) (a' ++ b').
Proof. intros P a a' b b' H. induction H; intros X; cbn [app]; [exact X| |]; constructor; auto. Qed.
Lemma picks_fun : forall P a b1, picks P a b1 -> forall b2, picks P a b2 -> b1 = b2.
Proof.
  intros P a b1 H. induction H as [|ctx d l l' A B IH|ctx d l l' A B IH]; intros b2 H2; inversion H2; subst; try reflexivity; try contradiction; [f_equal|]; auto.
Qed.

Lemma opt_skip : forall (c : option conn) (s s1 : pst), match c with None => None | Some _ => Some s end = Some s1 -> s1 = s.
Proof. intros [c|] s s1 H; congruence. Qed.

Section Read.
Variable E : env.
Definition sel_in (inc : list item) (w : list Z) : Prop := exists it, In it inc /\ it_sel it = selector E w.
Definition closed_lines (inc : list item) (ls : list (list Z)) : Prop :=
  forall l k rest ws w, In l ls -> split_line l = Dir k rest ws -> spelled k "include" -> In w ws -> sel_in inc w.
Definition closed_files (inc : list item) : Prop := forall it f t, In it inc -> it_file it = Some (f, t) -> closed_lines inc (split 10 t).

(** *** Unfolding under a closed cache *)
Section Pass.
Variable ci : option conn.
Variable inc : list item.
Hypothesis CF : closed_files inc.
Let HC := Hld E ci.
Definition applies (ctx : list cond) : Prop := match ci with Some _ => ctx <> [] /\ Forall HC ctx | None => Forall HC ctx end.
(** What the flags say about the conditions. *)
Definition inv (outer own : list cond) (never only act : bool) : Prop :=
  (never = false -> Forall HC outer) /\ (never = true -> ~ Forall HC outer) /\
  (act = true <-> only = false /\ Forall HC (outer ++ own)) /\
  (only = true -> outer ++ own = [] /\ ci <> None) /\
  (only = false -> ci <> None -> outer ++ own <> []).
Lemma inv_applies : forall outer own never only act, inv outer own never only act -> (act = true <-> applies (outer ++ own)).
Proof.
  intros outer own never only act (_ & _ & A & O1 & O2). rewrite A. unfold applies. destruct only.
  - destruct (O1 eq_refl) as [-> N]. destruct ci; [|congruence]. split; [intros [X _]; discriminate|intros [X _]; congruence].
  - destruct ci as [c|]; [|tauto]. assert (outer ++ own <> []) by (apply O2; congruence). tauto.
Qed.
Lemma inv_nested : forall outer own never only act, inv outer own never only act ->
  inv (outer ++ own) [] (negb only && negb act) only act.
Proof.
  intros outer own never only act (N1 & N2 & A & O1 & O2). unfold inv. rewrite !app_nil_r. destruct only, act; cbn [negb andb].
  - exfalso. destruct (proj1 A eq_refl). discriminate.
  - destruct (O1 eq_refl) as [-> N]. split; [constructor|]. split; [discriminate|]. split; [split; [discriminate|intros [X _]; discriminate]|]. split; [auto|discriminate].
  - destruct (proj1 A eq_refl) as [_ F]. split; [auto|]. split; [discriminate|]. split; [tauto|]. split; [discriminate|auto].
  - assert (~ Forall HC (outer ++ own)) by (intros X; assert (false = true) by (apply A; auto); discriminate). split; [discriminate|]. split; [auto|].
    split; [split; [discriminate|intros [_ X]; contradiction]|]. split; [discriminate|auto].
Qed.

Definition good (read : reader) : Prop := forall text never only act o o' inc' outer,
  closed_lines inc (split 10 text) -> inv outer [] never only act -> read text never only act inc o = Some (o', inc') ->
  inc' = inc /\ exists out ds, reads (e_sshdir E) (cached_texts inc) outer [] (split 10 text) out /\ picks applies out ds /\ run_dirs E ds o = Some o'.

Lemma cached_good : forall read, good read -> forall s outer own its o o' inc', inv outer own (p_never s) (p_only s) (p_act s) ->
  (forall it, In it its -> In it inc) -> inc_cached read s its inc o = Some (o', inc') ->
  inc' = inc /\ exists out ds, in_files (e_sshdir E) (cached_texts inc) (outer ++ own)
     (flat_map (fun it => match it_file it with Some (_, t) => [t] | None => [] end) its) out /\ picks applies out ds /\ run_dirs E ds o = Some o'.
Proof.
  intros read G s outer own its. induction its as [|it its IH]; intros o o' inc' I S X; cbn [inc_cached] in X.
  - injection X as <- <-. split; [reflexivity|]. exists [], []. cbn [flat_map]. repeat split; constructor.
  - cbn [flat_map]. destruct (it_file it) as [[f t]|] eqn:F.
    + unfold nested in X. destruct (read t (negb (p_only s) && negb (p_act s)) (p_only s) (p_act s) inc o) as [[o1 inc1]|] eqn:R; [|discriminate].
      apply (G _ _ _ _ _ _ _ (outer ++ own)) in R; [|eapply CF; [apply S; now left|exact F]|eapply inv_nested; exact I].
      destruct R as (-> & out1 & ds1 & R1 & R2 & R3). destruct (IH _ _ _ I (fun x Hx => S x (or_intror Hx)) X) as (-> & out2 & ds2 & Q1 & Q2 & Q3).
      split; [reflexivity|]. exists (out1 ++ out2), (ds1 ++ ds2). split; [cbn [app]; now constructor|]. split; [now apply picks_app|]. now rewrite run_dirs_app, R3.
    + exact (IH _ _ _ I (fun x Hx => S x (or_intror Hx)) X).
Qed.
Lemma cached_filter : forall sel, flat_map (fun it => match it_file it with Some (_, t) => [t] | None => [] end) (filter (fun it => beqb (it_sel it) sel) inc) = cached_texts inc sel.
Proof.
  intros sel. unfold cached_texts. clear CF. induction inc as [|it r IH]; [reflexivity|]. cbn [filter flat_map]. destruct (beqb (it_sel it) sel); cbn [flat_map app]; now rewrite IH.
Qed.
Lemma all_good : forall read, good read -> forall s outer own ws o o' inc', inv outer own (p_never s) (p_only s) (p_act s) ->
  (forall w, In w ws -> sel_in inc w) -> inc_all E read s ws inc o = Some (o', inc') ->
  inc' = inc /\ exists out ds, included (e_sshdir E) (cached_texts inc) (outer ++ own) ws out /\ picks applies out ds /\ run_dirs E ds o = Some o'.
Proof.
  intros read G s outer own. induction ws as [|w ws IH]; intros o o' inc' I S X; cbn [inc_all] in X.
  - injection X as <- <-. split; [reflexivity|]. exists [], []. repeat split; constructor.
  - destruct (is_nil w); [discriminate|]. unfold inc_one in X. cbv zeta in X.
    destruct (filter (fun it => beqb (it_sel it) (selector E w)) inc) as [|i0 its0] eqn:Fl.
    + exfalso. destruct (S w (or_introl eq_refl)) as (it & A & B). assert (Y : In it []) by (rewrite <- Fl; apply filter_In; split; [exact A|now apply beqb_eq]). destruct Y.
    + rewrite <- Fl in X. assert (Z0 : forall it, In it (filter (fun it => beqb (it_sel it) (selector E w)) inc) -> In it inc) by (intros it Y; apply filter_In in Y; tauto).
      destruct (inc_cached read s (filter (fun it => beqb (it_sel it) (selector E w)) inc) inc o) as [[o1 inc1]|] eqn:R; [|discriminate].
      destruct (cached_good read G s outer own _ _ _ _ I Z0 R) as (-> & out1 & ds1 & R1 & R2 & R3). rewrite cached_filter in R1.
      destruct (IH _ _ _ I (fun x Hx => S x (or_intror Hx)) X) as (-> & out2 & ds2 & Q1 & Q2 & Q3).
      split; [reflexivity|]. exists (out1 ++ out2), (ds1 ++ ds2). split; [now constructor|]. split; [now apply picks_app|]. now rewrite run_dirs_app, R3.
Qed.
Lemma lines_good : forall read, good read -> forall ls s s' outer own, closed_lines inc ls -> p_inc s = inc ->
  inv outer own (p_never s) (p_only s) (p_act s) -> lines_loop E read ci ls s = Some s' ->
  p_inc s' = inc /\ exists out ds, reads (e_sshdir E) (cached_texts inc) outer own ls out /\ picks applies out ds /\ run_dirs E ds (p_opts s) = Some (p_opts s').
Proof.
  intros read G. induction ls as [|l ls IH]; intros s s' outer own C PI I X; cbn [lines_loop] in X.
  - injection X as <-. split; [exact PI|]. exists [], []. repeat split; constructor.
  - assert (C' : closed_lines inc ls) by (intros l0 k rest ws w A; apply (C l0 k rest ws w); now right).
    destruct (process_line E read ci l s) as [s1|] eqn:PL; [|discriminate]. unfold process_line in PL.
    destruct (split_line l) as [| |k rest ws] eqn:SL; [|discriminate|].
    + injection PL as <-. destruct (IH _ _ _ _ C' PI I X) as (Y & out & ds & A & B & D). split; [exact Y|]. exists out, ds. split; [now apply r_skip|]. auto.
    + assert (OTHER : forall s2, ~ spelled k "match" -> ~ spelled k "include" -> p_inc s2 = inc -> p_never s2 = p_never s -> p_only s2 = p_only s -> p_act s2 = p_act s ->
         (p_act s = false -> p_opts s2 = p_opts s) ->
         (p_act s = true -> run_dirs E [mkDir k rest ws] (p_opts s) = Some (p_opts s2)) ->
         lines_loop E read ci ls s2 = Some s' ->
         p_inc s' = inc /\ exists out ds, reads (e_sshdir E) (cached_texts inc) outer own (l :: ls) out /\ picks applies out ds /\ run_dirs E ds (p_opts s) = Some (p_opts s')).
      { intros s2 M1 M2 P1 P2 P3 P4 OF ON LL. destruct (IH s2 s' outer own C' P1) as (Y & out & ds & A & B & D); [now rewrite P2, P3, P4|exact LL|].
        split; [exact Y|]. exists ((outer ++ own, mkDir k rest ws) :: out). pose proof (inv_applies _ _ _ _ _ I) as IA. destruct (p_act s).
        - exists (mkDir k rest ws :: ds). split; [eapply r_other; eauto|]. split; [constructor; [now apply IA|exact B]|].
          change (mkDir k rest ws :: ds) with ([mkDir k rest ws] ++ ds). rewrite run_dirs_app, (ON eq_refl). exact D.
        - exists ds. split; [eapply r_other; eauto|]. split; [apply p_leave; [|exact B]; intros N; apply IA in N; discriminate|]. rewrite <- (OF eq_refl). exact D. }
      destruct (find_keyword keywords k) as [[p im]|] eqn:FK.
      2:{ assert (M1 : ~ spelled k "match") by (intros N; apply match_known in N; congruence).
          assert (M2 : ~ spelled k "include") by (intros N; apply include_known in N; congruence).
          destruct (p_act s) eqn:AC; [discriminate|]. apply opt_skip in PL; subst s1; apply (OTHER s M1 M2); auto. discriminate. }
      pose proof (is_match _ _ _ FK) as KM. pose proof (is_include _ _ _ FK) as KI.
      destruct (negb (p_act s) && negb im) eqn:NM.
      { apply andb_true_iff in NM. destruct NM as [NM1 NM2]. apply negb_true_iff in NM1. apply negb_true_iff in NM2. subst im.
        assert (M1 : ~ spelled k "match") by (intros N; apply match_known in N; congruence).
        assert (M2 : ~ spelled k "include") by (intros N; apply include_known in N; congruence).
        apply opt_skip in PL; subst s1; apply (OTHER s M1 M2); auto. congruence. }
      assert (GEN : p <> OMatch -> p <> OInclude -> option_map (with_opts s) (exec E p k rest ws (p_act s) (p_opts s)) = Some s1 ->
         p_inc s' = inc /\ exists out ds, reads (e_sshdir E) (cached_texts inc) outer own (l :: ls) out /\ picks applies out ds /\ run_dirs E ds (p_opts s) = Some (p_opts s')).
      { intros M1 M2 PE. destruct (exec E p k rest ws (p_act s) (p_opts s)) as [o1|] eqn:EX; [|discriminate]. cbn [option_map] in PE. injection PE as <-.
        apply (OTHER (with_opts s o1)); auto; [tauto|tauto| |].
        - intros AC. rewrite AC in EX. now apply exec_inactive in EX.
        - intros AC. rewrite AC in EX. cbn [run_dirs d_key d_rest d_args]. now rewrite FK, EX. }
      destruct p; try (apply GEN; [discriminate|discriminate|exact PL]).
      * destruct (match_cfg_line E (if p_never s then None else ci) ws) as [[v lo]|] eqn:ML; [|discriminate]. destruct (is_nil lo) eqn:LO; [|discriminate]. injection PL as <-.
        assert (IHX := fun P I' => IH _ s' outer [ws] C' P I' X). cbn [p_inc p_never p_only p_act p_opts] in IHX. specialize (IHX PI).
        destruct IHX as (Y & out & ds & A & B & D).
        { destruct I as (N1 & N2 & A & O1 & O2). split; [exact N1|]. split; [exact N2|]. split; [|split; [discriminate|intros _ _ Q; apply app_eq_nil in Q; destruct Q; discriminate]].
          destruct (p_never s).
          - split; [discriminate|]. intros [_ F]. exfalso. apply (N2 eq_refl). apply Forall_app in F. tauto.
          - rewrite (match_line E ci ws v lo ML LO). rewrite Forall_app. split; [|intros (_ & _ & F); now inversion F]. intros F. split; [reflexivity|]. split; [now apply N1|]. repeat constructor. exact F. }
        split; [exact Y|]. exists out, ds. split; [eapply r_match; eauto; now apply KM|]. auto.
      * destruct (is_nil ws); [discriminate|]. destruct (inc_all E read s ws (p_inc s) (p_opts s)) as [[o1 inc1]|] eqn:IA; [|discriminate]. cbn [option_map fst snd] in PL. injection PL as <-.
        rewrite PI in IA. assert (SI : forall w, In w ws -> sel_in inc w) by (intros w Hw; eapply (C l); eauto; [now left|now apply KI]).
        destruct (all_good read G s outer own ws _ _ _ I SI IA) as (-> & out1 & ds1 & A1 & B1 & D1).
        assert (IHX := fun P I' => IH _ s' outer own C' P I' X). cbn [p_inc p_never p_only p_act p_opts] in IHX. destruct (IHX eq_refl I) as (Y & out & ds & A & B & D).
        split; [exact Y|]. exists (out1 ++ out), (ds1 ++ ds). split; [eapply r_include; eauto; now apply KI|]. split; [now apply picks_app|]. now rewrite run_dirs_app, D1.
Qed.
Lemma depth_good : forall f, good (parse_depth E f ci).
Proof.
  induction f as [|f IH]; intros text never only act o o' inc' outer C I X; cbn [parse_depth] in X; [discriminate|].
  destruct (lines_loop E (parse_depth E f ci) ci (split 10 text) (mkSt o act never only inc)) as [s|] eqn:LL; [|discriminate]. injection X as <- <-.
  destruct (lines_good _ IH (split 10 text) (mkSt o act never only inc) s outer [] C eq_refl I LL) as (Y & Z0). split; [exact Y|exact Z0].
Qed.
End Pass.

Lemma config_good : forall ci inc text o o' inc', closed_files inc -> closed_lines inc (split 10 text) -> parse_config E ci text inc o = Some (o', inc') ->
  inc' = inc /\ exists out ds, unfolds (e_sshdir E) (cached_texts inc) text out /\ picks (applies ci) out ds /\ run_dirs E ds o = Some o'.
Proof.
  intros ci inc text o o' inc' CF CL X. unfold parse_config in X. destruct ci as [c|].
  - apply (depth_good (Some c) inc CF _ _ _ _ _ _ _ _ [] CL) in X; [exact X|]. cbn. split; [constructor|]. split; [discriminate|]. split; [split; [discriminate|intros [Y _]; discriminate]|]. split; [split; [reflexivity|discriminate]|discriminate].
  - apply (depth_good None inc CF _ _ _ _ _ _ _ _ [] CL) in X; [exact X|]. cbn. split; [constructor|]. split; [discriminate|]. split; [split; [split; [reflexivity|constructor]|reflexivity]|]. split; [discriminate|congruence].
Qed.
End Read.

(** *** What a successful start leaves *)
Section Start.
Variable E : env.
Definition entry_ok (inc : list item) (it : item) : Prop := exists paths, e_glob E (it_sel it) = Some paths /\
    match it_file it with
    | None => paths = []
    | Some (f, t) => In f paths /\ (exists raw, e_read E f = Some raw /\ t = load true false raw) /\ closed_lines E inc (split 10 t)
    end /\
    forall f, In f paths -> exists t, In (mkItem (it_sel it) (Some (f, t))) inc.
Lemma closed_mono : forall inc inc' ls, incl inc inc' -> closed_lines E inc ls -> closed_lines E inc' ls.
Proof. intros inc inc' ls S C l k rest ws w A B D F. destruct (C l k rest ws w A B D F) as (it & X & Y). exists it. split; [now apply S|exact Y]. Qed.
Lemma entry_mono : forall inc inc' it, incl inc inc' -> entry_ok inc it -> entry_ok inc' it.
Proof.
  intros inc inc' it S (paths & A & B & C). exists paths. split; [exact A|]. split.
  - destruct (it_file it) as [[f t]|]; [|exact B]. destruct B as (B1 & B2 & B3). split; [exact B1|]. split; [exact B2|]. eapply closed_mono; eauto.
  - intros f F. destruct (C f F) as (t & T). exists t. now apply S.
Qed.
Definition grows (inc inc' : list item) : Prop := incl inc inc' /\ forall it, In it inc' -> In it inc \/ entry_ok inc' it.
Lemma grows_refl : forall inc, grows inc inc.
Proof. intros inc. split; [apply incl_refl|auto]. Qed.
Lemma grows_trans : forall a b c, grows a b -> grows b c -> grows a c.
Proof.
  intros a b c (A1 & A2) (B1 & B2). split; [eapply incl_tran; eauto|]. intros it I. destruct (B2 it I) as [X|X]; [|auto]. destruct (A2 it X) as [Y|Y]; [auto|]. right. eapply entry_mono; eauto.
Qed.
Definition caches (read : reader) : Prop := forall text never only act inc o o' inc', read text never only act inc o = Some (o', inc') ->
  grows inc inc' /\ closed_lines E inc' (split 10 text).
Lemma cached_grows : forall read, caches read -> forall s its inc o o' inc', inc_cached read s its inc o = Some (o', inc') -> grows inc inc'.
Proof.
  intros read G s its. induction its as [|it its IH]; intros inc o o' inc' X; cbn [inc_cached] in X; [injection X as <- <-; apply grows_refl|].
  destruct (it_file it) as [[f t]|]; [|eauto]. unfold nested in X. destruct (read t _ _ _ inc o) as [[o1 inc1]|] eqn:R; [|discriminate].
  apply G in R. eapply grows_trans; [apply R|eauto].
Qed.
(** While the files of a selector are read, its entries are there but not all of them. *)
Definition part_ok (paths : list (list Z)) (sel : list Z) (inc : list item) (it : item) : Prop :=
  it_sel it = sel /\ exists f t, it_file it = Some (f, t) /\ In f paths /\ (exists raw, e_read E f = Some raw /\ t = load true false raw) /\ closed_lines E inc (split 10 t).
Lemma new_grows : forall read, caches read -> forall s sel all paths inc o o' inc', incl paths all -> inc_new E read s sel paths inc o = Some (o', inc') ->
  incl inc inc' /\ (forall it, In it inc' -> In it inc \/ entry_ok inc' it \/ part_ok all sel inc' it) /\ (forall f, In f paths -> exists t, In (mkItem sel (Some (f, t))) inc').
Proof.
  intros read G s sel all paths. induction paths as [|f r IH]; intros inc o o' inc' SA X; cbn [inc_new] in X.
  - injection X as <- <-. split; [apply incl_refl|]. split; [auto|intros ? []].
  - destruct (e_read E f) as [raw|] eqn:RF; [|discriminate]. cbv zeta in X. unfold nested in X. destruct (read (load true false raw) _ _ _ inc o) as [[o1 inc1]|] eqn:R; [|discriminate].
    apply G in R. destruct R as ((R1 & R2) & R3). apply IH in X; [|intros y Hy; apply SA; now right]. destruct X as (X1 & X2 & X3).
    assert (S1 : incl inc1 inc') by (intros it I; apply X1, in_or_app; now left). split; [eapply incl_tran; eauto|]. split.
    + intros it I. destruct (X2 it I) as [Y|Y]; [|auto]. apply in_app_or in Y. destruct Y as [Y|[<-|[]]].
      * destruct (R2 it Y) as [Z0|Z0]; [auto|]. right; left. eapply entry_mono; eauto.
      * right; right. split; [reflexivity|]. exists f, (load true false raw). split; [reflexivity|]. split; [apply SA; now left|]. split; [eauto|]. eapply closed_mono; eauto.
    + intros g [<-|Y]; [|auto]. eexists. apply X1, in_or_app. right. left. reflexivity.
Qed.
Lemma one_grows : forall read, caches read -> forall s w inc o o' inc', inc_one E read s w inc o = Some (o', inc') -> grows inc inc' /\ sel_in E inc' w.
Proof.
  intros read G s w inc o o' inc' X. unfold inc_one in X. cbv zeta in X. destruct (filter (fun it => beqb (it_sel it) (selector E w)) inc) as [|i0 its] eqn:Fl.
  - destruct (e_glob E (selector E w)) as [paths|] eqn:GL; [|discriminate]. destruct paths as [|f paths].
    + injection X as <- <-. split; [|exists (mkItem (selector E w) None); split; [apply in_or_app; right; now left|reflexivity]]. split; [apply incl_appl, incl_refl|].
      intros it I. apply in_app_or in I. destruct I as [I|[<-|[]]]; [auto|]. right. exists []. cbn [it_sel it_file]. split; [exact GL|]. split; [reflexivity|intros ? []].
    + apply (new_grows read G s (selector E w) (f :: paths)) in X; [|apply incl_refl]. destruct X as (X1 & X2 & X3). split.
      * split; [exact X1|]. intros it I. destruct (X2 it I) as [Y|[Y|Y]]; [auto|auto|]. right. destruct Y as (Y1 & g & t & Y2 & Y3 & Y4 & Y5). exists (f :: paths). rewrite Y1, Y2. auto.
      * destruct (X3 f (or_introl eq_refl)) as (t & T). eexists. split; [exact T|reflexivity].
  - split; [eapply cached_grows; eauto|]. assert (Y : In i0 (filter (fun it => beqb (it_sel it) (selector E w)) inc)) by (rewrite Fl; now left).
    apply filter_In in Y. destruct Y as [Y1 Y2]. apply beqb_eq in Y2. apply (cached_grows read G) in X. exists i0. split; [apply X; exact Y1|exact Y2].
Qed.
Lemma all_grows : forall read, caches read -> forall s ws inc o o' inc', inc_all E read s ws inc o = Some (o', inc') -> grows inc inc' /\ forall w, In w ws -> sel_in E inc' w.
Proof.
  intros read G s. induction ws as [|w ws IH]; intros inc o o' inc' X; cbn [inc_all] in X; [injection X as <- <-; split; [apply grows_refl|intros ? []]|].
  destruct (is_nil w); [discriminate|]. destruct (inc_one E read s w inc o) as [[o1 inc1]|] eqn:R; [|discriminate]. apply (one_grows read G) in R. destruct R as (R1 & R2).
  apply IH in X. destruct X as (X1 & X2). split; [eapply grows_trans; eauto|]. intros x [<-|Y]; [|auto]. destruct R2 as (it & A & B). exists it. split; [now apply X1|exact B].
Qed.
Lemma lines_grow : forall read, caches read -> forall ci ls s s', lines_loop E read ci ls s = Some s' -> grows (p_inc s) (p_inc s') /\ closed_lines E (p_inc s') ls.
Proof.
  intros read G ci. induction ls as [|l ls IH]; intros s s' X; cbn [lines_loop] in X; [injection X as <-; split; [apply grows_refl|intros ? ? ? ? ? []]|].
  destruct (process_line E read ci l s) as [s1|] eqn:PL; [|discriminate]. apply IH in X. destruct X as (X1 & X2).
  assert (KEY : grows (p_inc s) (p_inc s1) /\ forall k rest ws w, split_line l = Dir k rest ws -> spelled k "include" -> In w ws -> sel_in E (p_inc s1) w).
  { unfold process_line in PL. destruct (split_line l) as [| |k rest ws] eqn:SL; [injection PL as <-; split; [apply grows_refl|discriminate]|discriminate|].
    destruct (find_keyword keywords k) as [[p im]|] eqn:FK.
    2:{ destruct (p_act s); [discriminate|]. destruct ci; [|discriminate]. injection PL as <-. split; [apply grows_refl|].
        intros k0 r0 w0 w [= <- <- <-] SI. apply include_known in SI. congruence. }
    assert (NOI : p <> OInclude -> p_inc s1 = p_inc s -> grows (p_inc s) (p_inc s1) /\ forall k0 rest0 ws0 w, Dir k rest ws = Dir k0 rest0 ws0 -> spelled k0 "include" -> In w ws0 -> sel_in E (p_inc s1) w).
    { intros NP ->. split; [apply grows_refl|]. intros k0 r0 w0 w [= <- <- <-] SI. apply (is_include _ _ _ FK) in SI. contradiction. }
    destruct (negb (p_act s) && negb im) eqn:NM.
    { destruct ci; [|discriminate]. injection PL as <-. split; [apply grows_refl|]. intros k0 r0 w0 w [= <- <- <-] SI. apply include_known in SI.
      rewrite SI in FK. injection FK as _ <-. rewrite andb_false_r in NM. discriminate. }
    assert (GEN : p <> OInclude -> option_map (with_opts s) (exec E p k rest ws (p_act s) (p_opts s)) = Some s1 -> p_inc s1 = p_inc s).
    { intros _ PE. destruct (exec E p k rest ws (p_act s) (p_opts s)); [|discriminate]. cbn [option_map] in PE. injection PE as <-. reflexivity. }
    destruct p; try (apply NOI; [discriminate|]; apply GEN; [discriminate|exact PL]).
    - apply NOI; [discriminate|]. destruct (match_cfg_line E (if p_never s then None else ci) ws) as [[v lo]|]; [|discriminate]. destruct (is_nil lo); [|discriminate]. injection PL as <-. reflexivity.
    - destruct (is_nil ws); [discriminate|]. destruct (inc_all E read s ws (p_inc s) (p_opts s)) as [[o1 inc1]|] eqn:IA; [|discriminate]. cbn [option_map fst snd] in PL. injection PL as <-.
      apply (all_grows read G) in IA. destruct IA as (A1 & A2). split; [exact A1|]. intros k0 r0 w0 w [= <- <- <-] _ Hw. exact (A2 w Hw). }
  destruct KEY as (K1 & K2). split; [eapply grows_trans; eauto|]. intros l0 k rest ws w [<-|I] SL SI IW; [|eauto]. destruct (K2 k rest ws w SL SI IW) as (it & A & B). exists it. split; [now apply X1|exact B].
Qed.
Lemma depth_caches : forall ci f, caches (parse_depth E f ci).
Proof.
  intros ci. induction f as [|f IH]; intros text never only act inc o o' inc' X; cbn [parse_depth] in X; [discriminate|].
  destruct (lines_loop E (parse_depth E f ci) ci (split 10 text) (mkSt o act never only inc)) as [s|] eqn:LL; [|discriminate]. injection X as <- <-.
  exact (lines_grow _ IH _ _ _ _ LL).
Qed.
Lemma start_closed : forall cmdline raw text inc, start E cmdline raw = Some (text, inc) ->
  text = load true false raw /\ closed_files E inc /\ closed_lines E inc (split 10 text) /\ genuine E inc.
Proof.
  intros cmdline raw text inc H. unfold start in H. destruct (cmdline_options E cmdline init_opts) as [o|]; [|discriminate]. cbv zeta in H.
  destruct (parse_config E None (load true false raw) [] o) as [[o' inc']|] eqn:P; [|discriminate]. injection H as <- <-. unfold parse_config in P. apply depth_caches in P.
  destruct P as ((_ & P1) & P2). split; [reflexivity|]. split; [|split; [exact P2|]].
  - intros it f t I F. destruct (P1 it I) as [[]|(paths & _ & A & _)]. rewrite F in A. tauto.
  - intros it I. destruct (P1 it I) as [[]|(paths & A & B & C)]. exists paths. split; [exact A|]. split; [|exact C]. destruct (it_file it) as [[f t]|]; [|exact B]. destruct B as (B1 & (rw & B2 & B3) & _). split; [exact B1|]. exists rw. split; [exact B2|]. now rewrite <- load_taken.
Qed.
Lemma closed_self : forall inc text, closed_files E inc /\ closed_lines E inc (split 10 text) <-> self_contained (e_sshdir E) inc text.
Proof.
  intros inc text. split.
  - intros (A & B) t l k rest ws w [-> |(it & f & I & F)] L S K W; [exact (B l k rest ws w L S K W)|exact (A it f t I F l k rest ws w L S K W)].
  - intros S. split; [intros it f t I F l k rest ws w L SL K W|intros l k rest ws w L SL K W]; eapply S; eauto.
Qed.
End Start.
