(** Proofs for ServProps, part 5: the settings of a connection. *)
From Coq Require Import String.
From Verif Require Import Base Text MatchModel MiscNumModel ArgvModel AddrModel ServModel ServSpec ServProof ServProof2 ServProof3 ServProof4.
Local Open Scope Z_scope.

(** ** Unfolding has one result *)
Scheme reads_m := Minimality for reads Sort Prop
with included_m := Minimality for included Sort Prop
with in_files_m := Minimality for in_files Sort Prop.
Ltac same_line := repeat match goal with A : split_line ?l = _, B : split_line ?l = _ |- _ => rewrite A in B; first [discriminate B|injection B; intros; subst; clear B] end.
Lemma reads_fun : forall dir files outer own ls o1, reads dir files outer own ls o1 -> forall o2, reads dir files outer own ls o2 -> o1 = o2.
Proof.
  intros dir files.
  apply (reads_m dir files (fun outer own ls o1 => forall o2, reads dir files outer own ls o2 -> o1 = o2)
    (fun ctx ws o1 => forall o2, included dir files ctx ws o2 -> o1 = o2) (fun ctx ts o1 => forall o2, in_files dir files ctx ts o2 -> o1 = o2)).
  - intros outer own o2 H. now inversion H.
  - intros outer own l ls out S R IH o2 H. inversion H; subst; same_line; auto.
  - intros outer own l ls k rest ws out S K R IH o2 H. inversion H; subst; same_line; absurd_name; try contradiction; auto.
  - intros outer own l ls k rest ws out1 out S K R1 IH1 R IH o2 H. inversion H; subst; same_line; absurd_name; try contradiction; f_equal; auto.
  - intros outer own l ls k rest ws out S K1 K2 R IH o2 H. inversion H; subst; same_line; absurd_name; try contradiction; f_equal; auto.
  - intros ctx o2 H. now inversion H.
  - intros ctx w ws o1 o1' A IHA B IHB o2 H. inversion H; subst. f_equal; auto.
  - intros ctx o2 H. now inversion H.
  - intros ctx t ts o1 o1' A IHA B IHB o2 H. inversion H; subst. f_equal; auto.
Qed.
Lemma given_fun : forall ls d1, given ls d1 -> forall d2, given ls d2 -> d1 = d2.
Proof. intros ls d1 H. induction H; intros d2 H2; inversion H2; subst; try congruence; [now apply IHgiven|]. f_equal; [congruence|now apply IHgiven]. Qed.

Section Values.
Variable E : env.
(** ** Values *)
Lemma step_of : forall d ds o o', run_dirs E (d :: ds) o = Some o' -> exists p m o1, find_keyword keywords (d_key d) = Some (p, m) /\
  exec E p (d_key d) (d_rest d) (d_args d) true o = Some o1 /\ run_dirs E ds o1 = Some o'.
Proof.
  intros d ds o o' H. cbn [run_dirs] in H. destruct (find_keyword keywords (d_key d)) as [[p m]|]; [|discriminate].
  destruct (exec E p (d_key d) (d_rest d) (d_args d) true o) as [o1|] eqn:X; [|discriminate]. eauto 6.
Qed.
Lemma mkdir_eta : forall d, d = mkDir (d_key d) (d_rest d) (d_args d). Proof. now intros []. Qed.
Lemma int_values : forall i, mixed i = false -> forall ds o o', run_dirs E ds o = Some o' -> exists vs, values (sets_int E) i ds vs.
Proof.
  intros i M. induction ds as [|d ds IH]; intros o o' H; [exists []; constructor|]. destruct (step_of _ _ _ _ H) as (p & m & o1 & A & B & C).
  destruct (IH _ _ C) as (vs & V). pose proof (exec_int E _ _ _ _ _ _ _ A B i M) as [(v & X & _)|(X & _)].
  - exists (v :: vs). constructor; [|exact V]. rewrite (mkdir_eta d). apply sets_int_iff. eauto.
  - exists vs. apply v_leave; [|exact V]. intros v Y. rewrite (mkdir_eta d) in Y. apply sets_int_iff in Y. destruct Y as (p' & m' & Y1 & Y2). rewrite A in Y1. injection Y1 as <- <-. eapply X; eauto.
Qed.
Lemma str_values : forall i ds o o', run_dirs E ds o = Some o' -> exists vs, values (sets_str E) i ds vs.
Proof.
  intros i. induction ds as [|d ds IH]; intros o o' H; [exists []; constructor|]. destruct (step_of _ _ _ _ H) as (p & m & o1 & A & B & C).
  destruct (IH _ _ C) as (vs & V). pose proof (exec_str E _ _ _ _ _ _ B i) as [(v & X & _)|(X & _)].
  - exists (v :: vs). constructor; [|exact V]. rewrite (mkdir_eta d). apply sets_str_iff. eauto.
  - exists vs. apply v_leave; [|exact V]. intros v Y. rewrite (mkdir_eta d) in Y. apply sets_str_iff in Y. destruct Y as (p' & m' & Y1 & Y2). rewrite A in Y1. injection Y1 as <- <-. eapply X; eauto.
Qed.
Lemma arr_values : forall i ds o o', run_dirs E ds o = Some o' -> exists vs, values (sets_arr E) i ds vs.
Proof.
  intros i. induction ds as [|d ds IH]; intros o o' H; [exists []; constructor|]. destruct (step_of _ _ _ _ H) as (p & m & o1 & A & B & C).
  destruct (IH _ _ C) as (vs & V). pose proof (exec_arr E _ _ _ _ _ _ _ A B i) as [(v & X & _)|(X & _)].
  - exists (v :: vs). constructor; [|exact V]. rewrite (mkdir_eta d). apply sets_arr_iff. eauto.
  - exists vs. apply v_leave; [|exact V]. intros v Y. rewrite (mkdir_eta d) in Y. apply sets_arr_iff in Y. destruct Y as (p' & m' & Y1 & Y2). rewrite A in Y1. injection Y1 as <- <-. eapply X; eauto.
Qed.
Lemma values_app : forall O V (sets : directive -> O -> V -> Prop) o a va b vb, values sets o a va -> values sets o b vb -> values sets o (a ++ b) (va ++ vb).
Proof. intros O V sets o a va b vb H. induction H; intros X; cbn [app]; [exact X| |]; constructor; auto. Qed.

Lemma run_int : forall i, mixed i = false -> forall ds vs, values (sets_int E) i ds vs -> forall o o', run_dirs E ds o = Some o' ->
  (forced i = false -> o_int o' i = (if o_int o i =? -1 then hd (-1) vs else o_int o i) /\ ~ In (-1) vs) /\
  (forced i = true -> o_int o' i = List.last vs (o_int o i)).
Proof.
  intros i M ds vs H. induction H as [|d ds v vs S V IH|d ds vs S V IH]; intros o o' R.
  - cbn [run_dirs] in R. injection R as <-. split; [|reflexivity]. intros _. cbn [hd In]. destruct (o_int o i =? -1) eqn:Q; [split; [lia|tauto]|split; [reflexivity|tauto]].
  - destruct (step_of _ _ _ _ R) as (p & m & o1 & A & B & C). rewrite (mkdir_eta d) in S. apply sets_int_iff in S. destruct S as (p' & m' & S1 & S2). rewrite A in S1. injection S1 as <- <-.
    destruct (exec_int E _ _ _ _ _ _ _ A B i M) as [(x & X & Y & Z0)|(X & _)]; [|exfalso; eapply X; eauto].
    assert (x = v) by (eapply op_int_fun; eauto). subst x. destruct (IH _ _ C) as [I1 I2]. split.
    + intros F. rewrite F in Y. destruct (I1 F) as [J1 J2]. specialize (Z0 F). cbn [hd In]. rewrite J1, Y. split; [|intros [Q|Q]; [congruence|auto]].
      destruct (o_int o i =? -1) eqn:Q; [|rewrite Q; reflexivity]. apply Z.eqb_neq in Z0. now rewrite Z0.
    + intros F. rewrite F in Y. rewrite (I2 F), Y. destruct vs as [|y vs]; [reflexivity|]. cbn [List.last]. clear. revert y v. induction vs as [|z vs IH]; intros y v; [reflexivity|]. cbn [List.last] in *. apply (IH z v).
  - destruct (step_of _ _ _ _ R) as (p & m & o1 & A & B & C).
    destruct (exec_int E _ _ _ _ _ _ _ A B i M) as [(x & X & Y & Z0)|(X & Y)].
    + exfalso. apply (S x). rewrite (mkdir_eta d). apply sets_int_iff. eauto.
    + rewrite <- Y. now apply IH.
Qed.
Lemma run_str : forall i ds vs, values (sets_str E) i ds vs -> forall o o', run_dirs E ds o = Some o' ->
  o_str o' i = match o_str o i with None => hd_error vs | x => x end.
Proof.
  intros i ds vs H. induction H as [|d ds v vs S V IH|d ds vs S V IH]; intros o o' R.
  - cbn [run_dirs] in R. injection R as <-. cbn [hd_error]. now destruct (o_str o i).
  - destruct (step_of _ _ _ _ R) as (p & m & o1 & A & B & C). rewrite (mkdir_eta d) in S. apply sets_str_iff in S. destruct S as (p' & m' & S1 & S2). rewrite A in S1. injection S1 as <- <-.
    destruct (exec_str E _ _ _ _ _ _ B i) as [(x & X & Y)|(X & _)]; [|exfalso; eapply X; eauto].
    assert (x = v) by (eapply op_str_fun; eauto). subst x. rewrite (IH _ _ C), Y. now destruct (o_str o i).
  - destruct (step_of _ _ _ _ R) as (p & m & o1 & A & B & C).
    destruct (exec_str E _ _ _ _ _ _ B i) as [(x & X & Y)|(X & Y)].
    + exfalso. apply (S x). rewrite (mkdir_eta d). apply sets_str_iff. eauto.
    + rewrite <- Y. now apply IH.
Qed.
Lemma run_arr : forall i ds vs, values (sets_arr E) i ds vs -> forall o o', run_dirs E ds o = Some o' ->
  o_arr o' i = (if is_growing i then o_arr o i ++ concat vs else if is_nil (o_arr o i) then hd [] vs else o_arr o i) /\ ~ In [] vs.
Proof.
  intros i ds vs H. induction H as [|d ds v vs S V IH|d ds vs S V IH]; intros o o' R.
  - cbn [run_dirs] in R. injection R as <-. cbn [concat hd In]. split; [|tauto]. rewrite app_nil_r. destruct (is_growing i); [reflexivity|]. now destruct (o_arr o i).
  - destruct (step_of _ _ _ _ R) as (p & m & o1 & A & B & C). rewrite (mkdir_eta d) in S. apply sets_arr_iff in S. destruct S as (p' & m' & S1 & S2). rewrite A in S1. injection S1 as <- <-.
    destruct (exec_arr E _ _ _ _ _ _ _ A B i) as [(x & X & Y & Z0)|(X & _)]; [|exfalso; eapply X; eauto].
    assert (x = v) by (eapply op_arr_fun; eauto). subst x. destruct (IH _ _ C) as [I1 I2]. split; [|intros [Q|Q]; [congruence|auto]].
    rewrite I1, Y. cbn [concat hd]. destruct (is_growing i); [now rewrite app_assoc|]. destruct (o_arr o i); cbn [is_nil]; [|reflexivity]. destruct v; [congruence|reflexivity].
  - destruct (step_of _ _ _ _ R) as (p & m & o1 & A & B & C).
    destruct (exec_arr E _ _ _ _ _ _ _ A B i) as [(x & X & Y & Z0)|(X & Y)].
    + exfalso. apply (S x). rewrite (mkdir_eta d). apply sets_arr_iff. eauto.
    + rewrite <- Y. now apply IH.
Qed.

(** ** The command line *)
Lemma cmdline_run : forall ls o o', cmdline_options E ls o = Some o' -> exists ds, given ls ds /\ run_dirs E ds o = Some o'.
Proof.
  induction ls as [|l ls IH]; intros o o' H; cbn [cmdline_options] in H; [injection H as <-; exists []; split; [constructor|reflexivity]|].
  destruct (cmdline_option E l o) as [o1|] eqn:C; [|discriminate]. destruct (IH _ _ H) as (ds & A & B). unfold cmdline_option in C.
  destruct (split_line l) as [| |k rest ws] eqn:S; [|discriminate|].
  - injection C as <-. exists ds. split; [now constructor|exact B].
  - destruct (find_keyword keywords k) as [[p m]|] eqn:F; [|discriminate]. exists (mkDir k rest ws :: ds). split; [now constructor|].
    cbn [run_dirs d_key d_rest d_args]. rewrite F. destruct p; try discriminate; now rewrite C.
Qed.

(** ** Applying *)
Lemma merge_same : forall ns cs xs o, o_int (merge_subsystems ns cs xs o) = o_int o /\ o_str (merge_subsystems ns cs xs o) = o_str o /\ o_arr (merge_subsystems ns cs xs o) = o_arr o.
Proof.
  induction ns as [|n ns IH]; intros cs xs o; [auto|]. destruct cs as [|c cs]; [auto|]. destruct xs as [|x xs]; [auto|]. cbn [merge_subsystems].
  destruct (IH cs xs (merge_one n c x o)) as (A & B & C). rewrite A, B, C. unfold merge_one. destruct (find_name n (firstn (o_nsub o) (o_subname o))); auto.
Qed.
Lemma copy_set_get : forall dst src r, copy_set dst src false = Some r ->
  (forall i, o_int r i = if copied_int i && negb (o_int src i =? -1) then o_int src i else o_int dst i) /\
  (forall s, o_str r s = if late_str s then clear_none (match o_str src s with Some v => Some v | None => o_str dst s end)
                         else match o_str src s with Some v => Some v | None => o_str dst s end) /\
  (forall a, o_arr r a = if is_nil (o_arr src a) then o_arr dst a else o_arr src a).
Proof.
  intros dst src r H. unfold copy_set in H. destruct (cp_arr (o_nsub dst) (o_subname dst) (o_subname src) (o_nsub src)) as [names|]; [|discriminate]. cbv zeta in H.
  destruct (cp_arr _ (o_subcmd dst) (o_subcmd src) (o_nsub src)) as [cmds|]; [|discriminate].
  destruct (cp_arr _ (o_subargs dst) (o_subargs src) (o_nsub src)) as [args|]; [|discriminate].
  match type of H with Some ?x = Some r => assert (Q : x = r) by congruence end. clear H. subst r.
  match goal with |- context [merge_subsystems ?a ?b ?c ?d] => destruct (merge_same a b c d) as (A & B & C) end. rewrite A, B, C. cbn [o_int o_str o_arr]. auto.
Qed.
Lemma clear_off : forall v, clear_none v = off v.
Proof.
  intros [t|]; cbn [clear_none off]; [|reflexivity]. destruct (list_eq_dec Z.eq_dec (map tolower t) (bs "none")) as [Q|Q].
  - assert (X : strcaseeq t (bs "none") = true) by (apply strcaseeq_iff; exact Q). now rewrite X.
  - destruct (strcaseeq t (bs "none")) eqn:X; [|reflexivity]. apply strcaseeq_iff in X. contradiction.
Qed.

(** Everything that a connection does, in terms of the directives that count. *)
Lemma connection_runs : forall cmdline text inc c r, self_contained (e_sshdir E) inc text -> connection E cmdline text inc c = Settings r ->
  exists out cds gen mine o2 mo, given cmdline cds /\ unfolds (e_sshdir E) (cached_texts inc) text out /\ picks (in_general E) out gen /\ picks (for_connection E c) out mine /\
    run_dirs E (cds ++ gen) init_opts = Some o2 /\ run_dirs E mine init_opts = Some mo /\ copy_set (fill_default o2) mo false = Some r.
Proof.
  intros cmdline text inc c r SC H. apply closed_self in SC. destruct SC as [CF CL]. unfold connection, main_settings in H.
  destruct (cmdline_options E cmdline init_opts) as [o1|] eqn:CO; [|discriminate]. destruct (parse_config E None text inc o1) as [[o2 inc2]|] eqn:P1; [|discriminate].
  destruct (config_good E None inc text _ _ _ CF CL P1) as (-> & out & gen & U1 & K1 & R1).
  destruct (parse_config E (Some c) text inc init_opts) as [[mo inc3]|] eqn:P2; [|discriminate].
  destruct (config_good E (Some c) inc text _ _ _ CF CL P2) as (-> & out' & mine & U2 & K2 & R2).
  assert (out' = out) by (eapply reads_fun; eauto). subst out'. destruct (copy_set (fill_default o2) mo false) as [r'|] eqn:CS; [|discriminate]. injection H as <-.
  destruct (cmdline_run _ _ _ CO) as (cds & G1 & G2). exists out, cds, gen, mine, o2, mo. split; [exact G1|]. split; [exact U1|]. split; [exact K1|]. split; [exact K2|].
  split; [|auto]. now rewrite run_dirs_app, G2.
Qed.
End Values.

(** ** Later changes to the files *)
Lemma frozen_lines : forall E glob rd ci inc, let E' := with_files E glob rd in closed_files E inc -> forall read read',
  (forall text never only act o, closed_lines E inc (split 10 text) -> read' text never only act inc o = read text never only act inc o) ->
  (forall text never only act o o' inc', closed_lines E inc (split 10 text) -> read text never only act inc o = Some (o', inc') -> inc' = inc) ->
  forall ls s, closed_lines E inc ls -> p_inc s = inc -> lines_loop E' read' ci ls s = lines_loop E read ci ls s /\ forall s', lines_loop E read ci ls s = Some s' -> p_inc s' = inc.
Proof.
  intros E glob rd ci inc E' CF read read' RQ RI.
  assert (IC : forall s its o, (forall it, In it its -> In it inc) -> inc_cached read' s its inc o = inc_cached read s its inc o /\ forall o' inc', inc_cached read s its inc o = Some (o', inc') -> inc' = inc).
  { intros s. induction its as [|it its IH]; intros o S; cbn [inc_cached]; [split; [reflexivity|congruence]|].
    destruct (it_file it) as [[f t]|] eqn:F; [|apply IH; intros x X; apply S; now right]. unfold nested.
    assert (CL : closed_lines E inc (split 10 t)) by (eapply CF; [apply S; now left|exact F]). rewrite RQ by exact CL.
    destruct (read t _ _ _ inc o) as [[o1 inc1]|] eqn:R; [|split; [reflexivity|discriminate]]. assert (inc1 = inc) by (eapply RI; eauto). subst inc1. apply IH. intros x X. apply S. now right. }
  assert (IA : forall s ws o, (forall w, In w ws -> sel_in E inc w) -> inc_all E' read' s ws inc o = inc_all E read s ws inc o /\ forall o' inc', inc_all E read s ws inc o = Some (o', inc') -> inc' = inc).
  { intros s. induction ws as [|w ws IH]; intros o S; cbn [inc_all]; [split; [reflexivity|congruence]|]. destruct (is_nil w); [split; [reflexivity|discriminate]|].
    unfold inc_one. cbv zeta. change (selector E' w) with (selector E w).
    assert (NE : exists i its, filter (fun it => beqb (it_sel it) (selector E w)) inc = i :: its).
    { destruct (filter (fun it => beqb (it_sel it) (selector E w)) inc) as [|i its] eqn:Fl; [|eauto]. exfalso. destruct (S w (or_introl eq_refl)) as (it & A & B).
      assert (Y : In it []) by (rewrite <- Fl; apply filter_In; split; [exact A|now apply beqb_eq]). destruct Y. }
    destruct NE as (i & its & NE). assert (Z0 : forall it, In it (i :: its) -> In it inc) by (rewrite <- NE; intros it Y; apply filter_In in Y; tauto). rewrite NE.
    destruct (IC s (i :: its) o Z0) as (A & B). rewrite A. destruct (inc_cached read s (i :: its) inc o) as [[o1 inc1]|]; [|split; [reflexivity|discriminate]].
    assert (inc1 = inc) by (eapply B; reflexivity). subst inc1. apply IH. intros x X. apply S. now right. }
  induction ls as [|l ls IH]; intros s CL PI; cbn [lines_loop]; [split; [reflexivity|congruence]|].
  assert (CL' : closed_lines E inc ls) by (intros l0 k rest ws w A; apply (CL l0 k rest ws w); now right).
  assert (KEY : process_line E' read' ci l s = process_line E read ci l s /\ forall s1, process_line E read ci l s = Some s1 -> p_inc s1 = inc).
  { unfold process_line. destruct (split_line l) as [| |k rest ws] eqn:SL; [split; [reflexivity|intros s1 [= <-]; exact PI]|split; [reflexivity|discriminate]|].
    destruct (find_keyword keywords k) as [[p im]|] eqn:FK; [|split; [reflexivity|]; intros s1; destruct (p_act s), ci; intros [= <-]; exact PI].
    destruct (negb (p_act s) && negb im); [split; [reflexivity|]; intros s1; destruct ci; intros [= <-]; exact PI|].
    assert (GEN : forall p, option_map (with_opts s) (exec E' p k rest ws (p_act s) (p_opts s)) = option_map (with_opts s) (exec E p k rest ws (p_act s) (p_opts s)) /\
       forall s1, option_map (with_opts s) (exec E p k rest ws (p_act s) (p_opts s)) = Some s1 -> p_inc s1 = inc).
    { intros q. split; [reflexivity|]. intros s1 X. destruct (exec E q k rest ws (p_act s) (p_opts s)); [|discriminate]. cbn [option_map] in X. injection X as <-. exact PI. }
    destruct p; try apply GEN.
    - split; [reflexivity|]. intros s1 X. destruct (match_cfg_line E (if p_never s then None else ci) ws) as [[v lo]|]; [|discriminate]. destruct (is_nil lo); [|discriminate]. injection X as <-. exact PI.
    - destruct (is_nil ws); [split; [reflexivity|discriminate]|]. rewrite PI. assert (SI : forall w, In w ws -> sel_in E inc w).
      { intros w Hw. eapply (CL l); eauto; [now left|]. now apply (is_include _ _ _ FK). }
      destruct (IA s ws (p_opts s) SI) as (A & B). rewrite A. split; [reflexivity|]. intros s1 X. destruct (inc_all E read s ws inc (p_opts s)) as [[o1 inc1]|]; [|discriminate].
      cbn [option_map] in X. injection X as <-. cbn [p_inc snd]. eapply B; reflexivity. }
  destruct KEY as (K1 & K2). rewrite K1. destruct (process_line E read ci l s) as [s1|]; [|split; [reflexivity|discriminate]]. apply IH; [exact CL'|]. now apply K2.
Qed.
Lemma frozen_depth : forall E glob rd ci inc, closed_files E inc -> forall f text never only act o, closed_lines E inc (split 10 text) ->
  parse_depth (with_files E glob rd) f ci text never only act inc o = parse_depth E f ci text never only act inc o /\
  forall o' inc', parse_depth E f ci text never only act inc o = Some (o', inc') -> inc' = inc.
Proof.
  intros E glob rd ci inc CF. induction f as [|f IH]; intros text never only act o CL; cbn [parse_depth]; [split; [reflexivity|discriminate]|].
  assert (L : lines_loop (with_files E glob rd) (parse_depth (with_files E glob rd) f ci) ci (split 10 text) (mkSt o act never only inc) =
              lines_loop E (parse_depth E f ci) ci (split 10 text) (mkSt o act never only inc) /\
              forall s', lines_loop E (parse_depth E f ci) ci (split 10 text) (mkSt o act never only inc) = Some s' -> p_inc s' = inc).
  { apply (frozen_lines E glob rd ci inc CF); auto.
    - intros t n1 n2 a o1 C. now apply IH.
    - intros t n1 n2 a o1 o2 inc' C X. eapply IH; eauto. }
  destruct L as (L1 & L2). rewrite L1. split; [reflexivity|]. intros o' inc' X.
  destruct (lines_loop E (parse_depth E f ci) ci (split 10 text) (mkSt o act never only inc)) as [s|] eqn:LL; [|discriminate]. injection X as <- <-. now apply L2.
Qed.
Lemma frozen_connection : forall E glob rd cmdline text inc c, self_contained (e_sshdir E) inc text ->
  connection (with_files E glob rd) cmdline text inc c = connection E cmdline text inc c.
Proof.
  intros E glob rd cmdline text inc c SC. apply closed_self in SC. destruct SC as [CF CL]. unfold connection, main_settings.
  change (cmdline_options (with_files E glob rd) cmdline init_opts) with (cmdline_options E cmdline init_opts).
  destruct (cmdline_options E cmdline init_opts) as [o|]; [|reflexivity]. unfold parse_config.
  destruct (frozen_depth E glob rd None inc CF (S MAX_DEPTH) text false false true o CL) as [A B]. rewrite A.
  destruct (parse_depth E (S MAX_DEPTH) None text false false true inc o) as [[o1 inc1]|]; [|reflexivity]. rewrite (B _ _ eq_refl).
  destruct (frozen_depth E glob rd (Some c) inc CF (S MAX_DEPTH) text false true false init_opts CL) as [A' B']. now rewrite A'.
Qed.
