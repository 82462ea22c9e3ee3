(** Property C17: the +, -, ^ edits of algorithm lists. *)
From Coq Require Import String.
From Verif Require Import Base Text MatchModel MatchSpec MatchProof KexNamesModel KexNamesSpec KexNamesProof.

Definition not_err (r : list Z + aerr) : Prop := r <> inr AllocFail /\ r <> inr Diverged.

(** The hypotheses on the built-in lists: proper lists, below 1 MiB of text. *)
Definition proper (l : list (list Z)) : Prop := name_list l /\ l <> [] /\ zlen (join 44 l) <= 1048576.

Lemma proper_parts : forall l, proper l -> wfn l /\ NoDup l /\ l <> [] /\ zlen (join 44 l) <= 1048576.
Proof. intros l ((A & B) & C & D). auto. Qed.

Lemma split_join_empty : forall l, wfn l -> existsb negative (split 44 (join 44 l)) = existsb negative l.
Proof. intros l H. destruct l as [|f l]; [reflexivity|]. rewrite split_join; [reflexivity|discriminate|]. eapply Forall_impl; [|exact H]. cbn. tauto. Qed.
Lemma selects_split_join : forall la l acc out, wfn la -> wfn l ->
  (selects la acc (split 44 (join 44 l)) out <-> selects la acc l out).
Proof.
  intros la l acc out Hla H. destruct l as [|f l]; [exact (iff_sym (selects_skip_empty la [[]] acc out Hla))|].
  rewrite split_join; [reflexivity|discriminate|]. eapply Forall_impl; [|exact H]. cbn. tauto.
Qed.
Lemma existsb_app_neg : forall a b, existsb negative (a ++ b) = existsb negative a || existsb negative b.
Proof. intros. apply existsb_app. Qed.
Lemma literal_not_negative : forall l, Forall literal l -> existsb negative l = false.
Proof. induction 1 as [|n l (_ & _ & H & _) _ IH]; [reflexivity|]. cbn. now rewrite H, IH. Qed.
Lemma neg_fresh : forall new seen, existsb negative seen = false -> existsb negative (fresh seen new) = existsb negative new.
Proof.
  induction new as [|n new IH]; intros seen H; [reflexivity|]. cbn. destruct (existsb (beqb n) seen) eqn:E.
  - rewrite IH by assumption. apply existsb_In in E. destruct (negative n) eqn:En; [|reflexivity].
    exfalso. apply Bool.not_true_iff_false in H. apply H. apply existsb_exists. eauto.
  - cbn. destruct (negative n) eqn:En; [reflexivity|]. cbn. apply IH. rewrite existsb_app, H. cbn. now rewrite En.
Qed.

(** C17, '+': the result is the default list followed by whatever supported
    names the given patterns add, each once; negated patterns are an error. *)
Theorem C17_append : forall ld la rest, proper la -> proper ld -> Forall literal ld -> incl ld la ->
  zlen rest <= 1048576 ->
  exists out, selects la ld (names rest) out /\ (exists new, out = ld ++ new) /\
  kex_assemble_names (43 :: rest) (join 44 ld) (join 44 la) =
    if existsb negative (names rest) then inr InvalidArgument else inl (join 44 out).
Proof.
  intros ld la rest Pa Pd Hlit Hi Hr. destruct (proper_parts _ Pa) as (Wa & Na & Ea & Za). destruct (proper_parts _ Pd) as (Wd & Nd & Ed & Zd).
  destruct (selects_total la (names rest) ld) as (out & Ho). exists out. split; [assumption|]. split; [eapply selects_grow; eauto|].
  cbn [kex_assemble_names]. change (43 =? 43) with true. cbn iota.
  rewrite names_cat_ok by assumption.
  set (pats := add_new ld (names rest)).
  assert (Wp : wfn pats) by (apply add_new_wfn; [assumption|apply wfn_names]).
  assert (Hpats : pats = ld ++ fresh ld (names rest)) by apply add_new_fresh.
  pose proof (literal_not_negative _ Hlit) as Hneg.
  pose proof (asm_patterns_ok (join 44 pats) la Wa Ea Na Za) as HA. rewrite split_join_empty in HA by assumption.
  rewrite Hpats, existsb_app_neg, Hneg, neg_fresh in HA by assumption. cbn [orb] in HA.
  assert (Hsel : selects la [] pats out).
  { rewrite Hpats. destruct (selects_total la ld []) as (mid & Hm). eapply selects_app; [exact Hm|].
    assert (mid = ld) as ->.
    { rewrite (selects_literal _ _ _ _ Na Hlit Hi Hm). rewrite add_new_disjoint; [reflexivity|assumption|intros x _ []]. }
    apply selects_fresh; [|assumption]. intros q sel Hq Hp x Hx. rewrite Forall_forall in Hlit.
    rewrite (picks_literal _ _ _ (Hlit q Hq) Hp) in Hx. destruct Hx as [-> _]. assumption. }
  rewrite <- Hpats in HA. destruct (existsb negative (names rest)) eqn:En.
  - destruct (asm_patterns (join 44 pats) (join 44 la)); [destruct HA; discriminate|]. destruct HA as [-> _]. reflexivity.
  - destruct (asm_patterns (join 44 pats) (join 44 la)) as [r|e].
    + destruct HA as (_ & o & Hos & _ & ->). rewrite selects_split_join in Hos by assumption. now rewrite (selects_fun _ _ _ _ Hos _ Hsel).
    + destruct HA as (_ & [HA|HA]); [discriminate|]. rewrite selects_split_join in HA by assumption.
      pose proof (selects_fun _ _ _ _ HA _ Hsel) as E. destruct (selects_grow _ _ _ _ Ho) as (t & Et). rewrite <- E in Et.
      symmetry in Et. apply app_eq_nil in Et. tauto.
Qed.
Print Assumptions C17_append.

(** C17, '^': what the patterns select comes first, the rest of the default list
    after it. *)
Theorem C17_head : forall ld la lp, proper la -> proper ld -> Forall literal ld -> incl ld la ->
  lp <> [] -> Forall (fun f => f <> [] /\ ~ In 44 f) lp ->
  exists first, selects la [] lp first /\
  kex_assemble_names (94 :: join 44 lp) (join 44 ld) (join 44 la) =
    if existsb negative lp then inr InvalidArgument else inl (join 44 (add_new first ld)).
Proof.
  intros ld la lp Pa Pd Hlit Hi Hlp Wl. destruct (proper_parts _ Pa) as (Wa & Na & Ea & Za). destruct (proper_parts _ Pd) as (Wd & Nd & Ed & Zd).
  fold (free_of 44) in Wl. change (wfn lp) in Wl.
  destruct (selects_total la lp []) as (mid & Hm). exists mid. split; [assumption|].
  cbn [kex_assemble_names]. change (94 =? 43) with false. change (94 =? 45) with false. change (94 =? 94) with true. cbn iota.
  rewrite names_cat_ok by assumption. rewrite names_join by assumption.
  set (pats := add_new lp ld).
  assert (Wp : wfn pats) by (apply add_new_wfn; assumption).
  assert (Hpats : pats = lp ++ fresh lp ld) by apply add_new_fresh.
  pose proof (literal_not_negative _ Hlit) as Hneg.
  pose proof (asm_patterns_ok (join 44 pats) la Wa Ea Na Za) as HA. rewrite split_join_empty in HA by assumption.
  rewrite Hpats, existsb_app_neg in HA.
  assert (Hselm : selects la mid ld (add_new mid ld)).
  { destruct (selects_total la ld mid) as (o & Hs). pose proof (selects_literal _ _ _ _ Na Hlit Hi Hs) as E. now rewrite <- E. }
  assert (Hsel : selects la [] pats (add_new mid ld)).
  { rewrite Hpats. eapply selects_app; [exact Hm|]. apply selects_fresh; [|assumption].
    intros q sel Hq Hp x Hx. rewrite (selects_in _ _ _ _ Hm). rewrite (picks_sub _ _ _ Hp) in Hx. right. split; [tauto|]. exists q. tauto. }
  rewrite <- Hpats in HA. destruct (existsb negative lp) eqn:En.
  - cbn [orb] in HA. destruct (asm_patterns (join 44 pats) (join 44 la)); [destruct HA; discriminate|]. destruct HA as [-> _]. reflexivity.
  - rewrite neg_fresh, Hneg in HA by assumption. cbn [orb] in HA. destruct (asm_patterns (join 44 pats) (join 44 la)) as [r|e].
    + destruct HA as (_ & o & Hos & _ & ->). rewrite selects_split_join in Hos by assumption. now rewrite (selects_fun _ _ _ _ Hos _ Hsel).
    + destruct HA as (_ & [HA|HA]); [discriminate|]. rewrite selects_split_join in HA by assumption.
      pose proof (selects_fun _ _ _ _ HA _ Hsel) as E. exfalso. destruct ld as [|n ld]; [congruence|].
      assert (In n (add_new mid (n :: ld))) by (apply add_new_in; right; now left). rewrite <- E in H. destruct H.
Qed.
Print Assumptions C17_head.

(** C17, '-': the default list without the names the pattern list matches. *)
Theorem C17_remove : forall ld rest all, proper ld -> Forall fits (entries rest) ->
  exists out, kex_assemble_names (45 :: rest) (join 44 ld) all = inl (join 44 out) /\
    out = filter (fun n => negb (match match_pattern_list n rest false with Some m => m =? 1 | None => false end)) ld /\
    forall n, In n out <-> In n ld /\ ~ (some_positive false n (entries rest) /\ ~ some_negative false n (entries rest)).
Proof.
  intros ld rest all Pd Hf. destruct (proper_parts _ Pd) as (Wd & Nd & Ed & Zd).
  cbn [kex_assemble_names]. change (45 =? 43) with false. change (45 =? 45) with true. cbn iota.
  unfold match_filter_denylist, filter_list, COMMA. rewrite split_nil_join by assumption.
  change (@nil Z) with (join 44 []) at 1. rewrite filter_scan_deny; [|assumption|constructor].
  eexists. split; [reflexivity|]. cbn [app]. split.
  - apply filter_ext. intros n. now rewrite match_pattern_list_entries.
  - intros n. rewrite filter_In. destruct (mpl_spec_fits n false (entries rest) false Hf) as [_ H2].
    destruct (mpl_spec n false false (entries rest) =? 1) eqn:E; cbn [negb].
    + assert (E' : mpl_spec n false false (entries rest) = 1) by lia. apply H2 in E'. destruct E' as [A [B|B]]; [discriminate|].
      split; [intros [_ H]; discriminate|]. intros [_ H]. exfalso. apply H. auto.
    + assert (E' : mpl_spec n false false (entries rest) <> 1) by lia. rewrite H2 in E'. split; [|tauto].
      intros [H _]. split; [assumption|]. intros [A B]. apply E'. auto.
Qed.
Print Assumptions C17_remove.

(** C17: whatever the edit string (other than a removal), a successful result is
    a list of distinct supported names; there are no other failures than an
    invalid edit or one too long. *)
Theorem C17_supported : forall la def c rest, proper la -> c <> 45 ->
  match kex_assemble_names (c :: rest) def (join 44 la) with
  | inl l => exists out, l = join 44 out /\ out <> [] /\ NoDup out /\ incl out la
  | inr e => e <> Diverged
  end.
Proof.
  intros la def c rest Pa Hc. destruct (proper_parts _ Pa) as (Wa & Na & Ea & Za).
  assert (G : forall l, match asm_patterns l (join 44 la) with
              | inl l => exists out, l = join 44 out /\ out <> [] /\ NoDup out /\ incl out la
              | inr e => e <> Diverged end).
  { intros l. pose proof (asm_patterns_ok l la Wa Ea Na Za) as HA. destruct (asm_patterns l (join 44 la)) as [r|e].
    - destruct HA as (_ & out & Ho & Hne & ->). exists out. splits; auto.
      + eapply selects_nodup; [exact Ho|constructor].
      + intros x Hx. rewrite (selects_in _ _ _ _ Ho) in Hx. destruct Hx as [[]|[Hx _]]. assumption.
    - destruct HA as [-> _]. discriminate. }
  cbn [kex_assemble_names]. destruct (c =? 43); [destruct (kex_names_cat _ _); [apply G|discriminate]|].
  replace (c =? 45) with false by lia. destruct (c =? 94); [destruct (kex_names_cat _ _); [apply G|discriminate]|]. apply G.
Qed.
Print Assumptions C17_supported.

(** C17, an explicit list: what its patterns select, in their order. *)
Theorem C17_explicit : forall la def c rest, proper la -> c <> 43 -> c <> 45 -> c <> 94 ->
  existsb negative (split 44 (c :: rest)) = false ->
  exists out, selects la [] (split 44 (c :: rest)) out /\
  kex_assemble_names (c :: rest) def (join 44 la) = match out with [] => inr InvalidArgument | _ => inl (join 44 out) end.
Proof.
  intros la def c rest Pa H1 H2 H3 Hneg. destruct (proper_parts _ Pa) as (Wa & Na & Ea & Za).
  destruct (selects_total la (split 44 (c :: rest)) []) as (out & Ho). exists out. split; [assumption|].
  unfold kex_assemble_names. replace (c =? 43) with false by lia. replace (c =? 45) with false by lia. replace (c =? 94) with false by lia.
  pose proof (asm_patterns_ok (c :: rest) la Wa Ea Na Za) as HA. destruct (asm_patterns (c :: rest) (join 44 la)) as [r|e].
  - destruct HA as (_ & o & Hos & Hne & ->). rewrite (selects_fun _ _ _ _ Hos _ Ho) in *. destruct out; [congruence|reflexivity].
  - destruct HA as (-> & [HA|HA]); [congruence|]. rewrite <- (selects_fun _ _ _ _ HA _ Ho). reflexivity.
Qed.
Print Assumptions C17_explicit.

Definition demo_all := [bs "aes128-ctr"; bs "aes256-ctr"; bs "chacha20"; bs "3des"].
Definition demo_def := [bs "chacha20"; bs "aes256-ctr"].
Example C17_demo_lists : proper demo_all /\ proper demo_def /\ Forall literal demo_def /\ incl demo_def demo_all.
Proof.
  assert (F : forall l, forallb (fun f => negb (is_nil f) && negb (existsb (Z.eqb 44) f)) l = true -> Forall (fun f => f <> [] /\ ~ In 44 f) l).
  { intros l H. rewrite forallb_forall in H. apply Forall_forall. intros f Hf. apply H in Hf. apply andb_true_iff in Hf. destruct Hf as [A B].
    split; [now destruct f|]. intros Hi. rewrite negb_true_iff in B. apply Bool.not_true_iff_false in B. apply B. apply existsb_exists. exists 44. split; [assumption|reflexivity]. }
  assert (N : forall a b : list Z, beqb a b = false -> a <> b) by (intros a b H ->; rewrite beqb_refl in H; discriminate).
  unfold proper, name_list. splits; try discriminate; try (vm_compute; discriminate); try (apply F; reflexivity).
  - repeat constructor; cbn; intros H; repeat (destruct H as [H|H]; [discriminate H|]); exact H.
  - repeat constructor; cbn; intros H; repeat (destruct H as [H|H]; [discriminate H|]); exact H.
  - repeat constructor; unfold literal; splits; cbn; try (intros H; repeat (destruct H as [H|H]; [discriminate H|]); exact H); try reflexivity; lia.
  - intros x [<-|[<-|[]]]; cbn; auto.
Qed.
Example C17_demo : 
  kex_assemble_names (bs "+aes*,3des") (join 44 demo_def) (join 44 demo_all) = inl (bs "chacha20,aes256-ctr,aes128-ctr,3des") /\
  kex_assemble_names (bs "^3des") (join 44 demo_def) (join 44 demo_all) = inl (bs "3des,chacha20,aes256-ctr") /\
  kex_assemble_names (bs "-aes*") (join 44 demo_def) (join 44 demo_all) = inl (bs "chacha20") /\
  kex_assemble_names (bs "+nosuch,!x") (join 44 demo_def) (join 44 demo_all) = inr InvalidArgument.
Proof. splits; vm_compute; reflexivity. Qed.
