From Coq Require Import String Permutation.
From Verif Require Import Base Text MatchModel MatchSpec MatchProof KexNamesModel KexNamesSpec.

Definition wfn (l : list (list Z)) : Prop := Forall (fun f => f <> [] /\ free_of 44 f) l.

Lemma in_dec_l : forall (n : list Z) l, {In n l} + {~ In n l}.
Proof. intros. apply in_dec. apply bytes_eq_dec. Qed.
Lemma existsb_false : forall n l, existsb (beqb n) l = false <-> ~ In n l.
Proof. intros. rewrite <- existsb_In. destruct (existsb _ _); split; congruence. Qed.

Lemma wfn_app : forall a b, wfn a -> wfn b -> wfn (a ++ b).
Proof. intros. apply Forall_app. auto. Qed.
Lemma wfn_names : forall l, wfn (names l).
Proof. intros l. apply Forall_forall. intros n Hn. now apply names_wf in Hn. Qed.

Lemma has_any_single : forall la p, wfn la -> p <> [] -> free_of 44 p ->
  kex_has_any_alg (join 44 la) p = existsb (beqb p) la.
Proof.
  intros la p Hla Hp Hf. unfold kex_has_any_alg. pose proof (match_list_spec (join 44 la) p) as H.
  rewrite names_join in H by assumption.
  assert (E : firstn 40 (names p) = [p]).
  { unfold names. rewrite split_single by assumption. destruct p; [congruence|reflexivity]. }
  rewrite E in H. destruct (match_list (join 44 la) p) as [n|].
  - destruct H as (a & b & -> & [->|[]] & _). symmetry. apply existsb_In. apply in_or_app. right. now left.
  - symmetry. apply existsb_false. intros Hi. apply (H p Hi). now left.
Qed.

Lemma add_new_grow : forall new l, exists t, add_new l new = l ++ t.
Proof.
  induction new as [|n new IH]; intros l; cbn; [exists []; now rewrite app_nil_r|].
  destruct (existsb _ _); [apply IH|]. destruct (IH (l ++ [n])) as (t & ->). exists (n :: t). now rewrite <- app_assoc.
Qed.
Lemma add_new_in : forall new l x, In x (add_new l new) <-> In x l \/ In x new.
Proof.
  induction new as [|n new IH]; intros l x; cbn; [tauto|].
  destruct (existsb (beqb n) l) eqn:E; rewrite IH.
  - apply existsb_In in E. intuition (subst; auto).
  - rewrite in_app_iff. cbn. tauto.
Qed.
Lemma add_new_nodup : forall new l, NoDup l -> NoDup (add_new l new).
Proof.
  induction new as [|n new IH]; intros l H; cbn; [assumption|]. destruct (existsb (beqb n) l) eqn:E; [auto|].
  apply IH. apply existsb_false in E.
  apply (Permutation_NoDup (l := n :: l)); [apply Permutation_cons_append|]. now constructor.
Qed.
Lemma add_new_wfn : forall new l, wfn l -> wfn new -> wfn (add_new l new).
Proof.
  intros new l Hl Hn. apply Forall_forall. intros x Hx. apply add_new_in in Hx. unfold wfn in *. rewrite Forall_forall in *.
  destruct Hx; auto.
Qed.
Lemma add_new_ne : forall new l, l <> [] -> add_new l new <> [].
Proof. intros new l H E. destruct (add_new_grow new l) as (t & Et). rewrite E in Et. symmetry in Et. apply app_eq_nil in Et. tauto. Qed.
Lemma add_new_disjoint : forall new l, NoDup new -> (forall x, In x new -> ~ In x l) -> add_new l new = l ++ new.
Proof.
  induction new as [|n new IH]; intros l Hn Hd; cbn; [now rewrite app_nil_r|]. inversion Hn; subst.
  replace (existsb (beqb n) l) with false by (symmetry; apply existsb_false; apply Hd; now left).
  rewrite IH; [now rewrite <- app_assoc|assumption|]. intros x Hx Hi. apply in_app_or in Hi. destruct Hi as [Hi|[<-|[]]]; [|contradiction].
  apply (Hd x); [now right|assumption].
Qed.
Lemma add_new_incl : forall new l, incl new l -> add_new l new = l.
Proof.
  induction new as [|n new IH]; intros l H; cbn; [reflexivity|].
  replace (existsb (beqb n) l) with true by (symmetry; apply existsb_In; apply H; now left).
  apply IH. intros x Hx. apply H. now right.
Qed.
Lemma add_new_app : forall a b l, add_new l (a ++ b) = add_new (add_new l a) b.
Proof. induction a as [|n a IH]; intros b l; cbn; [reflexivity|]. destruct (existsb _ _); apply IH. Qed.

Lemma join_ne : forall l, wfn l -> l <> [] -> join 44 l <> [].
Proof.
  intros l H Hn E. destruct l as [|f l]; [congruence|]. inversion H as [|? ? [H1 _] _]; subst.
  destruct l; cbn [join] in E; [congruence|]. apply app_eq_nil in E. destruct E; congruence.
Qed.
Lemma join_snoc : forall l p, l <> [] -> join 44 (l ++ [p]) = join 44 l ++ 44 :: p.
Proof. intros l p H. rewrite join_app; [reflexivity|assumption|discriminate]. Qed.

Lemma zlen_join_cons : forall f r, r <> [] -> zlen (join 44 (f :: r)) = zlen f + 1 + zlen (join 44 r).
Proof. intros f r H. destruct r; [congruence|]. cbn [join]. rewrite zlen_app, zlen_cons. fold (join 44 (l :: r)). lia. Qed.

Lemma cat_scan_ok : forall fs la len, wfn la -> la <> [] -> Forall (free_of 44) fs ->
  (fs <> [] -> zlen (join 44 la) + 1 + zlen (join 44 fs) < len) ->
  cat_scan fs (join 44 la) len = Some (join 44 (add_new la (names_of fs))).
Proof.
  induction fs as [|p r IH]; intros la len Hla Hne Hfs Hlen; [reflexivity|].
  cbn [cat_scan]. inversion Hfs; subst. destruct p as [|x p]; [reflexivity|]. cbn [is_nil names_of add_new].
  specialize (Hlen ltac:(discriminate)).
  assert (Hp : zlen (join 44 ((x :: p) :: r)) = zlen (x :: p) + (match r with [] => 0 | _ => 1 + zlen (join 44 r) end)).
  { destruct r; [cbn [join]; lia|]. rewrite zlen_join_cons by discriminate. lia. }
  pose proof (zlen_nonneg Z (join 44 r)). pose proof (zlen_nonneg Z (join 44 la)). pose proof (zlen_nonneg Z (x :: p)).
  rewrite has_any_single; [|assumption|discriminate|assumption].
  destruct (existsb (beqb (x :: p)) la) eqn:E.
  - apply IH; auto. intros Hr. destruct r; [congruence|]. lia.
  - replace ((len <=? zlen (join 44 la) + 1) || (len <=? zlen (join 44 la) + 1 + zlen (x :: p))) with false
      by (destruct r; lia).
    rewrite <- join_snoc by assumption. apply IH; auto.
    + apply wfn_app; [assumption|]. constructor; [split; [discriminate|assumption]|constructor].
    + destruct la; discriminate.
    + intros Hr. rewrite join_snoc by assumption. rewrite zlen_app, zlen_cons. destruct r; [congruence|]. lia.
Qed.

Lemma names_cat_ok : forall la b, wfn la -> la <> [] -> zlen b <= 1048576 ->
  kex_names_cat (join 44 la) b = Some (join 44 (add_new la (names b))).
Proof.
  intros la b Hla Hne Hb. unfold kex_names_cat. pose proof (join_ne la Hla Hne) as Hj.
  destruct (join 44 la) as [|x j] eqn:Ej; [congruence|]. cbn [is_nil]. rewrite <- Ej.
  destruct b as [|y b]; [reflexivity|]. cbn [is_nil]. replace (1048576 <? zlen (y :: b)) with false by lia.
  unfold names. apply cat_scan_ok; auto; [apply split_free|]. intros _. rewrite join_split. lia.
Qed.

(** ** Filtering *)
Lemma list_match_one : forall n cp, n <> [] -> free_of 44 cp -> negative cp = false ->
  exists m, match_pattern_list n cp false = Some m /\ (m = 1 <-> glob cp n /\ fits cp).
Proof.
  intros n cp Hn Hf Hneg. rewrite match_pattern_list_entries. eexists. split; [reflexivity|].
  destruct cp as [|c cp].
  - cbn. split; [discriminate|]. intros [H _]. inversion H. congruence.
  - rewrite entries_single; [|discriminate|assumption]. cbn [mpl_spec]. unfold body, fits, fold_case, body. rewrite Hneg.
    unfold zlen. destruct (1023 <=? Z.of_nat (length (c :: cp))) eqn:E.
    + split; [discriminate|]. intros [_ H]. lia.
    + destruct (match_pattern n (c :: cp)) eqn:Em.
      * apply match_pattern_glob in Em. split; [|reflexivity]. intros _. split; [assumption|lia].
      * apply match_pattern_glob_f in Em. split; [discriminate|]. intros [H _]. contradiction.
Qed.

Lemma filter_scan_allow : forall fs cp acc, wfn fs -> wfn acc -> free_of 44 cp -> negative cp = false ->
  exists sel, picks fs cp sel /\ filter_scan fs cp false (join 44 acc) = Some (join 44 (acc ++ sel)).
Proof.
  induction fs as [|n fs IH]; intros cp acc Hfs Hacc Hf Hneg.
  - exists []. split; [constructor|]. cbn. now rewrite app_nil_r.
  - inversion Hfs as [|? ? [Hn Hnf] Hfs']; subst. cbn [filter_scan].
    destruct (list_match_one n cp Hn Hf Hneg) as (m & -> & Hm). cbn [andb orb negb].
    destruct (m =? 1) eqn:E.
    + destruct (proj1 Hm ltac:(lia)) as [Hg Hft].
      destruct (IH cp (acc ++ [n])) as (sel & Hp & Hs); auto.
      { apply wfn_app; auto. constructor; auto. }
      exists (n :: sel). split; [now constructor|].
      replace ((if is_nil (join 44 acc) then [] else join 44 acc ++ [COMMA]) ++ n) with (join 44 (acc ++ [n])).
      * rewrite Hs. f_equal. f_equal. now rewrite <- app_assoc.
      * destruct acc as [|a acc]; [reflexivity|]. rewrite join_snoc by discriminate.
        pose proof (join_ne (a :: acc) Hacc ltac:(discriminate)) as Hj. destruct (join 44 (a :: acc)) eqn:Ej; [congruence|].
        cbn [is_nil]. rewrite <- app_assoc. reflexivity.
    + destruct (IH cp acc) as (sel & Hp & Hs); auto. exists sel. split; [|assumption]. apply picks_no; [|assumption].
      destruct (match_pattern n cp) eqn:Em.
      * apply match_pattern_glob in Em. right. intros Hft. apply Bool.not_true_iff_false in E. apply E. apply Z.eqb_eq. tauto.
      * left. now apply match_pattern_glob_f.
Qed.

Lemma split_nil_join : forall la, wfn la -> la <> [] -> split 44 (join 44 la) = la.
Proof. intros la H Hn. apply split_join; [assumption|]. eapply Forall_impl; [|exact H]. cbn. tauto. Qed.

Lemma allow_ok : forall la cp, wfn la -> la <> [] -> free_of 44 cp -> negative cp = false ->
  exists sel, picks la cp sel /\ match_filter_allowlist (join 44 la) cp = Some (join 44 sel).
Proof.
  intros la cp Hla Hne Hf Hneg. unfold match_filter_allowlist, filter_list, COMMA. rewrite split_nil_join by assumption.
  apply (filter_scan_allow la cp []); auto. constructor.
Qed.

Lemma picks_sub : forall all p sel, picks all p sel -> forall x, In x sel <-> In x all /\ glob p x /\ fits p.
Proof.
  induction 1 as [p|a r p sel Hg Hf Hp IH|a r p sel Hno Hp IH]; intros x; cbn; [tauto| |].
  - rewrite IH. intuition (subst; auto).
  - rewrite IH. split; [tauto|]. intros [[->|Hx] [Hg Hf]]; tauto.
Qed.
Lemma picks_nodup : forall all p sel, picks all p sel -> NoDup all -> NoDup sel.
Proof.
  induction 1 as [p|a r p sel Hg Hf Hp IH|a r p sel Hno Hp IH]; intros H; [constructor| |]; inversion H; subst; auto.
  constructor; auto. rewrite (picks_sub _ _ _ Hp). tauto.
Qed.
Lemma picks_wfn : forall all p sel, picks all p sel -> wfn all -> wfn sel.
Proof.
  intros all p sel H Hw. apply Forall_forall. intros x Hx. rewrite (picks_sub _ _ _ H) in Hx. unfold wfn in Hw. rewrite Forall_forall in Hw.
  now apply Hw.
Qed.
Lemma picks_total : forall all p, exists sel, picks all p sel.
Proof.
  induction all as [|a all IH]; intros p; [exists []; constructor|]. destruct (IH p) as (sel & Hs).
  destruct (match_pattern a p) eqn:E.
  - destruct (Nat.lt_ge_cases (length (body p)) 1023).
    + exists (a :: sel). constructor; auto. now apply match_pattern_glob.
    + exists sel. apply picks_no; auto. right. unfold fits. lia.
  - exists sel. apply picks_no; auto. left. now apply match_pattern_glob_f.
Qed.
Lemma picks_fun : forall all p s1, picks all p s1 -> forall s2, picks all p s2 -> s1 = s2.
Proof.
  induction 1 as [p|a r p sel Hg Hf Hp IH|a r p sel Hno Hp IH]; intros s2 H2; inversion H2; subst; auto; try tauto.
  f_equal. auto.
Qed.

(** Sizes: the selection is no longer than the list it is taken from. *)
Lemma zlen_join_sel : forall all p sel, picks all p sel -> zlen (join 44 sel) <= zlen (join 44 all).
Proof.
  assert (G : forall all p sel, picks all p sel -> sel <> [] -> all <> [] /\ zlen (join 44 sel) <= zlen (join 44 all)).
  { induction 1 as [p|a r p sel Hg Hf Hp IH|a r p sel Hno Hp IH]; intros Hne; [congruence| |]; (split; [discriminate|]).
    - destruct sel as [|s sel].
      + destruct r; [cbn; lia|]. rewrite (zlen_join_cons a (l :: r)) by discriminate. change (join 44 [a]) with a. pose proof (zlen_nonneg Z (join 44 (l :: r))). lia.
      + destruct (IH ltac:(discriminate)) as [H1 H2]. rewrite (zlen_join_cons a r) by assumption. rewrite (zlen_join_cons a (s :: sel)) by discriminate. lia.
    - destruct (IH Hne) as [H1 H2]. rewrite zlen_join_cons by assumption. pose proof (zlen_nonneg Z a). lia. }
  intros all p sel H. destruct sel as [|s sel]; [cbn; apply zlen_nonneg|]. now apply (G all p (s :: sel)).
Qed.

(** ** The pattern loop *)
Lemma asm_scan_ok : forall fs la acc, wfn la -> la <> [] -> NoDup la -> zlen (join 44 la) <= 1048576 ->
  wfn acc -> Forall (free_of 44) fs ->
  if existsb negative fs then asm_scan fs (join 44 la) (join 44 acc) = inr InvalidArgument
  else exists out, selects la acc fs out /\ asm_scan fs (join 44 la) (join 44 acc) = inl (join 44 out).
Proof.
  induction fs as [|cp fs IH]; intros la acc Hla Hne Hnd Hsz Hacc Hfs.
  - cbn. exists acc. split; [constructor|reflexivity].
  - inversion Hfs; subst. cbn [existsb asm_scan]. unfold BANG. fold (negative cp). destruct (negative cp) eqn:En; cbn [orb]; [reflexivity|].
    destruct (allow_ok la cp Hla Hne H1 En) as (sel & Hp & ->).
    pose proof (picks_wfn _ _ _ Hp Hla) as Hws. pose proof (zlen_join_sel _ _ _ Hp) as Hz.
    assert (Hcat : kex_names_cat (join 44 acc) (join 44 sel) = Some (join 44 (add_new acc sel))).
    { destruct acc as [|a acc].
      - cbn [join kex_names_cat is_nil]. rewrite (add_new_disjoint sel []); [reflexivity|now apply (picks_nodup _ _ _ Hp)|intros x _ []].
      - rewrite names_cat_ok; [|assumption|discriminate|lia]. now rewrite names_join. }
    rewrite Hcat. specialize (IH la (add_new acc sel) Hla Hne Hnd Hsz (add_new_wfn _ _ Hacc Hws) H2).
    destruct (existsb negative fs); [assumption|]. destruct IH as (out & Ho & E). exists out. split; [|assumption]. econstructor; eauto.
Qed.

Lemma selects_total : forall la ps acc, exists out, selects la acc ps out.
Proof.
  induction ps as [|p ps IH]; intros acc; [eexists; constructor|]. destruct (picks_total la p) as (sel & Hp).
  destruct (IH (add_new acc sel)) as (out & Ho). exists out. econstructor; eauto.
Qed.
Lemma selects_cons_inv : forall la acc q ps out, selects la acc (q :: ps) out ->
  exists sel, picks la q sel /\ selects la (add_new acc sel) ps out.
Proof. intros la acc q ps out H. inversion H; subst. eauto. Qed.
Lemma selects_fun : forall la acc ps o1, selects la acc ps o1 -> forall o2, selects la acc ps o2 -> o1 = o2.
Proof.
  induction 1 as [|acc p ps sel out Hp Hs IH]; intros o2 H2; inversion H2; subst; [reflexivity|].
  rewrite (picks_fun _ _ _ Hp _ H3) in *. auto.
Qed.
Lemma selects_app : forall la a b acc mid out, selects la acc a mid -> selects la mid b out -> selects la acc (a ++ b) out.
Proof. intros la a b acc mid out H. induction H; intros H2; cbn; [assumption|]. econstructor; eauto. Qed.
Lemma selects_app_inv : forall la a b acc out, selects la acc (a ++ b) out -> exists mid, selects la acc a mid /\ selects la mid b out.
Proof.
  induction a as [|p a IH]; intros b acc out H; cbn in H; [exists acc; split; [constructor|assumption]|].
  inversion H; subst. destruct (IH _ _ _ H5) as (mid & H6 & H7). exists mid. split; [|assumption]. econstructor; eauto.
Qed.
Lemma selects_in : forall la acc ps out, selects la acc ps out ->
  forall x, In x out <-> In x acc \/ (In x la /\ exists p, In p ps /\ glob p x /\ fits p).
Proof.
  induction 1 as [acc|acc p ps sel out Hp Hs IH]; intros x.
  - split; [auto|]. intros [H|(_ & p & [] & _)]. assumption.
  - rewrite IH, add_new_in, (picks_sub _ _ _ Hp). split.
    + intros [[H|(H1 & H2 & H3)]|(H1 & q & H2 & H3)]; [auto|right; split; [assumption|exists p; cbn; auto]|right; split; [assumption|exists q; cbn; tauto]].
    + intros [H|(H1 & q & [<-|H2] & H3)]; [auto|left; right; tauto|right; split; [assumption|eauto]].
Qed.
Lemma selects_nodup : forall la acc ps out, selects la acc ps out -> NoDup acc -> NoDup out.
Proof. induction 1; intros Hn; [assumption|]. apply IHselects. now apply add_new_nodup. Qed.
Lemma selects_grow : forall la acc ps out, selects la acc ps out -> exists t, out = acc ++ t.
Proof.
  induction 1 as [acc|acc p ps sel out Hp Hs (t & ->)]; [exists []; now rewrite app_nil_r|].
  destruct (add_new_grow sel acc) as (t' & ->). exists (t' ++ t). now rewrite <- app_assoc.
Qed.

(** Literal names select themselves. *)
Lemma glob_literal : forall p s, ~ In 42 p -> ~ In 63 p -> (glob p s <-> p = s).
Proof.
  induction p as [|c p IH]; intros s H1 H2.
  - split; [intros H; symmetry; now apply glob_nil_inv|intros <-; constructor].
  - assert (c <> 42 /\ c <> 63) as [A B] by (split; intros ->; [apply H1|apply H2]; now left). split.
    + intros H. apply glob_char_inv in H; auto. destruct H as (r & -> & H). f_equal. apply IH; auto; intros Hi; [apply H1|apply H2]; now right.
    + intros <-. constructor; auto. apply IH; auto; intros Hi; [apply H1|apply H2]; now right.
Qed.
Lemma picks_literal : forall la n sel, literal n -> picks la n sel -> forall x, In x sel <-> x = n /\ In n la.
Proof.
  intros la n sel (L1 & L2 & L3 & L4) Hp x. rewrite (picks_sub _ _ _ Hp), glob_literal by assumption.
  split; [intros (H1 & <- & _); auto|]. intros (-> & H). splits; auto. unfold fits, body. now rewrite L3.
Qed.
Lemma add_new_one : forall acc sel n, NoDup sel -> (forall x, In x sel <-> x = n) -> add_new acc sel = add_new acc [n].
Proof.
  intros acc sel n Hn H. destruct sel as [|a sel]; [exfalso; apply (proj2 (H n) eq_refl)|].
  assert (a = n) by (apply H; now left). subst a. destruct sel as [|b sel]; [reflexivity|].
  assert (b = n) by (apply H; right; now left). subst b. inversion Hn; subst. exfalso. apply H2. now left.
Qed.
Lemma selects_literal : forall la ld acc out, NoDup la -> Forall literal ld -> incl ld la ->
  selects la acc ld out -> out = add_new acc ld.
Proof.
  intros la ld acc out Hnd Hl Hi H. induction H as [acc|acc p ps sel out Hp Hs IH]; [reflexivity|].
  inversion Hl; subst. rewrite IH; [|assumption|intros x Hx; apply Hi; now right].
  rewrite (add_new_one acc sel p).
  - change (p :: ps) with ([p] ++ ps). now rewrite add_new_app.
  - now apply (picks_nodup _ _ _ Hp).
  - intros x. rewrite (picks_literal _ _ _ H1 Hp). split; [tauto|]. intros ->. split; [reflexivity|]. apply Hi. now left.
Qed.

(** Skipping a pattern seen before changes nothing. *)
Fixpoint fresh (seen new : list (list Z)) : list (list Z) :=
  match new with
  | [] => []
  | n :: r => if existsb (beqb n) seen then fresh seen r else n :: fresh (seen ++ [n]) r
  end.
Lemma add_new_fresh : forall new l, add_new l new = l ++ fresh l new.
Proof.
  induction new as [|n new IH]; intros l; cbn; [now rewrite app_nil_r|]. destruct (existsb _ _); [apply IH|].
  rewrite IH. now rewrite <- app_assoc.
Qed.
Lemma selects_fresh : forall la new seen acc out,
  (forall p sel, In p seen -> picks la p sel -> incl sel acc) ->
  (selects la acc (fresh seen new) out <-> selects la acc new out).
Proof.
  induction new as [|n new IH]; intros seen acc out Hs; [reflexivity|]. cbn [fresh].
  destruct (existsb (beqb n) seen) eqn:E.
  - apply existsb_In in E. rewrite IH by assumption. destruct (picks_total la n) as (sel & Hp).
    split; intros H.
    + econstructor; [exact Hp|]. rewrite add_new_incl; [assumption|]. eapply Hs; eauto.
    + apply selects_cons_inv in H. destruct H as (s2 & H2 & H4). rewrite (picks_fun _ _ _ H2 _ Hp) in H4. rewrite add_new_incl in H4; [assumption|]. eapply Hs; eauto.
  - assert (G : forall sel, picks la n sel -> forall p s, In p (seen ++ [n]) -> picks la p s -> incl s (add_new acc sel)).
    { intros sel Hsel p s Hp Hps x Hx. apply add_new_in. apply in_app_or in Hp. destruct Hp as [Hp|[<-|[]]].
      - left. eapply Hs; eauto.
      - right. now rewrite (picks_fun _ _ _ Hsel _ Hps). }
    split; intros H; apply selects_cons_inv in H; destruct H as (s2 & H2 & H4); (econstructor; [eassumption|]); (eapply IH; [|eassumption]); eauto.
Qed.

(** ** kex_assemble_names *)
Lemma asm_patterns_ok : forall l la, wfn la -> la <> [] -> NoDup la -> zlen (join 44 la) <= 1048576 ->
  match asm_patterns l (join 44 la) with
  | inl r => existsb negative (split 44 l) = false /\ exists out, selects la [] (split 44 l) out /\ out <> [] /\ r = join 44 out
  | inr e => e = InvalidArgument /\ (existsb negative (split 44 l) = true \/ selects la [] (split 44 l) [])
  end.
Proof.
  intros l la Hla Hne Hnd Hsz. unfold asm_patterns, COMMA.
  pose proof (asm_scan_ok (split 44 l) la [] Hla Hne Hnd Hsz ltac:(constructor) (split_free 44 l)) as H. cbn [join] in H.
  destruct (existsb negative (split 44 l)) eqn:En; [rewrite H; auto|].
  destruct H as (out & Ho & ->).
  assert (Hwo : wfn out).
  { apply Forall_forall. intros x Hx. rewrite (selects_in _ _ _ _ Ho) in Hx. destruct Hx as [[]|[Hx _]]. unfold wfn in Hla. rewrite Forall_forall in Hla. now apply Hla. }
  destruct out as [|o out]; [cbn [join]; auto|].
  pose proof (join_ne (o :: out) Hwo ltac:(discriminate)) as Hj. destruct (join 44 (o :: out)) eqn:Ej; [congruence|].
  split; [reflexivity|]. exists (o :: out). splits; auto; [discriminate]. 
Qed.

Lemma selects_skip_empty : forall la ps acc out, wfn la ->
  selects la acc (filter (fun p => negb (is_nil p)) ps) out <-> selects la acc ps out.
Proof.
  intros la ps acc out Hla. revert acc. induction ps as [|p ps IH]; intros acc; [reflexivity|]. cbn [filter].
  destruct p as [|c p]; cbn [is_nil negb].
  - rewrite IH. destruct (picks_total la []) as (sel & Hp).
    assert (sel = []) as ->.
    { destruct sel as [|x sel]; [reflexivity|]. exfalso. pose proof (picks_sub _ _ _ Hp x) as Hx. destruct (proj1 Hx ltac:(now left)) as (Hi & Hg & _).
      apply glob_nil_inv in Hg. subst x. unfold wfn in Hla. rewrite Forall_forall in Hla. destruct (Hla [] Hi). congruence. }
    split; intros H; [econstructor; [exact Hp|exact H]|]. apply selects_cons_inv in H. destruct H as (s2 & H2 & H4). now rewrite (picks_fun _ _ _ H2 _ Hp) in H4.
  - split; intros H; apply selects_cons_inv in H; destruct H as (s2 & H2 & H4); (econstructor; [eassumption|]); now apply IH.
Qed.

Lemma filter_scan_deny : forall fs flt acc, wfn fs -> wfn acc ->
  filter_scan fs flt true (join 44 acc) =
  Some (join 44 (acc ++ filter (fun n => negb (mpl_spec n false false (entries flt) =? 1)) fs)).
Proof.
  induction fs as [|n fs IH]; intros flt acc Hfs Hacc; [cbn; now rewrite app_nil_r|].
  inversion Hfs as [|? ? [Hn Hnf] Hfs']; subst. cbn [filter_scan]. rewrite match_pattern_list_entries. cbn [andb orb negb filter].
  destruct (mpl_spec n false false (entries flt) =? 1); cbn [negb orb].
  - rewrite IH by assumption. reflexivity.
  - replace ((if is_nil (join 44 acc) then [] else join 44 acc ++ [COMMA]) ++ n) with (join 44 (acc ++ [n])).
    + rewrite IH; [now rewrite <- app_assoc|assumption|]. apply wfn_app; [assumption|]. constructor; auto.
    + destruct acc as [|a acc]; [reflexivity|]. rewrite join_snoc by discriminate.
      pose proof (join_ne (a :: acc) Hacc ltac:(discriminate)) as Hj. destruct (join 44 (a :: acc)) eqn:Ej; [congruence|].
      cbn [is_nil]. rewrite <- app_assoc. reflexivity.
Qed.
