(** Proofs about the authentication state machine (C29, C30). *)
From Coq Require Import String.
From Verif Require Import Base Text Auth2Model Auth2Spec.

(** ** Strings *)
Lemma strip_spec : forall p l r, strip p l = Some r <-> l = p ++ r.
Proof.
  induction p as [|a p IH]; intros l r; cbn [strip app]; [split; congruence|].
  destruct l as [|b l]; [split; discriminate|]. destruct (Z.eqb_spec a b) as [->|N].
  - rewrite IH. split; congruence.
  - split; [discriminate|congruence].
Qed.
Lemma strip_none : forall p l, strip p l = None -> forall r, l <> p ++ r.
Proof. intros p l H r E. apply (strip_spec p l r) in E. congruence. Qed.
Definition tail_ok (t : list Z) : Prop := t = [] \/ exists t', t = COMMA :: t'.
Lemma prefix_field : forall m f t p, tail_ok t -> free_of COMMA m -> f ++ t = m ++ p -> exists f', f = m ++ f' /\ p = f' ++ t.
Proof.
  induction m as [|a m IH]; intros f t p Ht Hm E; [exists f; cbn [app] in *; auto|].
  destruct f as [|b f].
  - cbn [app] in E. destruct Ht as [-> |(t' & ->)]; [discriminate|]. injection E as E1 E2. exfalso. apply Hm. left. congruence.
  - cbn [app] in E. injection E as -> E. destruct (IH f t p Ht) as (f' & -> & ->); [intros I; apply Hm; now right|exact E|]. exists f'. auto.
Qed.
Lemma cut_free : forall m, free_of COLON m -> cut_colon m = (m, None).
Proof.
  induction m as [|a m IH]; intros H; [reflexivity|]. cbn [cut_colon]. destruct (Z.eqb_spec a COLON) as [->|N]; [exfalso; apply H; now left|].
  rewrite IH; [reflexivity|intros I; apply H; now right].
Qed.
Lemma cut_app : forall m x, free_of COLON m -> cut_colon (m ++ x) = (m ++ fst (cut_colon x), snd (cut_colon x)).
Proof.
  induction m as [|a m IH]; intros x H; [cbn [app]; now destruct (cut_colon x)|]. cbn [app cut_colon]. destruct (Z.eqb_spec a COLON) as [->|N]; [exfalso; apply H; now left|].
  rewrite IH; [reflexivity|intros I; apply H; now right].
Qed.
Lemma cut_prefix : forall f, exists r, f = fst (cut_colon f) ++ r.
Proof.
  induction f as [|a f [r IH]]; [exists []; reflexivity|]. cbn [cut_colon]. destruct (a =? COLON); [now exists (a :: f)|].
  destruct (cut_colon f) as [n s]. cbn [fst app] in *. exists r. congruence.
Qed.
Lemma before_colon_cut : forall f, before_colon f = fst (cut_colon f).
Proof. induction f as [|a f IH]; [reflexivity|]. cbn [before_colon cut_colon]. destruct (a =? COLON); [reflexivity|]. destruct (cut_colon f). cbn [fst] in *. congruence. Qed.

(** ** One step against a list *)
Definition satb (d i : item) : bool :=
  beqb (fst d) (fst i) && match snd i with None => true | Some x => match snd d with Some y => beqb x y | None => false end end.
Lemma satb_iff : forall d i, satb d i = true <-> satisfies d i.
Proof.
  intros [m sm] [n x]. unfold satb, satisfies. cbn [fst snd]. rewrite andb_true_iff, beqb_eq. destruct x as [x|], sm as [y|]; try rewrite beqb_eq; intuition congruence.
Qed.
Definition nocomma (s : option (list Z)) : Prop := match s with Some x => free_of COMMA x | None => True end.
Lemma remove_spec : forall l f fs m sm, split COMMA l = f :: fs -> free_of COMMA m -> free_of COLON m -> nocomma sm ->
  remove_method l m sm = if satb (m, sm) (cut_colon f) then Some (join COMMA fs) else None.
Proof.
  intros l f fs m sm Es Hm Hm' Hs. pose proof (join_split COMMA l) as J. rewrite Es in J.
  pose proof (split_free COMMA l) as F. rewrite Es in F. inversion F as [|? ? Ff _]. subst x l0. clear F.
  assert (T : exists t, l = f ++ t /\ tail_ok t /\ drop_comma t = join COMMA fs).
  { destruct fs as [|g gs]; cbn [join] in J.
    - exists []. rewrite app_nil_r. splits; [auto|now left|reflexivity].
    - exists (COMMA :: join COMMA (g :: gs)). splits; [auto|right; eauto|reflexivity]. }
  destruct T as (t & -> & Tt & Td). clear J Es. unfold remove_method, list_starts_with.
  destruct (strip m (f ++ t)) as [p|] eqn:E.
  - apply strip_spec in E. destruct (prefix_field m f t p Tt Hm E) as (f' & -> & ->). rewrite <- app_assoc.
    unfold satb. rewrite (cut_app m f' Hm'). cbn [fst snd].
    destruct f' as [|x f']; cbn [app].
    + cbn [cut_colon fst snd]. rewrite app_nil_r, beqb_refl. cbn [andb]. destruct t as [|y t]; [rewrite zdrop_app_exact by reflexivity; now rewrite <- Td|].
      destruct Tt as [Tt|(t' & Tt)]; [discriminate|]. injection Tt as -> ->.
      change (COMMA =? COLON) with false. change (COMMA =? COMMA) with true. cbv iota. rewrite zdrop_app_exact by reflexivity. now rewrite <- Td.
    + cbn [cut_colon]. destruct (Z.eqb_spec x COLON) as [->|Nx].
      * cbn [fst snd]. rewrite app_nil_r, beqb_refl. cbn [andb]. destruct sm as [sub|]; [|reflexivity]. cbn [nocomma] in Hs.
        destruct (strip sub (f' ++ t)) as [q|] eqn:Eq.
        -- apply strip_spec in Eq. destruct (prefix_field sub f' t q Tt Hs Eq) as (g & -> & ->). rewrite <- app_assoc.
           assert (D : zdrop (1 + zlen sub) (COLON :: sub ++ g ++ t) = g ++ t).
           { change (COLON :: sub ++ g ++ t) with ((COLON :: sub) ++ (g ++ t)). apply zdrop_app_exact. rewrite zlen_cons. lia. }
           destruct g as [|y g]; cbn [app].
           ++ rewrite app_nil_r, beqb_refl. cbn [app] in D. destruct t as [|y t].
              ** rewrite zdrop_app_exact by reflexivity. rewrite D. now rewrite <- Td.
              ** destruct Tt as [Tt|(t' & Tt)]; [discriminate|]. injection Tt as -> ->. change (COMMA =? COMMA) with true. cbv iota. rewrite zdrop_app_exact by reflexivity. rewrite D. now rewrite <- Td.
           ++ assert (y <> COMMA) by (intros ->; apply Ff; apply in_or_app; right; right; apply in_or_app; right; now left).
              destruct (Z.eqb_spec y COMMA); [contradiction|]. destruct (beqb (sub ++ y :: g) sub) eqn:B; [|reflexivity]. apply beqb_eq in B.
              apply (f_equal (@length Z)) in B. rewrite app_length in B. cbn [length] in B. lia.
        -- destruct (beqb f' sub) eqn:B; [|reflexivity]. apply beqb_eq in B. subst f'. exfalso. exact (strip_none _ _ Eq t eq_refl).
      * assert (x <> COMMA) by (intros ->; apply Ff; apply in_or_app; right; now left).
        destruct (Z.eqb_spec x COMMA) as [|Nc]; [contradiction|]. destruct (cut_colon f') as [n s]. cbn [fst snd].
        destruct (beqb m (m ++ x :: n)) eqn:B; [|reflexivity]. apply beqb_eq in B. apply (f_equal (@length Z)) in B. rewrite app_length in B. cbn [length] in B. lia.
  - unfold satb. cbn [fst snd]. destruct (beqb m (fst (cut_colon f))) eqn:B; [|reflexivity]. apply beqb_eq in B. exfalso.
    destruct (cut_prefix f) as [r R]. rewrite <- B in R. apply (strip_none _ _ E (r ++ t)). rewrite R, <- app_assoc. reflexivity.
Qed.

(** Greedy matching *)
Fixpoint left_of (is ds : list item) : list item :=
  match ds with
  | [] => is
  | d :: ds => match is with [] => [] | i :: is' => if satb d i then left_of is' ds else left_of is ds end
  end.
Lemma left_nil : forall ds, left_of [] ds = [].
Proof. destruct ds; reflexivity. Qed.
Lemma left_app : forall ds is d, left_of is (ds ++ d) = left_of (left_of is ds) d.
Proof.
  induction ds as [|x ds IH]; intros is d; [reflexivity|]. cbn [app left_of]. destruct is as [|i is]; [now rewrite left_nil|]. destruct (satb x i); apply IH.
Qed.
Lemma in_order_tail : forall ds i is, in_order (i :: is) ds -> in_order is ds.
Proof. induction ds as [|d ds IH]; intros i is H; inversion H; subst; apply io_skip; [eapply IH; eassumption|assumption]. Qed.
Lemma in_order_left : forall ds is, in_order is ds <-> left_of is ds = [].
Proof.
  induction ds as [|d ds IH]; intros is; cbn [left_of].
  - split; [intros H; now inversion H|intros ->; constructor].
  - destruct is as [|i is]; [split; [reflexivity|constructor]|]. destruct (satb d i) eqn:S.
    + rewrite <- IH. split; intros H; [inversion H; subst; [eapply in_order_tail; eassumption|assumption]|apply io_take; [now apply satb_iff|assumption]].
    + rewrite <- IH. split; intros H; [inversion H; subst; [assumption|]|now apply io_skip].
      match goal with H : satisfies _ _ |- _ => apply satb_iff in H end. congruence.
Qed.

(** ** The lists of the connection *)
(** What is left of a list, as a string *)
Definition rest (c : list Z) (ds : list item) (l : list Z) : Prop :=
  l <> [] /\ Forall (fun f => f <> []) (split COMMA l) /\ items l = left_of (items c) ds.
Lemma items_join : forall fs, fs <> [] -> Forall (free_of COMMA) fs -> items (join COMMA fs) = map cut_colon fs.
Proof. intros fs N F. unfold items. now rewrite split_join. Qed.
Lemma rest_step : forall c ds l m sm, rest c ds l -> free_of COMMA m -> free_of COLON m -> nocomma sm ->
  match remove_method l m sm with
  | None => rest c (ds ++ [(m, sm)]) l
  | Some l' => (l' = [] /\ left_of (items c) (ds ++ [(m, sm)]) = []) \/ rest c (ds ++ [(m, sm)]) l'
  end.
Proof.
  intros c ds l m sm (N & F & I) Hm Hm' Hs. destruct (split_cons COMMA l) as (f & fs & E). rewrite (remove_spec l f fs m sm E Hm Hm' Hs).
  pose proof (split_free COMMA l) as Fr. rewrite E in F, Fr. inversion F as [|? ? F1 F2]. inversion Fr as [|? ? _ Fr2]. subst. unfold items in I at 1. rewrite E in I. cbn [map] in I.
  destruct (satb (m, sm) (cut_colon f)) eqn:S.
  - assert (L : left_of (items c) (ds ++ [(m, sm)]) = map cut_colon fs) by (rewrite left_app, <- I; cbn [left_of]; now rewrite S).
    destruct fs as [|g gs]; [left; split; [reflexivity|exact L]|right]. split; [|split].
    + inversion F2 as [|? ? Ng _]. subst. cbn [join]. destruct gs; [exact Ng|]. destruct g; [congruence|discriminate].
    + rewrite split_join; [exact F2|discriminate|exact Fr2].
    + rewrite L. apply items_join; [discriminate|exact Fr2].
  - split; [exact N|split; [rewrite E; exact F|]]. rewrite left_app, <- I. cbn [left_of]. rewrite S. unfold items. now rewrite E.
Qed.
Definition tracked (us : list (list Z)) (ds : list item) (ls : list (list Z)) : Prop := Forall2 (fun L l => rest L ds l) us ls.
Definition none_done (us : list (list Z)) (ds : list item) : Prop := forall L, In L us -> left_of (items L) ds <> [].
Lemma tracked_none : forall us ds ls, tracked us ds ls -> none_done us ds.
Proof.
  intros us ds ls H. induction H as [|L l us ls R _ IH]; intros L' I; [destruct I|]. destruct I as [<- |I]; [|now apply IH].
  destruct R as (N & _ & E). rewrite <- E. unfold items. destruct (split_cons COMMA l) as (f & fs & E'). rewrite E'. discriminate.
Qed.
Lemma update_spec : forall us ds ls m sm ls' fd cp, tracked us ds ls -> free_of COMMA m -> free_of COLON m -> nocomma sm ->
  update_lists ls m sm = (ls', fd, cp) ->
  if cp then exists L, In L us /\ left_of (items L) (ds ++ [(m, sm)]) = [] else tracked us (ds ++ [(m, sm)]) ls'.
Proof.
  intros us ds ls m sm ls' fd cp H Hm Hm' Hs. revert ls' fd cp. induction H as [|L l us ls R H IH]; intros ls' fd cp E; cbn [update_lists] in E.
  - injection E as <- <- <-. constructor.
  - pose proof (rest_step _ _ _ m sm R Hm Hm' Hs) as S. destruct (remove_method l m sm) as [l'|].
    + destruct (is_nil l') eqn:En.
      * injection E as <- <- <-. exists L. split; [now left|]. destruct S as [[_ S]|[N _]]; [exact S|]. destruct l'; [congruence|discriminate].
      * destruct S as [[-> _]|S]; [discriminate|]. destruct (update_lists ls m sm) as [[r f] d]. injection E as <- <- <-.
        specialize (IH r f d eq_refl). destruct d; [destruct IH as (L' & I & IH); exists L'; split; [now right|exact IH]|]. now constructor.
    + destruct (update_lists ls m sm) as [[r f] d]. injection E as <- <- <-. specialize (IH r f d eq_refl).
      destruct d; [destruct IH as (L' & I & IH); exists L'; split; [now right|exact IH]|]. now constructor.
Qed.

(** ** Method names *)
Lemma mname_inj : forall a b, mname a = mname b -> a = b.
Proof. destruct a, b; cbn; intros E; try reflexivity; discriminate. Qed.
Lemma mname_clean : forall m, free_of COMMA (mname m) /\ free_of COLON (mname m) /\ mname m <> [].
Proof. intros m. destruct m; vm_compute; (split; [|split]); try discriminate; intros H; repeat (destruct H as [H|H]; [discriminate|]); exact H. Qed.
Lemma byname_in : forall c n m, byname c n = Some m -> In m (table c) /\ (n = mname m \/ msyn m = Some n).
Proof.
  intros c n m H. unfold byname in H. apply find_some in H. destruct H as [I H]. split; [exact I|]. apply orb_prop in H. destruct H as [H|H]; [left; now apply beqb_eq|right].
  destruct (msyn m); [|discriminate]. apply beqb_eq in H. congruence.
Qed.
Lemma byname_name : forall c m, In m (table c) -> byname c (mname m) = Some m.
Proof. intros c m. unfold byname, table. destruct (cf_gss c); cbn [app In]; intros H; repeat (destruct H as [<- |H]; [reflexivity|]); destruct H. Qed.
Lemma valid_usable : forall c l, methods_valid c true true l = true <-> usable c l.
Proof.
  intros c l. unfold methods_valid, usable. rewrite andb_true_iff, forallb_forall. split.
  - intros [N H]. split; [intros ->; discriminate|]. intros n s I. unfold items in I. apply in_map_iff in I. destruct I as (f & E & I). specialize (H f I).
    destruct (find _ _) as [m|] eqn:F; [|discriminate]. apply find_some in F. destruct F as [Im B]. apply beqb_eq in B. rewrite before_colon_cut, E in B. cbn [fst] in B.
    exists m. splits; auto. destruct m; auto.
  - intros [N H]. split; [destruct l; [congruence|reflexivity]|]. intros f I.
    destruct (cut_colon f) as [n s] eqn:E. destruct (H n s) as (m & Im & Em & En); [unfold items; rewrite <- E; now apply in_map|].
    destruct (find _ _) as [m'|] eqn:F.
    + apply find_some in F. destruct F as [_ B]. apply beqb_eq in B. rewrite before_colon_cut, E in B. cbn [fst] in B. assert (m' = m) by (apply mname_inj; congruence). subst m'.
      destruct En as [-> |En]; [reflexivity|]. destruct m; auto.
    + eapply find_none in F; [|exact Im]. cbv beta in F. rewrite before_colon_cut, E, Em in F. cbn [fst] in F. rewrite beqb_refl in F. discriminate.
Qed.
Definition cands (c : cfg) : list (list Z) := filter (methods_valid c true true) (eff_lists c).
Lemma multi_eff : forall c, multi c <-> is_nil (eff_lists c) = false.
Proof.
  intros c. unfold multi, eff_lists. destruct (cf_lists c) as [|l [|l' ls]]; cbn [is_nil]; [intuition congruence| |intuition congruence].
  destruct (beqb l (bs "any")) eqn:B.
  - apply beqb_eq in B. subst l. cbn [is_nil]. intuition congruence.
  - apply beqb_neq in B. cbn [is_nil]. split; [reflexivity|]. intros _. split; congruence.
Qed.
Lemma cands_in : forall c L, multi c -> (In L (cands c) <-> In L (cf_lists c) /\ usable c L).
Proof.
  intros c L M. unfold cands. rewrite filter_In, valid_usable.
  assert (E : eff_lists c = cf_lists c); [|now rewrite E]. apply multi_eff in M. unfold eff_lists in *. destruct (cf_lists c) as [|l [|l' ls]]; auto. destruct (beqb l _); [discriminate|reflexivity].
Qed.
Lemma tracked_init : forall c us, (forall L, In L us -> usable c L) -> tracked us [] us.
Proof.
  intros c us. induction us as [|L us IH]; intros H; constructor.
  - destruct (H L) as [N U]; [now left|]. split; [exact N|split; [|reflexivity]]. apply Forall_forall. intros f I ->.
    destruct (U [] None) as (m & _ & Em & _); [unfold items; change ([], None) with (cut_colon []); now apply in_map|]. now apply (proj2 (proj2 (mname_clean m))).
  - apply IH. intros L' I. apply H. now right.
Qed.

(** ** Results of finishing *)
Definition dones (o : list out) : list item := flat_map done_of o.
Lemma dones_app : forall a b, dones (a ++ b) = dones a ++ dones b.
Proof. intros. apply flat_map_app. Qed.
(** Fields other than the lists, the failures and success *)
Definition same (s s' : st) : Prop :=
  s_attempt s' = s_attempt s /\ s_user s' = s_user s /\ s_service s' = s_service s /\ s_valid s' = s_valid s /\
  s_root s' = s_root s /\ s_srv s' = s_srv s /\ s_kbd s' = s_kbd s /\ s_gss s' = s_gss s /\ s_none s' = s_none s.
Lemma finish_fail_alive : forall c s p pm o s' o', finish_fail c s p pm o = Alive s' o' ->
  same s s' /\ s_success s' = s_success s /\ s_lists s' = s_lists s /\ (exists ms, o' = o ++ [OFailure ms p]) /\ s_failures s' < cf_max c /\
  s_failures s' = s_failures s + (if negb p && negb (s_srv s) && ((1 <? s_attempt s) || negb (beqb pm (bs "none"))) then 1 else 0).
Proof.
  intros c s p pm o s' o' H. unfold finish_fail in H. destruct (negb p && negb (s_srv s) && _).
  - destruct (cf_max c <=? _) eqn:L; [discriminate|]. injection H as <- <-. apply Z.leb_gt in L. cbn [add_failure s_failures] in *. unfold same. cbn. splits; eauto; lia.
  - destruct (cf_max c <=? _) eqn:L; [discriminate|]. injection H as <- <-. apply Z.leb_gt in L. unfold same. splits; eauto; lia.
Qed.
Lemma finish_fail_dead : forall c s p pm o o', finish_fail c s p pm o = Dead o' -> o' = o.
Proof. intros c s p pm o o' H. unfold finish_fail in H. destruct (cf_max c <=? _); [congruence|discriminate]. Qed.

(** Cases of [finish] *)
Inductive finished (c : cfg) (s : st) (auth post force : bool) (pm : list Z) (sub : option (list Z)) : res -> Prop :=
  | fi_bug : auth = true -> finished c s auth post force pm sub (Dead [])
  | fi_post : auth = false -> post = true -> finished c s auth post force pm sub (Alive s [OVerdict Postponed pm sub])
  | fi_fail : forall r, auth = false -> post = false -> finish_fail c s false pm [OVerdict Failed pm sub] = r -> finished c s auth post force pm sub r
  | fi_root : forall m r, auth = true -> post = false -> s_valid s = true -> byname c pm = Some m -> s_root s = true -> root_allowed c force m = false ->
      finish_fail c s false (mname m) [OVerdict Failed (mname m) sub] = r -> finished c s auth post force pm sub r
  | fi_single : forall m, auth = true -> post = false -> s_valid s = true -> byname c pm = Some m -> (s_root s = true -> root_allowed c force m = true) ->
      is_nil (eff_lists c) = true -> finished c s auth post force pm sub (Alive (set_success s) [OVerdict Accepted (mname m) sub; OSuccess])
  | fi_complete : forall m ls, auth = true -> post = false -> s_valid s = true -> byname c pm = Some m -> (s_root s = true -> root_allowed c force m = true) ->
      is_nil (eff_lists c) = false -> (exists fd, update_lists (s_lists s) (mname m) sub = (ls, fd, true)) ->
      finished c s auth post force pm sub (Alive (set_success (set_lists s ls)) [OVerdict Accepted (mname m) sub; OSuccess])
  | fi_partial : forall m ls r, auth = true -> post = false -> s_valid s = true -> byname c pm = Some m -> (s_root s = true -> root_allowed c force m = true) ->
      is_nil (eff_lists c) = false -> update_lists (s_lists s) (mname m) sub = (ls, true, false) ->
      finish_fail c (set_lists s ls) true (mname m) [OVerdict Partial (mname m) sub] = r -> finished c s auth post force pm sub r.
Lemma finish_cases : forall c s auth post force pm sub, finished c s auth post force pm sub (finish c s auth post force pm sub).
Proof.
  intros c s auth post force pm sub. unfold finish. destruct auth.
  - destruct (s_valid s) eqn:V; [|now apply fi_bug]. cbn [negb]. destruct post; [now apply fi_bug|].
    destruct (byname c pm) as [m|] eqn:B; [|now apply fi_bug].
    destruct (s_root s && negb (root_allowed c force m)) eqn:R.
    + apply andb_prop in R. destruct R as [R1 R2]. apply negb_true_iff in R2. eapply fi_root; eauto.
    + assert (R' : s_root s = true -> root_allowed c force m = true) by (intros E; rewrite E in R; cbn [andb] in R; now apply negb_false_iff in R).
      destruct (is_nil (eff_lists c)) eqn:N; [now apply fi_single with (m := m)|].
      destruct (update_lists (s_lists s) (mname m) sub) as [[ls fd] cp] eqn:U. destruct cp; [eapply fi_complete; eauto|].
      destruct fd; cbn [negb]; [|now apply fi_bug]. eapply fi_partial; eauto.
  - destruct post; [now apply fi_post|]. now apply fi_fail.
Qed.

(** ** Cases of a step *)
Definition pre (q : list out) (r : res) : res := match r with Alive s o => Alive s (q ++ o) | Dead o => Dead o end.
Definition kbd_ok (c : cfg) (k : kbd) : Prop := In (k_dev k) (cf_devs c) /\ ((length (cf_devs c) <= 1)%nat -> In 0%nat (k_done k)).
Definition sinv (c : cfg) (s : st) : Prop :=
  (s_attempt s = 0 /\ s = init) \/
  (0 < s_attempt s /\ match s_kbd s with Some k => kbd_ok c k /\ s_srv s = false | None => True end).
Lemma sinv_init : forall c, sinv c init.
Proof. left. split; reflexivity. Qed.

Lemma scan_spec : forall allow tok devs i done cur done' d, scan_devs allow tok devs i done cur = (done', Some d) ->
  (cur = Some d \/ In d devs) /\ (forall j, In j done -> In j done').
Proof.
  intros allow tok. induction devs as [|x devs IH]; intros i done cur done' d H; cbn [scan_devs] in H; [injection H as <- ->; split; auto|].
  destruct (existsb (Nat.eqb i) done || negb (allow x)); [destruct (IH _ _ _ _ _ H) as [[A|A] B]; split; auto; right; now right|].
  destruct (strip tok x).
  - destruct (IH _ _ _ _ _ H) as [[A|A] B]; (split; [|intros j J; apply B; now right]); [injection A as ->; right; now left|right; now right].
  - destruct (IH _ _ _ _ _ H) as [[A|A] B]; split; auto. right. now right.
Qed.
Lemma next_ok : forall c allow toks done k, next_device allow (cf_devs c) toks done = Some k -> kbd_ok c k.
Proof.
  intros c allow. induction toks as [|tok toks IH]; intros done k H; cbn [next_device] in H; [discriminate|]. destruct (is_nil tok); [discriminate|].
  destruct (scan_devs allow tok (cf_devs c) 0 done None) as [done' [d|]] eqn:E; [|now apply IH in H]. injection H as <-. split; cbn [k_dev k_done].
  - destruct (scan_spec _ _ _ _ _ _ _ _ E) as [[A|A] _]; [discriminate|exact A].
  - intros L. destruct (cf_devs c) as [|x [|y devs]]; cbn [length] in L; [discriminate| |lia]. cbn [scan_devs] in E.
    destruct (existsb (Nat.eqb 0) done || negb (allow x)); [congruence|]. destruct (strip tok x); [|congruence]. injection E as <- _. now left.
Qed.
Lemma next_none : forall c allow toks done, (length (cf_devs c) <= 1)%nat -> In 0%nat done -> next_device allow (cf_devs c) toks done = None.
Proof.
  intros c allow toks done L I. induction toks as [|tok toks IH]; cbn [next_device]; [reflexivity|]. destruct (is_nil tok); [reflexivity|].
  assert (E : scan_devs allow tok (cf_devs c) 0 done None = (done, None)).
  { destruct (cf_devs c) as [|x [|y devs]]; cbn [length] in L; [reflexivity| |lia]. cbn [scan_devs].
    assert (X : existsb (Nat.eqb 0) done = true) by (apply existsb_exists; exists 0%nat; auto). rewrite X. reflexivity. }
  rewrite E. exact IH.
Qed.
Lemma start_ok : forall c s toks done ok k, challenge_start c s toks done ok = Some k -> kbd_ok c k.
Proof. intros c s toks done ok k H. unfold challenge_start in H. destruct (next_device _ _ _ _) as [k'|] eqn:E; [|discriminate]. destruct ok; [|discriminate]. injection H as ->. eapply next_ok; eassumption. Qed.

Definition is_req (e : ev) : Prop := match e with EReq _ _ _ _ _ => True | _ => False end.
Definition entry (c : cfg) (pw : option bool) (v : list Z) (s1 : st) : Prop :=
  s_valid s1 = (match pw with Some _ => beqb v (bs "ssh-connection") | None => false end) /\
  s_root s1 = (s_valid s1 && match pw with Some b => b | None => false end) /\
  setup_methods_lists c true = Some (s_lists s1).
Definition carried (s s1 : st) : Prop :=
  s_user s1 = s_user s /\ s_service s1 = s_service s /\ s_valid s1 = s_valid s /\ s_root s1 = s_root s /\ s_lists s1 = s_lists s.
(** The state just before userauth_finish, and what it was called with *)
Definition prepared (c : cfg) (s : st) (e : ev) (s1 : st) (auth post force : bool) (pm : list Z) (sub : option (list Z)) : Prop :=
  s_failures s1 = s_failures s /\ s_success s1 = false /\ 0 < s_attempt s1 /\
  (sub = None \/ exists d, In d (cf_devs c) /\ sub = Some d) /\ sinv c s1 /\
  match e with
  | EReq u v n pw a =>
      pm = n /\ sub = None /\ force = r_force a /\ s_attempt s1 = s_attempt s + 1 /\ s_attempt s < 1024 /\
      (s_srv s1 = true -> r_srv a = true /\ n = mname mGss) /\
      (auth = true -> exists k, byname c n = Some k /\ passed c e (mname k) None) /\
      (post = true -> refused e = false) /\ (auth = true -> post = true -> False) /\ (auth = true -> refused e = false) /\
      s_user s1 = before_colon u /\ s_service s1 = v /\ (s_kbd s1 <> None -> n <> mname mGss) /\
      (if s_attempt s =? 0 then s = init /\ entry c pw v s1 else carried s s1)
  | _ =>
      s_attempt s1 = s_attempt s /\ s_srv s1 = s_srv s /\ carried s s1 /\
      (auth = true -> passed c e pm sub /\ refused e = false) /\ (pm <> bs "none") /\
      (refused e = true -> (length (cf_devs c) <= 1)%nat -> auth = false /\ post = false /\ s_srv s1 = false) /\
      (s_kbd s1 <> None -> s_kbd s <> None) /\ (refused e = true -> s_kbd s <> None) /\
      (match e with EInfo _ _ _ f | EGssTok _ f | EGssMic _ f | EGssCompl _ f => force = f | _ => True end)
  end.
Inductive stepped (c : cfg) (s : st) (e : ev) : res -> Prop :=
  | sp_quiet : forall s1, ~ is_req e -> carried s s1 -> s_attempt s1 = s_attempt s -> s_failures s1 = s_failures s -> s_srv s1 = s_srv s ->
      s_success s1 = false -> sinv c s1 -> s_kbd s1 = s_kbd s -> refused e = false \/ s_kbd s = None -> stepped c s e (Alive s1 [])
  | sp_dead : is_req e -> stepped c s e (Dead [])
  | sp_fin : forall s1 auth post force pm sub q, prepared c s e s1 auth post force pm sub -> (forall x, In x q -> x = OInfoReq) ->
      stepped c s e (pre q (finish c s1 auth post force pm sub)).

Lemma lookup_in : forall c s n m, lookup c s n = Some m -> byname c n = Some m /\ enabled c (s_none s) m = true.
Proof. intros c s n m H. unfold lookup in H. destruct (byname c n) as [k|]; [|discriminate]. destruct (enabled c (s_none s) k) eqn:E; [|discriminate]. destruct (method_allowed _ _ _ _); [|discriminate]. cbn [andb] in H. injection H as ->. auto. Qed.

(** The handlers leave most of the state alone *)
Lemma userauth_spec : forall c s m a s1 auth post u v n pw, userauth c s m a = (s1, auth, post) -> byname c n = Some m -> enabled c (s_none s) m = true ->
  s_kbd s = None -> s_srv s = false ->
  carried s s1 /\ s_attempt s1 = s_attempt s /\ s_failures s1 = s_failures s /\ s_success s1 = s_success s /\
  (s_srv s1 = true -> r_srv a = true /\ n = mname mGss) /\
  (match s_kbd s1 with Some k => kbd_ok c k /\ s_srv s1 = false | None => True end) /\
  (auth = true -> passed c (EReq u v n pw a) (mname m) None) /\ (auth = true -> post = true -> False) /\
  (post = true -> refused (EReq u v n pw a) = false) /\ (auth = true -> refused (EReq u v n pw a) = false) /\ (s_kbd s1 <> None -> n <> mname mGss).
Proof.
  intros c s m a s1 auth post u v n pw H B En K Sr. destruct (byname_in c n m B) as [It Nm].
  assert (Pa : forall k, k <> mKbd -> k <> mGss -> m = k -> (k = mNone -> cf_empty c = true /\ cf_en c mPasswd = true) -> r_auth a = true -> passed c (EReq u v n pw a) (mname m) None).
  { intros k N1 N2 -> N3 Ha. cbn [passed]. split; [reflexivity|split; [exact Ha|]]. exists k. split; [reflexivity|split; [exact Nm|split; [exact N1|split; [exact N2|split; [exact N3|]]]]]. intros N4. destruct k; try exact En. congruence. }
  assert (Ra : r_auth a = true -> refused (EReq u v n pw a) = false) by (intros E; cbn [refused]; rewrite E; cbn [negb]; now rewrite !andb_false_r).
  unfold carried. destruct m; cbn [userauth] in H.
  - injection H as <- <- <-. cbn. rewrite K, Sr. splits; auto; try congruence.
    + intros E. apply andb_prop in E. destruct E as [E E2]. apply andb_prop in E. destruct E as [E0 E1]. apply (Pa mNone); auto; discriminate.
    + intros E. apply andb_prop in E. destruct E as [_ E]. now apply Ra.
  - destruct (r_post a) eqn:P; injection H as <- <- <-; cbn; rewrite K, Sr; splits; auto; try congruence.
    + intros _. destruct Nm as [-> |Nm]; [|injection Nm as <-]; cbn; now rewrite P, !andb_false_r.
    + intros E. apply (Pa mPubkey); auto; discriminate.
  - assert (Rg : refused (EReq u v n pw a) = false) by (destruct Nm as [-> |Nm]; [reflexivity|discriminate]).
    assert (Ng : n = mname mGss) by (destruct Nm as [Nm|Nm]; [exact Nm|discriminate]).
    destruct (r_srv a) eqn:P; [injection H as <- <- <-; cbn; rewrite K; splits; auto; congruence|].
    destruct (negb (s_valid s) || negb (r_post a)); injection H as <- <- <-; cbn; rewrite K, Sr; splits; auto; congruence.
  - injection H as <- <- <-. rewrite K, Sr. splits; auto; try congruence. intros E. apply (Pa mPasswd); auto; discriminate.
  - assert (Rg : refused (EReq u v n pw a) = false) by (destruct Nm as [-> |Nm]; [reflexivity|discriminate]).
    assert (Nk : n = mname mKbd) by (destruct Nm as [Nm|Nm]; [exact Nm|discriminate]).
    destruct (if cf_en c mKbd then _ else None) as [k|] eqn:E; injection H as <- <- <-; cbn; rewrite ?K, Sr; splits; auto; try congruence; try (rewrite Nk; discriminate).
    destruct (cf_en c mKbd); [|discriminate]. eapply start_ok; eassumption.
  - injection H as <- <- <-. rewrite K, Sr. splits; auto; try congruence. intros E. apply (Pa mHost); auto; discriminate.
Qed.

Lemma do_request_spec : forall c s0 s u v n pw a, 0 < s_attempt s -> s_success s = false -> s_failures s = s_failures s0 -> s_attempt s = s_attempt s0 + 1 -> s_attempt s0 < 1024 ->
  s_user s = before_colon u -> s_service s = v -> (if s_attempt s0 =? 0 then s0 = init /\ entry c pw v s else carried s0 s) ->
  stepped c s0 (EReq u v n pw a) (do_request c s n a).
Proof.
  intros c s0 s u v n pw a Ha Hs Hf Hat Hlt Hu Hv He. unfold do_request.
  set (s1 := set_srv _ false).
  assert (I1 : s_kbd s1 = None /\ s_srv s1 = false /\ s_success s1 = false /\ s_failures s1 = s_failures s0 /\ s_attempt s1 = s_attempt s /\ carried s s1) by (unfold carried; cbn; auto 10).
  clearbody s1. destruct I1 as (K1 & R1 & S1 & F1 & A1 & C1).
  set (t := match lookup c s1 n with Some m => _ | None => _ end).
  assert (T : exists s2 auth post, t = (s2, auth, post) /\ prepared c s0 (EReq u v n pw a) s2 auth post (r_force a) n None).
  { assert (Q : forall s2, carried s1 s2 -> (if s_attempt s0 =? 0 then s0 = init /\ entry c pw v s2 else carried s0 s2) /\ s_user s2 = before_colon u /\ s_service s2 = v).
    { intros s2 (A & B & D & E & G). destruct C1 as (A' & B' & D' & E' & G'). split; [|split; congruence].
      destruct (s_attempt s0 =? 0); [destruct He as (He0 & X & Y & Z0); split; [exact He0|]; unfold entry; splits; congruence|].
      destruct He as (X & Y & Z0 & W & V). unfold carried. splits; congruence. }
    assert (Nil : prepared c s0 (EReq u v n pw a) s1 false false (r_force a) n None).
    { destruct (Q s1) as (Q1 & Q2 & Q3); [unfold carried; auto 10|]. unfold prepared. splits; auto; try congruence; try lia.
      right. split; [lia|]. now rewrite K1. }
    unfold t. destruct (lookup c s1 n) as [m|] eqn:L; [|now exists s1, false, false]. destruct (lookup_in _ _ _ _ L) as [B En].
    destruct (s_failures s1 <? cf_max c); [|now exists s1, false, false].
    destruct (userauth c s1 m a) as [[s2 auth] post] eqn:U. exists s2, auth, post. split; [reflexivity|].
    destruct (userauth_spec c s1 m a s2 auth post u v n pw U B En K1 R1) as (H1 & H2 & H3 & H4 & H5 & H6 & H7 & H8 & H9 & H10 & H11).
    destruct (Q s2 H1) as (Q1 & Q2 & Q3). unfold prepared. splits; auto; try congruence; try lia.
    - right. split; [lia|]. exact H6.
    - intros E. exists m. split; [exact B|now apply H7]. }
  destruct T as (s2 & auth & post & -> & P).
  pose proof (finish_cases c s2 auth post (r_force a) n None) as FC.
  destruct (finish c s2 auth post (r_force a) n None) as [s3 o|o] eqn:F.
  - match goal with |- stepped _ _ _ (Alive s3 (?q ++ o)) => change (Alive s3 (q ++ o)) with (pre q (Alive s3 o)) end. rewrite <- F. apply sp_fin with (1 := P).
    destruct (s_kbd s3); [intros x [<- |[]]; reflexivity|intros x []].
  - change (Dead o) with (pre [] (Dead o)). rewrite <- F. apply sp_fin with (1 := P). intros x [].
Qed.
Lemma step_cases : forall c s e, sinv c s -> s_success s = false -> stepped c s e (step c s e).
Proof.
  intros c s e I Hs. unfold step. rewrite Hs.
  assert (Quiet : ~ is_req e -> refused e = false \/ s_kbd s = None -> stepped c s e (Alive s [])) by (intros N R; apply sp_quiet; unfold carried; auto 10).
  assert (G : forall g, ~ is_req e -> refused e = false -> 0 < s_attempt s -> stepped c s e (Alive (set_gss s g) [])).
  { intros g N R A. apply sp_quiet; auto; [unfold carried; cbn; auto 10|]. right. cbn. split; [exact A|]. destruct I as [[I _]|[_ I]]; [lia|exact I]. }
  assert (Z0 : 0 < s_attempt s \/ s = init) by (destruct I as [[_ I]|[I _]]; auto).
  assert (Fin : forall g auth force, 0 < s_attempt s -> (auth = true -> passed c e GSSNAME None) -> ~ is_req e -> refused e = false ->
     (match e with EInfo _ _ _ f | EGssTok _ f | EGssMic _ f | EGssCompl _ f => force = f | _ => True end) ->
     stepped c s e (finish c (set_gss s g) auth false force GSSNAME None)).
  { intros g auth force A P N R Fo. assert (PR : prepared c s e (set_gss s g) auth false force GSSNAME None).
    { unfold prepared. cbn [set_gss s_failures s_success s_attempt s_srv]. splits; auto.
      - right. cbn. split; [exact A|]. destruct I as [[I _]|[_ I]]; [lia|exact I].
      - destruct e; try (exfalso; apply N; exact Logic.I); unfold carried; cbn [s_user s_service s_valid s_root s_lists set_gss]; splits; auto; try discriminate; congruence. }
    destruct (finish c (set_gss s g) auth false force GSSNAME None) as [s3 o|o] eqn:F.
    - change (Alive s3 o) with (pre [] (Alive s3 o)). rewrite <- F. apply sp_fin with (1 := PR). intros x [].
    - change (Dead o) with (pre [] (Dead o)). rewrite <- F. apply sp_fin with (1 := PR). intros x []. }
  destruct e as [u v n pw a|r again next force|t force| |ok force|ok force].
  - unfold request. destruct (1024 <=? s_attempt s) eqn:L; [apply sp_dead; exact Logic.I|]. apply Z.leb_gt in L. cbv zeta.
    destruct (s_attempt s =? 0) eqn:A0.
    + apply Z.eqb_eq in A0. assert (s = init) by (destruct Z0; [lia|auto]). subst s. change (s_none (add_attempt init)) with true.
      destruct (setup_methods_lists c true) as [ls|] eqn:Es; [|apply sp_dead; exact Logic.I].
      apply do_request_spec; auto; try reflexivity; try (cbn; lia). split; [reflexivity|]. unfold entry. cbn. auto.
    + apply Z.eqb_neq in A0. destruct (beqb (before_colon u) (s_user (add_attempt s))) eqn:B1; [|apply sp_dead; exact Logic.I].
      destruct (beqb v (s_service (add_attempt s))) eqn:B2; [|apply sp_dead; exact Logic.I]. cbn [negb orb].
      apply beqb_eq in B1, B2. assert (0 < s_attempt s) by (destruct Z0 as [|E]; [auto|rewrite E in A0; cbn in A0; congruence]).
      apply do_request_spec; auto; try (cbn; lia); try (cbn in *; congruence). destruct (Z.eqb_spec (s_attempt s) 0); [lia|]. unfold carried. cbn. auto 10.
  - unfold info_response. destruct (s_kbd s) as [k|] eqn:K; [|apply Quiet; [intros []|auto]].
    destruct I as [[_ I]|[A I]]; [subst s; discriminate|]. rewrite K in I. destruct I as [Ik Isr]. destruct Ik as [Id Il].
    set (auth := match r with RespOk => s_valid s | _ => false end). set (more := match r with RespMore => again | _ => false end).
    set (k' := if more then Some k else _). cbv zeta. set (post := match k' with Some _ => true | None => false end).
    assert (PR : prepared c s (EInfo r again next force) (set_kbd s k') auth post force (bs "keyboard-interactive") (Some (k_dev k))).
    { unfold prepared. cbn [set_kbd s_failures s_success s_attempt s_srv]. splits; auto; try discriminate; try (intros _; rewrite K; discriminate).
      - right. eauto.
      - right. cbn. split; [exact A|]. destruct k' as [x|] eqn:Ek; [|exact Logic.I]. split; [|exact Isr]. unfold k' in Ek. destruct more; [injection Ek as <-; split; assumption|]. destruct auth; [discriminate|]. eapply start_ok; eassumption.
      - unfold carried. cbn. auto 10.
      - intros E. unfold auth in E. destruct r; try discriminate. split; [|reflexivity]. cbn [passed]. split; [reflexivity|eauto].
      - intros E L. destruct r; try discriminate. split; [reflexivity|split; [|exact Isr]]. unfold post, k', more, auth. unfold challenge_start. rewrite next_none; auto. }
    destruct (finish c (set_kbd s k') auth post force (bs "keyboard-interactive") (Some (k_dev k))) as [s3 o|o] eqn:F.
    + match goal with |- stepped _ _ _ (Alive s3 (?q ++ o)) => change (Alive s3 (q ++ o)) with (pre q (Alive s3 o)) end. rewrite <- F. apply sp_fin with (1 := PR).
      destruct post; [intros x [<- |[]]; reflexivity|intros x []].
    + change (Dead o) with (pre [] (Dead o)). rewrite <- F. apply sp_fin with (1 := PR). intros x [].
  - unfold gss_token. destruct (g_tok (s_gss s)) eqn:E; [|apply Quiet; [intros []|auto]]. assert (0 < s_attempt s) by (destruct Z0 as [|Zi]; [auto|rewrite Zi in E; discriminate]).
    destruct t; [apply Fin; auto; discriminate|apply Quiet; [intros []|auto]|apply G; auto; intros []].
  - unfold gss_errtok. destruct (g_err (s_gss s)) eqn:E; [|apply Quiet; [intros []|auto]]. assert (0 < s_attempt s) by (destruct Z0 as [|Zi]; [auto|rewrite Zi in E; discriminate]). apply G; auto; intros [].
  - unfold gss_finish. destruct (g_mic (s_gss s)) eqn:E; [|apply Quiet; [intros []|auto]]. assert (0 < s_attempt s) by (destruct Z0 as [|Zi]; [auto|rewrite Zi in E; discriminate]).
    apply Fin; auto. intros ->. split; reflexivity.
  - unfold gss_finish. destruct (g_compl (s_gss s)) eqn:E; [|apply Quiet; [intros []|auto]]. assert (0 < s_attempt s) by (destruct Z0 as [|Zi]; [auto|rewrite Zi in E; discriminate]).
    apply Fin; auto. intros ->. split; reflexivity.
Qed.

(** ** Running *)
Lemma sinv_same : forall c s s', same s s' -> 0 < s_attempt s -> sinv c s -> sinv c s'.
Proof.
  intros c s s' (A & _ & _ & _ & _ & R & K & _ & _) P [[I _]|[_ I]]; [lia|]. right. rewrite A, K, R. auto.
Qed.
Lemma quiet_pre : forall q, (forall x, In x q -> x = OInfoReq) -> dones q = [] /\ ~ In OSuccess q /\ failed q = 0.
Proof.
  induction q as [|x q IH]; intros H; [splits; auto; intros []|]. assert (x = OInfoReq) by (apply H; now left). subst x.
  destruct IH as (A & B & C); [intros x I; apply H; now right|]. splits; [exact A|intros [E|I]; [discriminate|now apply B]|exact C].
Qed.
Lemma failed_app : forall a b, failed (a ++ b) = failed a + failed b.
Proof. intros a b. unfold failed. rewrite filter_app, zlen_app. reflexivity. Qed.
Lemma run_done : forall c es s, s_success s = true -> exists tr, run c s es = (tr, Some s) /\ Forall (fun p => snd p = []) tr.
Proof.
  intros c es. induction es as [|e es IH]; intros s H; cbn [run]; [exists []; auto|]. unfold step. rewrite H.
  destruct (IH s H) as (tr & -> & F). exists ((e, []) :: tr). auto.
Qed.
Lemma quiet_completed : forall tr, Forall (fun p : ev * list out => snd p = []) tr -> completed tr = [] /\ ~ got_success tr.
Proof.
  intros tr H. induction H as [|[e o] tr E _ [IH1 IH2]]; [split; [reflexivity|intros (? & ? & [] & _)]|]. cbn [snd] in E. subst o. split; [exact IH1|].
  intros (e' & o & [I|I] & S); [injection I as <- <-; destruct S|]. apply IH2. exists e', o. auto.
Qed.

Definition mstate (c : cfg) (s : st) (ds : list item) : Prop :=
  (s_attempt s = 0 /\ ds = []) \/ (0 < s_attempt s /\ tracked (cands c) ds (s_lists s)).
Lemma cands_usable : forall c L, In L (cands c) -> usable c L.
Proof. intros c L H. unfold cands in H. apply filter_In in H. now apply valid_usable. Qed.
Lemma mstate_none : forall c s ds, mstate c s ds -> none_done (cands c) ds.
Proof. intros c s ds [[_ ->]|[_ H]]; [|eapply tracked_none; eassumption]. apply tracked_none with (cands c). apply tracked_init with c. apply cands_usable. Qed.
Lemma in_devs_nocomma : forall c sub, Forall (free_of COMMA) (cf_devs c) -> (sub = None \/ exists d, In d (cf_devs c) /\ sub = Some d) -> nocomma sub.
Proof. intros c sub F [-> |(d & I & ->)]; [exact Logic.I|]. cbn. rewrite Forall_forall in F. now apply F. Qed.
Lemma setup_cands : forall c ls, is_nil (eff_lists c) = false -> setup_methods_lists c true = Some ls -> ls = cands c.
Proof. intros c ls N H. unfold setup_methods_lists in H. rewrite N in H. fold (cands c) in H. destruct (is_nil (cands c)); congruence. Qed.

Lemma prepared_lists : forall c s e s1 auth post force pm sub ds, is_nil (eff_lists c) = false -> prepared c s e s1 auth post force pm sub -> mstate c s ds ->
  tracked (cands c) ds (s_lists s1).
Proof.
  intros c s e s1 auth post force pm sub ds N (_ & _ & A & _ & _ & P) M.
  assert (Q : carried s s1 -> s_attempt s <> 0 -> tracked (cands c) ds (s_lists s1)).
  { intros (_ & _ & _ & _ & L) A0. rewrite L. destruct M as [[M _]|[_ M]]; [contradiction|exact M]. }
  destruct e; try (destruct P as (P1 & _ & P2 & _); apply Q; [exact P2|rewrite <- P1; lia]).
  destruct P as (_ & _ & _ & P1 & _ & _ & _ & _ & _ & _ & _ & _ & _ & P2). destruct (Z.eqb_spec (s_attempt s) 0) as [E|E]; [|now apply Q].
  destruct P2 as (_ & _ & _ & P2). apply setup_cands in P2; [|exact N]. rewrite P2. destruct M as [[_ ->]|[M _]]; [|lia]. apply tracked_init with c. apply cands_usable.
Qed.

Lemma step_multi : forall c s e ds, is_nil (eff_lists c) = false -> Forall (free_of COMMA) (cf_devs c) -> sinv c s -> s_success s = false -> mstate c s ds ->
  match step c s e with
  | Alive s' o =>
      (In OSuccess o /\ s_success s' = true /\ exists L, In L (cands c) /\ left_of (items L) (ds ++ dones o) = []) \/
      (~ In OSuccess o /\ s_success s' = false /\ sinv c s' /\ mstate c s' (ds ++ dones o))
  | Dead o => ~ In OSuccess o /\ none_done (cands c) (ds ++ dones o)
  end.
Proof.
  intros c s e ds N Dv I Hs M. destruct (step_cases c s e I Hs) as [s1 Nr Ca At Fa Sr Su Si|Rq|s1 auth post force pm sub q P Q].
  - right. cbn [dones flat_map]. rewrite app_nil_r. splits; auto. destruct M as [[M1 M2]|[M1 M2]]; [left|right]; rewrite At; split; auto. destruct Ca as (_ & _ & _ & _ & ->). exact M2.
  - split; [intros []|]. cbn [dones flat_map]. rewrite app_nil_r. eapply mstate_none; eassumption.
  - pose proof (prepared_lists _ _ _ _ _ _ _ _ _ _ N P M) as T. destruct P as (P1 & P2 & P3 & P4 & P5 & P6). clear P6.
    destruct (quiet_pre q Q) as (Q1 & Q2 & _). assert (X : forall o, dones (q ++ o) = dones o) by (intros o; now rewrite dones_app, Q1).
    assert (Y : forall o, In OSuccess (q ++ o) <-> In OSuccess o) by (intros o; rewrite in_app_iff; intuition).
    pose proof (in_devs_nocomma c sub Dv P4) as Ns.
    assert (FF : forall s2 p pm' o, same s1 s2 -> s_success s2 = false -> tracked (cands c) (ds ++ dones o) (s_lists s2) -> ~ In OSuccess o ->
       match pre q (finish_fail c s2 p pm' o) with
       | Alive s' o => (In OSuccess o /\ s_success s' = true /\ exists L, In L (cands c) /\ left_of (items L) (ds ++ dones o) = []) \/
          (~ In OSuccess o /\ s_success s' = false /\ sinv c s' /\ mstate c s' (ds ++ dones o))
       | Dead o => ~ In OSuccess o /\ none_done (cands c) (ds ++ dones o)
       end).
    { intros s2 p pm' o Sm Su Tr No. destruct (finish_fail c s2 p pm' o) as [s3 o3|o3] eqn:F; cbn [pre].
      - right. apply finish_fail_alive in F. destruct F as (S3 & U3 & L3 & (ms & ->) & _). rewrite Y, X, dones_app. cbn [dones flat_map done_of app]. fold (dones o). rewrite app_nil_r.
        splits; [rewrite in_app_iff; intros [|[|[]]]; [contradiction|discriminate]|congruence|..].
        + apply (sinv_same c s2 s3 S3); [destruct Sm as (Sm & _); lia|]. apply (sinv_same c s1 s2 Sm P3 P5).
        + right. rewrite L3. split; [destruct S3 as (S3 & _); destruct Sm as (Sm & _); lia|exact Tr].
      - apply finish_fail_dead in F. subst o3. split; [exact No|eapply tracked_none; eassumption]. }
    assert (S11 : same s1 s1) by (unfold same; auto 12).
    destruct (finish_cases c s1 auth post force pm sub) as [|Ea Ep|r Ea Ep Er|m r Ea Ep V B R1 R2 Er|m Ea Ep V B R Nn|m ls Ea Ep V B R Nn (fd & U)|m ls r Ea Ep V B R Nn U Er].
    + cbn [pre]. split; [intros []|]. cbn [dones flat_map]. rewrite app_nil_r. eapply tracked_none; eassumption.
    + cbn [pre]. right. rewrite Y, X. cbn [dones flat_map done_of app]. rewrite app_nil_r. splits; auto; [intros [|[]]; discriminate|]. right. auto.
    + rewrite <- Er. apply FF; auto; [cbn [dones flat_map done_of app]; now rewrite app_nil_r|intros [|[]]; discriminate].
    + rewrite <- Er. apply FF; auto; [cbn [dones flat_map done_of app]; now rewrite app_nil_r|intros [|[]]; discriminate].
    + congruence.
    + cbn [pre]. left. rewrite Y, X. splits; [right; now left|reflexivity|].
      destruct (mname_clean m) as (C1 & C2 & _). exact (update_spec _ _ _ _ _ _ _ _ T C1 C2 Ns U).
    + rewrite <- Er. destruct (mname_clean m) as (C1 & C2 & _). pose proof (update_spec _ _ _ _ _ _ _ _ T C1 C2 Ns U) as T'. cbv iota in T'.
      apply FF; auto. intros [|[]]; discriminate.
Qed.

Lemma run_multi : forall c es s ds, is_nil (eff_lists c) = false -> Forall (free_of COMMA) (cf_devs c) -> sinv c s -> s_success s = false -> mstate c s ds ->
  forall tr f, run c s es = (tr, f) -> (got_success tr <-> exists L, In L (cands c) /\ left_of (items L) (ds ++ completed tr) = []).
Proof.
  intros c es. induction es as [|e es IH]; intros s ds N Dv I Hs M tr f H; cbn [run] in H.
  - injection H as <- <-. split; [intros (? & ? & [] & _)|]. intros (L & IL & E). cbn [completed flat_map] in E. rewrite app_nil_r in E. exfalso. exact (mstate_none c s ds M L IL E).
  - pose proof (step_multi c s e ds N Dv I Hs M) as S. destruct (step c s e) as [s' o|o].
    + destruct (run c s' es) as [tr' f'] eqn:R. injection H as <- <-. cbn [completed flat_map snd]. fold (dones o). fold (completed tr'). destruct S as [(S1 & S2 & L & IL & S3)|(S1 & S2 & S3 & S4)].
      * destruct (run_done c es s' S2) as (tr2 & R2 & F2). rewrite R in R2. injection R2 as -> _. destruct (quiet_completed tr2 F2) as [Q _]. rewrite Q, app_nil_r.
        split; [intros _; eauto|intros _]. exists e, o. split; [now left|exact S1].
      * rewrite app_assoc, <- (IH s' (ds ++ dones o) N Dv S3 S2 S4 tr' f' R). split.
        -- intros (e' & o' & [E|E] & G); [injection E as <- <-; contradiction|]. exists e', o'. auto.
        -- intros (e' & o' & E & G). exists e', o'. split; [now right|exact G].
    + injection H as <- <-. destruct S as [S1 S2]. cbn [completed flat_map snd]. fold (dones o). rewrite app_nil_r. split.
      * intros (e' & o' & [E|[]] & G). injection E as <- <-. contradiction.
      * intros (L & IL & E). exfalso. exact (S2 L IL E).
Qed.

(** Without lists *)
Lemma step_single : forall c s e, is_nil (eff_lists c) = true -> sinv c s -> s_success s = false ->
  match step c s e with
  | Alive s' o => (In OSuccess o /\ s_success s' = true /\ dones o <> []) \/ (~ In OSuccess o /\ s_success s' = false /\ sinv c s' /\ dones o = [])
  | Dead o => ~ In OSuccess o /\ dones o = []
  end.
Proof.
  intros c s e N I Hs. destruct (step_cases c s e I Hs) as [s1 Nr Ca At Fa Sr Su Si|Rq|s1 auth post force pm sub q P Q].
  - right. auto.
  - split; [intros []|reflexivity].
  - destruct P as (P1 & P2 & P3 & P4 & P5 & P6). clear P6.
    destruct (quiet_pre q Q) as (Q1 & Q2 & _). assert (X : forall o, dones (q ++ o) = dones o) by (intros o; now rewrite dones_app, Q1).
    assert (Y : forall o, In OSuccess (q ++ o) <-> In OSuccess o) by (intros o; rewrite in_app_iff; intuition).
    assert (FF : forall p pm' o, dones o = [] -> ~ In OSuccess o ->
       match pre q (finish_fail c s1 p pm' o) with
       | Alive s' o => (In OSuccess o /\ s_success s' = true /\ dones o <> []) \/ (~ In OSuccess o /\ s_success s' = false /\ sinv c s' /\ dones o = [])
       | Dead o => ~ In OSuccess o /\ dones o = []
       end).
    { intros p pm' o Do No. destruct (finish_fail c s1 p pm' o) as [s3 o3|o3] eqn:F; cbn [pre].
      - right. apply finish_fail_alive in F. destruct F as (S3 & U3 & L3 & (ms & ->) & _). rewrite Y, X, dones_app, Do.
        splits; [rewrite in_app_iff; intros [|[|[]]]; [contradiction|discriminate]|congruence|now apply (sinv_same c s1 s3 S3)|reflexivity].
      - apply finish_fail_dead in F. subst o3. auto. }
    destruct (finish_cases c s1 auth post force pm sub) as [|Ea Ep|r Ea Ep Er|m r Ea Ep V B R1 R2 Er|m Ea Ep V B R Nn|m ls Ea Ep V B R Nn U|m ls r Ea Ep V B R Nn U Er]; try congruence.
    + cbn [pre]. split; [intros []|reflexivity].
    + cbn [pre]. right. rewrite Y, X. splits; auto. intros [|[]]; discriminate.
    + rewrite <- Er. apply FF; [reflexivity|intros [|[]]; discriminate].
    + rewrite <- Er. apply FF; [reflexivity|intros [|[]]; discriminate].
    + cbn [pre]. left. rewrite Y, X. splits; [right; now left|reflexivity|discriminate].
Qed.
Lemma run_single : forall c es s, is_nil (eff_lists c) = true -> sinv c s -> s_success s = false ->
  forall tr f, run c s es = (tr, f) -> (got_success tr <-> completed tr <> []).
Proof.
  intros c es. induction es as [|e es IH]; intros s N I Hs tr f H; cbn [run] in H.
  - injection H as <- <-. split; [intros (? & ? & [] & _)|intros H; exfalso; apply H; reflexivity].
  - pose proof (step_single c s e N I Hs) as S. destruct (step c s e) as [s' o|o].
    + destruct (run c s' es) as [tr' f'] eqn:R. injection H as <- <-. cbn [completed flat_map snd]. fold (dones o). fold (completed tr'). destruct S as [(S1 & S2 & S3)|(S1 & S2 & S3 & S4)].
      * split; [intros _; destruct (dones o); [congruence|discriminate]|intros _]. exists e, o. split; [now left|exact S1].
      * rewrite S4. cbn [app]. rewrite <- (IH s' N S3 S2 tr' f' R). split.
        -- intros (e' & o' & [E|E] & G); [injection E as <- <-; contradiction|]. exists e', o'. auto.
        -- intros (e' & o' & E & G). exists e', o'. split; [now right|exact G].
    + injection H as <- <-. destruct S as [S1 S2]. cbn [completed flat_map snd]. fold (dones o). rewrite S2. split; [|intros G; exfalso; apply G; reflexivity].
      intros (e' & o' & [E|[]] & G). injection E as <- <-. contradiction.
Qed.
