(** Proofs about the number and time parsers. *)
From Coq Require Import String.
From Verif Require Import Base Text MiscNumModel MiscNumSpec.

Definition dval (l : list Z) : Z := fold_left (fun a c => a * 10 + (c - 48)) l 0.
Definition isdec (l : list Z) : Prop := l <> [] /\ Forall (fun c => isdigit c = true) l.

Lemma isdigit_spec : forall c, isdigit c = true <-> 48 <= c <= 57.
Proof. intros. unfold isdigit. lia. Qed.
Lemma dval_app : forall l c, dval (l ++ [c]) = dval l * 10 + (c - 48).
Proof. intros. unfold dval. now rewrite fold_left_app. Qed.
Lemma decimal_iff : forall l v, decimal l v <-> isdec l /\ v = dval l.
Proof.
  intros l v. split.
  - induction 1 as [d Hd|s v d _ [[Hn Hf] ->] Hd].
    + unfold isdec, dval. cbn [fold_left]. splits; [discriminate| |lia]. constructor; [apply isdigit_spec; lia|constructor].
    + splits.
      * unfold isdec. split; [destruct s; discriminate|]. apply Forall_app. split; [assumption|]. constructor; [apply isdigit_spec; lia|constructor].
      * rewrite dval_app. lia.
  - intros [[Hn Hf] ->]. induction l as [|c l IH] using rev_ind; [congruence|].
    apply Forall_app in Hf. destruct Hf as [Hf Hc]. inversion Hc; subst. rewrite isdigit_spec in *.
    rewrite dval_app. destruct l as [|x l].
    + replace [c] with [48 + (c - 48)] by (f_equal; lia). cbn [app]. unfold dval. cbn [fold_left]. apply dec_one. lia.
    + replace (dval (x :: l) * 10 + (c - 48)) with (10 * dval (x :: l) + (c - 48)) by lia.
      replace [c] with [48 + (c - 48)] by (f_equal; lia). apply dec_more; [|lia]. apply IH; [discriminate|assumption].
Qed.
Lemma dval_nonneg : forall l, Forall (fun c => isdigit c = true) l -> 0 <= dval l.
Proof.
  intros l. induction l as [|c l IH] using rev_ind; intros H; [cbn; lia|]. apply Forall_app in H. destruct H as [H Hc].
  inversion Hc; subst. rewrite isdigit_spec in *. rewrite dval_app. specialize (IH H). lia.
Qed.

(** [digits] consumes exactly the leading digits. *)
Lemma scandigits_spec : forall s, exists ds r, scandigits s = (ds, r) /\ s = ds ++ r /\
  Forall (fun c => isdigit c = true) ds /\ (match r with c :: _ => isdigit c = false | [] => True end).
Proof.
  induction s as [|c s (ds & r & E & Es & Hf & Hr)].
  - exists [], []. cbn. splits; auto.
  - cbn [scandigits]. destruct (isdigit c) eqn:Ec.
    + rewrite E. exists (c :: ds), r. rewrite Es. cbn. splits; auto.
    + exists [], (c :: s). cbn. splits; auto.
Qed.
Lemma digits_spec : forall ds r acc any, Forall (fun c => isdigit c = true) ds ->
  (match r with c :: _ => isdigit c = false | [] => True end) ->
  digits (ds ++ r) acc any = (fold_left (fun a c => a * 10 + (c - 48)) ds acc, any || negb (is_nil ds), r).
Proof.
  induction ds as [|c ds IH]; intros r acc any H Hr.
  - cbn [app fold_left is_nil negb]. rewrite Bool.orb_false_r. destruct r as [|c r]; cbn; [reflexivity|]. now rewrite Hr.
  - inversion H; subst. cbn [app digits fold_left]. rewrite H2. rewrite IH by assumption. cbn [is_nil negb]. now rewrite !Bool.orb_true_r.
Qed.
Lemma skip_space_spec : forall s, exists ws, s = ws ++ skip_space s /\ Forall white ws /\
  (match skip_space s with c :: _ => isspace c = false | [] => True end).
Proof.
  induction s as [|c s (ws & E & Hw & Hn)].
  - exists []. cbn. auto.
  - cbn [skip_space]. destruct (isspace c) eqn:Ec.
    + exists (c :: ws). cbn [app]. rewrite <- E. splits; auto. constructor; [|assumption]. unfold white, isspace in *. lia.
    + exists []. cbn [app]. splits; auto.
Qed.
Lemma skip_space_app : forall ws s, Forall white ws -> (match s with c :: _ => isspace c = false | [] => True end) ->
  skip_space (ws ++ s) = s.
Proof.
  induction ws as [|c ws IH]; intros s H Hs.
  - cbn [app]. destruct s as [|x s]; cbn [skip_space]; [reflexivity|]. now rewrite Hs.
  - inversion H; subst. cbn [app skip_space]. replace (isspace c) with true; [now apply IH|].
    symmetry. unfold white, isspace in *. lia.
Qed.
Lemma isdigit_not_space : forall c, isdigit c = true -> isspace c = false.
Proof. intros c H. unfold isdigit, isspace in *. lia. Qed.

(** The whole text of a numeral converts to its (clamped) value, and nothing
    else converts completely. *)
Definition clamp (v : Z) : Z * bool :=
  if v <? LLONG_MIN then (LLONG_MIN, true) else if LLONG_MAX <? v then (LLONG_MAX, true) else (v, false).
Lemma strtoll_numeral : forall s v, numeral s v -> strtoll s = Some (fst (clamp v), snd (clamp v), []).
Proof.
  intros s v (ws & ds & n & Hw & Hd & Hs). apply decimal_iff in Hd. destruct Hd as [[Hne Hf] ->].
  assert (D : digits ds 0 false = (dval ds, true, [])).
  { pose proof (digits_spec ds [] 0 false Hf I) as E. rewrite app_nil_r in E. rewrite E. destruct ds; [congruence|reflexivity]. }
  assert (F : exists c r, ds = c :: r /\ isdigit c = true). { destruct ds; [congruence|]. inversion Hf; subst. eauto. }
  destruct F as (c & r & Ec & Hc). unfold strtoll, clamp.
  destruct Hs as [[-> ->]|[[-> ->]|[-> ->]]].
  - rewrite skip_space_app; [|assumption|rewrite Ec; now apply isdigit_not_space].
    rewrite Ec at 1. assert (48 <= c <= 57) by now apply isdigit_spec. replace (c =? 45) with false by lia. replace (c =? 43) with false by lia.
    cbv iota beta. rewrite D. destruct (_ <? _); [reflexivity|]. destruct (_ <? _); reflexivity.
  - rewrite skip_space_app; [|assumption|reflexivity]. change (43 =? 45) with false. change (43 =? 43) with true. cbv iota beta.
    rewrite D. destruct (_ <? _); [reflexivity|]. destruct (_ <? _); reflexivity.
  - rewrite skip_space_app; [|assumption|reflexivity]. change (45 =? 45) with true. cbv iota beta.
    rewrite D. destruct (_ <? _); [reflexivity|]. destruct (_ <? _); reflexivity.
Qed.
Lemma digits_inv : forall s v, digits s 0 false = (v, true, []) -> decimal s v.
Proof.
  intros s v H. destruct (scandigits_spec s) as (ds & r & _ & -> & Hf & Hr). rewrite digits_spec in H by assumption.
  inversion H; subst. rewrite app_nil_r. apply decimal_iff. split; [split; [|assumption]|reflexivity]. destruct ds; [discriminate|discriminate].
Qed.
Lemma strtoll_inv : forall s ll e, strtoll s = Some (ll, e, []) -> exists v, numeral s v /\ ll = fst (clamp v) /\ e = snd (clamp v).
Proof.
  intros s ll e H. unfold strtoll in H. destruct (skip_space_spec s) as (ws & Es & Hw & Hn).
  remember (skip_space s) as s1 eqn:Q. clear Q.
  assert (G : forall neg s2, (let '(v, any, rest) := digits s2 0 false in
    if any then let v' := if neg : bool then - v else v in
      Some (if v' <? LLONG_MIN then (LLONG_MIN, true, rest) else if LLONG_MAX <? v' then (LLONG_MAX, true, rest) else (v', false, rest))
    else None) = Some (ll, e, []) -> exists n, decimal s2 n /\ let v := if neg then - n else n in ll = fst (clamp v) /\ e = snd (clamp v)).
  { intros neg s2 G. destruct (digits s2 0 false) as [[v any] rest] eqn:D. destruct any; [|discriminate]. cbv zeta in G.
    exists v. unfold clamp. cbv zeta. destruct (_ <? LLONG_MIN).
    - inversion G; subst. split; [now apply digits_inv|auto].
    - destruct (LLONG_MAX <? _); inversion G; subst; (split; [now apply digits_inv|auto]). }
  destruct s1 as [|c r].
  - destruct (G false [] H) as (n & Hd & _). apply decimal_iff in Hd. destruct Hd as [[? _] _]. congruence.
  - destruct (c =? 45) eqn:E1; [|destruct (c =? 43) eqn:E2].
    + destruct (G true r H) as (n & Hd & Hv). exists (- n). split; [|exact Hv]. exists ws, r, n. splits; auto.
      right. right. assert (c = 45) by lia. subst c. auto.
    + destruct (G false r H) as (n & Hd & Hv). exists n. split; [|exact Hv]. exists ws, r, n. splits; auto.
      right. left. assert (c = 43) by lia. subst c. auto.
    + destruct (G false (c :: r) H) as (n & Hd & Hv). exists n. split; [|exact Hv]. exists ws, (c :: r), n. splits; auto.
Qed.
Lemma numeral_fun : forall s v w, numeral s v -> numeral s w -> v = w.
Proof.
  intros s v w (ws & ds & n & Hw & Hd & Hs) (ws' & ds' & n' & Hw' & Hd' & Hs').
  apply decimal_iff in Hd. apply decimal_iff in Hd'. destruct Hd as [[Hne Hf] ->]. destruct Hd' as [[Hne' Hf'] ->].
  assert (F : forall (d : list Z), d <> [] -> Forall (fun c => isdigit c = true) d -> exists c r, d = c :: r /\ 48 <= c <= 57).
  { intros d Hnn Hff. destruct d; [congruence|]. inversion Hff; subst. rewrite isdigit_spec in *. eauto. }
  destruct (F ds Hne Hf) as (c & r & Ec & Hc). destruct (F ds' Hne' Hf') as (c' & r' & Ec' & Hc').
  assert (E : skip_space s = skip_space s) by reflexivity.
  assert (K : forall x : Z, (48 <= x <= 57 \/ x = 43 \/ x = 45) -> isspace x = false) by (intros; unfold isspace; lia).
  destruct Hs as [[A ->]|[[A ->]|[A ->]]], Hs' as [[B ->]|[[B ->]|[B ->]]]; rewrite A in E at 1; rewrite B in E;
    rewrite !skip_space_app in E; try assumption; try (rewrite ?Ec, ?Ec'; apply K; lia);
    try (subst ds ds'; inversion E; subst; try lia; congruence); try (inversion E; subst; congruence).
Qed.

Lemma clamp_small : forall v, LLONG_MIN <= v <= LLONG_MAX -> clamp v = (v, false).
Proof. intros. unfold clamp. destruct (v <? LLONG_MIN) eqn:?; [lia|]. destruct (LLONG_MAX <? v) eqn:?; [lia|reflexivity]. Qed.

Lemma strtonum_ok : forall s lo hi v, LLONG_MIN <= lo -> hi <= LLONG_MAX ->
  (strtonum s lo hi = inl v <-> numeral s v /\ lo <= v <= hi).
Proof.
  intros s lo hi v Hlo Hhi. unfold strtonum. split.
  - destruct (hi <? lo) eqn:E0; [discriminate|]. destruct (strtoll s) as [[[ll e] rest]|] eqn:E; [|discriminate].
    destruct rest; [|discriminate]. cbn [is_nil negb]. apply strtoll_inv in E. destruct E as (w & Hn & -> & ->).
    destruct (_ || _) eqn:E1; [discriminate|]. destruct (_ || (hi <? _)) eqn:E2; [discriminate|].
    intros H. inversion H; subst. unfold clamp in *. destruct (w <? LLONG_MIN) eqn:?; [cbn in *; lia|].
    destruct (LLONG_MAX <? w) eqn:?; [cbn in *; lia|]. cbn [fst snd] in *. split; [assumption|lia].
  - intros [Hn Hr]. destruct (hi <? lo) eqn:E0; [lia|]. rewrite (strtoll_numeral _ _ Hn). rewrite clamp_small by lia.
    cbn [fst snd is_nil negb]. rewrite !Bool.andb_false_r. cbn [orb].
    destruct (v <? lo) eqn:?; [lia|]. destruct (hi <? v) eqn:?; [lia|reflexivity].
Qed.
Lemma strtonum_err : forall s lo hi e, LLONG_MIN <= lo -> lo <= hi -> hi <= LLONG_MAX ->
  (strtonum s lo hi = inr e <->
   match e with
   | NInvalid => ~ exists v, numeral s v
   | NTooSmall => exists v, numeral s v /\ v < lo
   | NTooLarge => exists v, numeral s v /\ v > hi
   end).
Proof.
  intros s lo hi e Hlo Hlh Hhi. unfold strtonum. destruct (hi <? lo) eqn:E0; [lia|].
  destruct (strtoll s) as [[[ll er] rest]|] eqn:E.
  - destruct rest as [|x rest].
    + apply strtoll_inv in E. destruct E as (w & Hn & -> & ->). cbn [is_nil negb].
      assert (U : forall v, numeral s v -> v = w) by (intros; eapply numeral_fun; eassumption).
      unfold clamp. destruct (w <? LLONG_MIN) eqn:A.
      * cbn [fst snd]. rewrite Z.eqb_refl. cbn [andb orb]. split.
        -- intros H. inversion H; subst. exists w. split; [assumption|lia].
        -- destruct e; intros H; [exfalso; apply H; eauto|reflexivity|]. destruct H as (v & Hv & Hlt). rewrite (U v Hv) in Hlt. lia.
      * destruct (LLONG_MAX <? w) eqn:B.
        -- cbn [fst snd]. rewrite Z.eqb_refl. change (LLONG_MAX =? LLONG_MIN) with false. cbn [andb orb].
           destruct (LLONG_MAX <? lo) eqn:C; [lia|]. split.
           ++ intros H. inversion H; subst. exists w. split; [assumption|lia].
           ++ destruct e; intros H; [exfalso; apply H; eauto| |reflexivity]. destruct H as (v & Hv & Hlt). rewrite (U v Hv) in Hlt. lia.
        -- cbn [fst snd]. rewrite !Bool.andb_false_r. cbn [orb]. destruct (w <? lo) eqn:C; [|destruct (hi <? w) eqn:D].
           ++ split; [intros H; inversion H; subst; exists w; split; [assumption|lia]|].
              destruct e; intros H; [exfalso; apply H; eauto|reflexivity|]. destruct H as (v & Hv & Hlt). rewrite (U v Hv) in Hlt. lia.
           ++ split; [intros H; inversion H; subst; exists w; split; [assumption|lia]|].
              destruct e; intros H; [exfalso; apply H; eauto| |reflexivity]. destruct H as (v & Hv & Hlt). rewrite (U v Hv) in Hlt. lia.
           ++ split; [discriminate|]. destruct e; intros H; [exfalso; apply H; eauto| |]; destruct H as (v & Hv & Hlt); rewrite (U v Hv) in Hlt; lia.
    + cbn [is_nil negb]. assert (N : forall v, ~ numeral s v) by (intros v Hv; rewrite (strtoll_numeral _ _ Hv) in E; discriminate).
      split; [intros H; inversion H; subst; intros (v & Hv); exact (N v Hv)|].
      destruct e; intros H; [reflexivity| |]; destruct H as (v & Hv & _); destruct (N v Hv).
  - assert (N : forall v, ~ numeral s v) by (intros v Hv; rewrite (strtoll_numeral _ _ Hv) in E; discriminate).
    split; [intros H; inversion H; subst; intros (v & Hv); exact (N v Hv)|].
    destruct e; intros H; [reflexivity| |]; destruct H as (v & Hv & _); destruct (N v Hv).
Qed.

(** Pure digit strings. *)
Lemma decimal_numeral : forall ds n, decimal ds n -> numeral ds n.
Proof. intros ds n H. exists [], ds, n. splits; auto. Qed.
Lemma strtonum_digits : forall ds n hi, decimal ds n -> 0 <= hi <= LLONG_MAX ->
  strtonum ds 0 hi = if n <=? hi then inl n else inr NTooLarge.
Proof.
  intros ds n hi H Hh. pose proof (decimal_numeral _ _ H) as Hn.
  assert (0 <= n). { apply decimal_iff in H. destruct H as [[_ Hf] ->]. now apply dval_nonneg. }
  destruct (n <=? hi) eqn:E.
  - apply strtonum_ok; [unfold LLONG_MIN; lia|lia|]. split; [assumption|lia].
  - apply strtonum_err; [unfold LLONG_MIN; lia|lia|lia|]. exists n. split; [assumption|lia].
Qed.
Lemma strtonum_nil : forall hi, 0 <= hi -> strtonum [] 0 hi = inr NInvalid.
Proof. intros hi H. unfold strtonum. destruct (hi <? 0) eqn:E; [lia|reflexivity]. Qed.

Lemma unit_iff : forall c m, unit_of c m <-> multiplier c = Some m.
Proof.
  intros c m. unfold unit_of, multiplier.
  change (bs "sS") with [115; 83]. change (bs "mM") with [109; 77]. change (bs "hH") with [104; 72].
  change (bs "dD") with [100; 68]. change (bs "wW") with [119; 87]. cbn [In].
  change (60 * 60) with 3600. change (3600 * 24) with 86400. change (86400 * 7) with 604800. split.
  - intros H. repeat match goal with |- context[if ?b then _ else _] => destruct b eqn:? end; try (f_equal; lia); lia.
  - intros H. repeat match type of H with context[if ?b then _ else _] => destruct b eqn:? end; inversion H; subst; lia.
Qed.
Lemma unit_pos : forall c m, unit_of c m -> 1 <= m.
Proof. intros c m H. unfold unit_of in H. lia. Qed.
Lemma unit_not_digit : forall c m, unit_of c m -> isdigit c = false.
Proof.
  intros c m H. unfold unit_of in H. change (bs "sS") with [115; 83] in H. change (bs "mM") with [109; 77] in H. change (bs "hH") with [104; 72] in H.
  change (bs "dD") with [100; 68] in H. change (bs "wW") with [119; 87] in H. cbn [In] in H. unfold isdigit. lia.
Qed.

Lemma ctime_add_ok : forall total secs m, 0 <= total -> 0 <= secs -> 1 <= m ->
  ctime_add total secs m = if total + secs * m <=? INT_MAX then Some (total + secs * m) else None.
Proof.
  intros total secs m Ht Hs Hm. unfold ctime_add.
  assert (Q : INT_MAX / m < secs <-> INT_MAX < secs * m).
  { split; intros H.
    - pose proof (Z.div_mod INT_MAX m ltac:(lia)). pose proof (Z.mod_pos_bound INT_MAX m ltac:(lia)). nia.
    - apply Z.div_lt_upper_bound; lia. }
  destruct (INT_MAX / m <? secs) eqn:E1.
  - replace (total + secs * m <=? INT_MAX) with false; [reflexivity|]. symmetry. assert (INT_MAX < secs * m) by (apply Q; lia). lia.
  - assert (~ INT_MAX < secs * m) by (intros H; apply Q in H; lia).
    destruct (INT_MAX - secs * m <? total) eqn:E2.
    + replace (total + secs * m <=? INT_MAX) with false by lia. reflexivity.
    + assert (0 <= secs * m) by nia. destruct (total + secs * m <? 0) eqn:E3; [lia|]. replace (total + secs * m <=? INT_MAX) with true by lia. reflexivity.
Qed.

Lemma scandigits_app : forall ds r, Forall (fun c => isdigit c = true) ds ->
  (match r with c :: _ => isdigit c = false | [] => True end) -> scandigits (ds ++ r) = (ds, r).
Proof.
  induction ds as [|c ds IH]; intros r H Hr.
  - cbn [app]. destruct r as [|c r]; cbn; [reflexivity|]. now rewrite Hr.
  - inversion H; subst. cbn [app scandigits]. rewrite H2. now rewrite IH by assumption.
Qed.

Lemma interval_nonneg : forall s v, interval s v -> 0 <= v /\ s <> [].
Proof.
  assert (D : forall ds n, decimal ds n -> 0 <= n /\ ds <> []).
  { intros ds n H. apply decimal_iff in H. destruct H as [[H1 H2] ->]. split; [now apply dval_nonneg|assumption]. }
  induction 1 as [ds n H|ds n c m H Hu|ds n c m s v H Hu Hi [IH _]].
  - auto.
  - apply D in H. apply unit_pos in Hu. split; [nia|]. destruct ds; discriminate.
  - apply D in H. apply unit_pos in Hu. split; [nia|]. destruct ds; discriminate.
Qed.

(** The loop accepts exactly the interval texts whose total stays in int. *)
Lemma ctime_loop_ok : forall s v, interval s v -> forall fuel total, (length s <= fuel)%nat -> 0 <= total <= INT_MAX ->
  ctime_loop fuel s total = if total + v <=? INT_MAX then CtOk (total + v) else CtFail.
Proof.
  assert (L : LLONG_MAX >= INT_MAX /\ INT_MAX >= 0) by (unfold LLONG_MAX, INT_MAX; lia).
  assert (E0 : forall fuel t, ctime_loop fuel [] t = CtOk t) by (intros [|f] t; reflexivity).
  induction 1 as [ds n H|ds n c m H Hu|ds n c m s v H Hu Hi IH]; intros fuel total Hf Ht;
    pose proof (proj1 (decimal_iff _ _) H) as [[Hne Hd] En];
    (assert (Hn : 0 <= n) by (subst n; now apply dval_nonneg));
    (destruct fuel as [|fuel]; [destruct ds; [congruence|cbn in Hf; lia]|]).
  - destruct ds as [|x ds']; [congruence|]. cbn [ctime_loop].
    pose proof (scandigits_app (x :: ds') [] Hd I) as S. rewrite app_nil_r in S. rewrite S. clear S.
    rewrite (strtonum_digits _ _ _ H) by lia. destruct (n <=? INT_MAX) eqn:E.
    + rewrite ctime_add_ok by lia. replace (total + n * 1) with (total + n) by lia. destruct (total + n <=? INT_MAX); [now rewrite E0|reflexivity].
    + replace (total + n <=? INT_MAX) with false by lia. reflexivity.
  - destruct (ds ++ [c]) as [|x l] eqn:El; [destruct ds; discriminate|]. cbn [ctime_loop]. rewrite <- El.
    rewrite scandigits_app; [|assumption|eapply unit_not_digit; eassumption]. rewrite (strtonum_digits _ _ _ H) by lia.
    pose proof (unit_pos _ _ Hu) as Hm. rewrite (proj1 (unit_iff _ _) Hu). destruct (n <=? INT_MAX) eqn:E.
    + rewrite ctime_add_ok by lia. destruct (total + n * m <=? INT_MAX); [now rewrite E0|reflexivity].
    + replace (total + n * m <=? INT_MAX) with false by nia. reflexivity.
  - destruct (ds ++ c :: s) as [|x l] eqn:El; [destruct ds; discriminate|]. cbn [ctime_loop]. rewrite <- El.
    rewrite scandigits_app; [|assumption|eapply unit_not_digit; eassumption]. rewrite (strtonum_digits _ _ _ H) by lia.
    pose proof (unit_pos _ _ Hu) as Hm. pose proof (interval_nonneg _ _ Hi) as [Hv _].
    rewrite (proj1 (unit_iff _ _) Hu). destruct (n <=? INT_MAX) eqn:E.
    + rewrite ctime_add_ok by lia. destruct (total + n * m <=? INT_MAX) eqn:E2.
      * rewrite IH; [|rewrite <- El in Hf; rewrite app_length in Hf; cbn [length] in Hf; lia|nia].
        replace (total + (n * m + v)) with (total + n * m + v) by lia. reflexivity.
      * replace (total + (n * m + v) <=? INT_MAX) with false by lia. reflexivity.
    + replace (total + (n * m + v) <=? INT_MAX) with false by nia. reflexivity.
Qed.
Lemma ctime_loop_inv : forall fuel s total r, ctime_loop fuel s total = CtOk r -> 0 <= total <= INT_MAX -> s <> [] ->
  exists v, interval s v /\ r = total + v.
Proof.
  assert (L : LLONG_MAX >= INT_MAX /\ INT_MAX >= 0) by (unfold LLONG_MAX, INT_MAX; lia).
  assert (E0 : forall fuel t, ctime_loop fuel [] t = CtOk t) by (intros [|f] t; reflexivity).
  induction fuel as [|fuel IH]; intros s total r H Ht Hs; (destruct s as [|x l]; [congruence|]); [discriminate|].
  cbn [ctime_loop] in H. destruct (scandigits_spec (x :: l)) as (ds & np & E & Es & Hf & Hr). rewrite E in H.
  destruct ds as [|d ds]; [rewrite strtonum_nil in H by lia; discriminate|].
  assert (Hd : decimal (d :: ds) (dval (d :: ds))). { apply decimal_iff. split; [split; [discriminate|assumption]|reflexivity]. }
  set (n := dval (d :: ds)) in *. assert (Hn : 0 <= n) by now apply dval_nonneg.
  rewrite (strtonum_digits _ _ _ Hd) in H by lia. destruct (n <=? INT_MAX) eqn:En; [|discriminate]. rewrite Es.
  destruct np as [|c rr].
  - rewrite app_nil_r. rewrite ctime_add_ok in H by lia. destruct (total + n * 1 <=? INT_MAX); [|discriminate]. cbv iota beta in H. rewrite E0 in H. inversion H; subst.
    exists n. split; [now apply iv_plain|lia].
  - destruct (multiplier c) as [m|] eqn:Em; [|discriminate]. apply unit_iff in Em. pose proof (unit_pos _ _ Em).
    rewrite ctime_add_ok in H by lia. destruct (total + n * m <=? INT_MAX) eqn:Et; [|discriminate]. destruct rr as [|y rr].
    + cbv iota beta in H. rewrite E0 in H. inversion H; subst. exists (n * m). split; [now apply iv_last|lia].
    + apply IH in H; [|nia|discriminate]. destruct H as (v & Hi & ->). exists (n * m + v). split; [now apply iv_term|lia].
Qed.
Lemma ctime_loop_fuel : forall fuel s total, (length s <= fuel)%nat -> ctime_loop fuel s total <> CtFuel.
Proof.
  assert (E0 : forall fuel t, ctime_loop fuel [] t = CtOk t) by (intros [|f] t; reflexivity).
  induction fuel as [|fuel IH]; intros s total Hf; (destruct s as [|x l]; [rewrite E0; discriminate|]); [cbn in Hf; lia|].
  cbn [ctime_loop]. destruct (scandigits_spec (x :: l)) as (ds & np & E & Es & Hfd & Hr). rewrite E.
  destruct ds as [|d ds].
  { rewrite strtonum_nil by (unfold INT_MAX; lia). discriminate. }
  destruct (strtonum _ _ _); [|discriminate]. destruct np as [|c rr].
  - destruct (ctime_add _ _ _); [rewrite E0|]; discriminate.
  - destruct (multiplier c); [|discriminate]. destruct (ctime_add _ _ _); [|discriminate]. apply IH.
    rewrite Es in Hf. cbn in Hf. rewrite app_length in Hf. cbn [length] in Hf. lia.
Qed.

Lemma hexval_iff : forall c x, hexval c = Some x <-> hex_digit c x.
Proof.
  intros c x. unfold hexval, hex_digit. split.
  - intros H. repeat match type of H with context[if ?b then _ else _] => destruct b eqn:? end; inversion H; subst; lia.
  - intros H. repeat match goal with |- context[if ?b then _ else _] => destruct b eqn:? end; try (f_equal; lia); lia.
Qed.
Lemma hexchar_val : forall a b x y, hex_digit a x -> hex_digit b y -> hexchar a b = 16 * x + y.
Proof.
  intros a b x y Ha Hb. assert (0 <= x <= 15) by (unfold hex_digit in Ha; lia). assert (0 <= y <= 15) by (unfold hex_digit in Hb; lia).
  apply hexval_iff in Ha. apply hexval_iff in Hb. unfold hexchar. rewrite Ha, Hb.
  rewrite Z.shiftl_mul_pow2 by lia. change (2 ^ 4) with 16.
  assert (Z.land (x * 16) y = 0); [|rewrite <- Z.lxor_lor by assumption; rewrite <- Z.add_nocarry_lxor by assumption; lia].
  apply Z.bits_inj'. intros i Hi. rewrite Z.land_spec, Z.bits_0. destruct (Z.ltb_spec i 4).
  - change 16 with (2 ^ 4). now rewrite Z.mul_pow2_bits_low.
  - replace (Z.testbit y i) with false; [apply Bool.andb_false_r|]. symmetry.
    destruct (Z.eq_dec y 0) as [->|]; [apply Z.bits_0|]. apply Z.bits_above_log2; [lia|]. apply Z.log2_lt_pow2; [lia|].
    assert (2 ^ 4 <= 2 ^ i) by (apply Z.pow_le_mono_r; lia). change (2 ^ 4) with 16 in *. lia.
Qed.
Lemma urldecode_buf_iff : forall n s d, (length s <= n)%nat -> (urldecode_buf s = Some d <-> url s d).
Proof.
  induction n as [|n IH]; intros s d Hn.
  - destruct s; [|cbn in Hn; lia]. cbn. split; [intros H; inversion H; constructor|intros H; inversion H; reflexivity].
  - destruct s as [|c r]; [cbn; split; [intros H; inversion H; constructor|intros H; inversion H; reflexivity]|].
    cbn [length] in Hn. cbn [urldecode_buf]. split.
    + destruct (c =? 43) eqn:E1; [|destruct (c =? 37) eqn:E2].
      * destruct (urldecode_buf r) eqn:E; [|discriminate]. intros H. inversion H; subst. assert (c = 43) by lia. subst c. apply url_plus. apply IH; [lia|assumption].
      * destruct r as [|a [|b r]]; try discriminate. cbn [length] in Hn. unfold isxdigit. destruct (hexval a) as [x|] eqn:Ha; [|discriminate].
        destruct (hexval b) as [y|] eqn:Hb; [|discriminate]. apply hexval_iff in Ha. apply hexval_iff in Hb. rewrite (hexchar_val _ _ _ _ Ha Hb).
        cbn [negb orb]. destruct (_ =? -1); [discriminate|]. destruct (urldecode_buf r) eqn:E; [|discriminate]. intros H. inversion H; subst.
        assert (c = 37) by lia. subst c. apply url_hex; [assumption|assumption|]. apply IH; [lia|assumption].
      * destruct (urldecode_buf r) eqn:E; [|discriminate]. intros H. inversion H; subst. apply url_char; [lia|lia|]. apply IH; [lia|assumption].
    + intros H. inversion H as [|s' d' Hu|a b x y s' d' Ha Hb Hu|c' s' d' N1 N2 Hu]; subst.
      * change (43 =? 43) with true. cbv iota. apply IH in Hu; [|lia]. now rewrite Hu.
      * change (37 =? 43) with false. change (37 =? 37) with true. cbv iota. cbn [length] in Hn.
        rewrite (hexchar_val _ _ _ _ Ha Hb). unfold isxdigit.
        assert (0 <= x /\ 0 <= y) by (unfold hex_digit in *; lia).
        apply hexval_iff in Ha. apply hexval_iff in Hb. rewrite Ha, Hb. cbn [negb orb].
        destruct (_ =? -1) eqn:E; [lia|]. apply IH in Hu; [|lia]. now rewrite Hu.
      * replace (c =? 43) with false by lia. replace (c =? 37) with false by lia. apply IH in Hu; [|lia]. now rewrite Hu.
Qed.
