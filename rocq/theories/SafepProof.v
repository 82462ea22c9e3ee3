(** Proofs for C85. *)
From Verif Require Import Base SafepModel SafepSpec.
Local Open Scope Z_scope.

Lemma path_eqb_eq : forall a b, path_eqb a b = true <-> a = b.
Proof.
  induction a as [|x a IH]; intros [|y b]; cbn [path_eqb]; split; try congruence; try discriminate.
  - intros H. apply andb_true_iff in H. destruct H as (H1 & H2). apply beqb_eq in H1. apply IH in H2. congruence.
  - intros H. injection H as -> ->. rewrite beqb_refl. apply IH. reflexivity.
Qed.
Lemma land18 : forall m, Z.land m 18 = 0 <-> Z.testbit m 4 = false /\ Z.testbit m 1 = false.
Proof.
  intros m. split.
  - intros H. split.
    + assert (E : Z.testbit (Z.land m 18) 4 = false) by (rewrite H; reflexivity). rewrite Z.land_spec in E. change (Z.testbit 18 4) with true in E. rewrite andb_true_r in E. exact E.
    + assert (E : Z.testbit (Z.land m 18) 1 = false) by (rewrite H; reflexivity). rewrite Z.land_spec in E. change (Z.testbit 18 1) with true in E. rewrite andb_true_r in E. exact E.
  - intros (H4 & H1). apply Z.bits_inj'. intros n N. rewrite Z.land_spec, Z.bits_0.
    destruct (Z.eq_dec n 4) as [-> | N4]; [rewrite H4; reflexivity|]. destruct (Z.eq_dec n 1) as [-> | N1]; [rewrite H1; reflexivity|].
    replace (Z.testbit 18 n) with false; [apply andb_false_r|]. symmetry.
    change 18 with (Z.lor (2 ^ 4) (2 ^ 1)). rewrite Z.lor_spec, !Z.pow2_bits_false by congruence. reflexivity.
Qed.
Lemma bad_iff : forall sys uid s, bad sys uid s = false <-> kept sys uid s.
Proof.
  intros sys uid s. unfold bad, kept. rewrite <- land18. rewrite orb_false_iff, negb_false_iff, Z.eqb_eq.
  assert (K : negb (sys (st_uid s)) && negb (st_uid s =? uid) = false <-> (sys (st_uid s) = true \/ st_uid s = uid)); [|tauto].
  rewrite andb_false_iff, !negb_false_iff, Z.eqb_eq. tauto.
Qed.
(** The walk from a directory up to the home directory, if it is met, or the root *)
Lemma walk_iff : forall sys stat uid home r, walk sys stat uid home r = true <->
  forall d, at_or_above d (rev r) -> (forall h, home = Some h -> at_or_above h (rev r) -> ~ above d h) ->
    exists s, stat d = Some s /\ kept sys uid s.
Proof.
  intros sys stat uid home r. induction r as [|x r IH].
  - cbn [walk rev]. split.
    + intros H d (e & E) _. destruct d; [|discriminate]. destruct (stat []) as [s|]; [|discriminate]. destruct (bad sys uid s) eqn:B; [discriminate|].
      exists s. split; [reflexivity|]. apply bad_iff. exact B.
    + intros H. destruct (H []) as (s & -> & K); [exists []; reflexivity| |].
      * intros h _ (e & E) (f & F & G). destruct h; [|discriminate]. destruct f; [congruence|discriminate].
      * apply bad_iff in K. rewrite K. destruct (match home with Some h => path_eqb h [] | None => false end); reflexivity.
  - cbn [walk]. change (rev (x :: r)) with (rev r ++ [x]).
    assert (Cases : forall d, at_or_above d (rev r ++ [x]) <-> d = rev r ++ [x] \/ at_or_above d (rev r)).
    { intros d. split.
      - intros (e & E). destruct e as [|y e _] using rev_ind; [left; rewrite app_nil_r in E; auto|]. right. rewrite app_assoc in E. apply app_inj_tail in E.
        destruct E as (E & _). exists e. exact E.
      - intros [-> | (e & E)]; [exists []; rewrite app_nil_r; reflexivity|exists (e ++ [x]); rewrite E, app_assoc; reflexivity]. }
    assert (Long : ~ at_or_above (rev r ++ [x]) (rev r)).
    { intros (e & E). apply (f_equal (@length (list Z))) in E. rewrite !app_length in E. cbn [length] in E. lia. }
    destruct (stat (rev r ++ [x])) as [s|] eqn:S.
    2: { split; [discriminate|]. intros H. destruct (H (rev r ++ [x])) as (s & E & _); [apply Cases; auto| |congruence].
         intros h _ A (f & F & G). apply Cases in A. destruct A as [-> | A].
         - apply (f_equal (@length (list Z))) in G. rewrite !app_length in G. destruct f; [congruence|cbn [length] in G; lia].
         - apply Long. destruct A as (e & A). exists (f ++ e). rewrite G in A. rewrite app_assoc. exact A. }
    destruct (bad sys uid s) eqn:B.
    + split; [discriminate|]. intros H. destruct (H (rev r ++ [x])) as (s' & E & K); [apply Cases; auto| |].
      * intros h _ A (f & F & G). apply Cases in A. destruct A as [-> | A].
        -- apply (f_equal (@length (list Z))) in G. rewrite !app_length in G. destruct f; [congruence|cbn [length] in G; lia].
        -- apply Long. destruct A as (e & A). exists (f ++ e). rewrite G in A. rewrite app_assoc. exact A.
      * rewrite S in E. injection E as <-. apply bad_iff in K. congruence.
    + assert (Ks : kept sys uid s) by (apply bad_iff; exact B).
      destruct (match home with Some h => path_eqb h (rev r ++ [x]) | None => false end) eqn:Hh.
      * destruct home as [h|]; [|discriminate]. apply path_eqb_eq in Hh. subst h. split; [|reflexivity]. intros _ d A N. apply Cases in A. destruct A as [-> | A]; [exists s; auto|].
        exfalso. apply (N _ eq_refl); [apply Cases; auto|]. destruct A as (e & A). exists (e ++ [x]). split; [destruct e; discriminate|]. rewrite A, app_assoc. reflexivity.
      * rewrite IH. split.
        -- intros H d A N. apply Cases in A. destruct A as [-> | A]; [exists s; auto|]. apply H; [assumption|]. intros h E Ah. apply (N h E). apply Cases. auto.
        -- intros H d A N. apply H; [apply Cases; auto|]. intros h E Ah. apply Cases in Ah. destruct Ah as [-> | Ah]; [|apply (N h E Ah)].
           subst home. assert (X : path_eqb (rev r ++ [x]) (rev r ++ [x]) = true) by (apply path_eqb_eq; reflexivity). congruence.
Qed.

(** ** Others *)
Lemma kept_safe : forall sys uid v groups s, kept sys uid s -> v <> uid -> v <> 0 -> sys v = false -> ~ may_write v groups s /\ v <> st_uid s.
Proof.
  intros sys uid v groups s (O & M4 & M1) N0 N1 N2.
  assert (D : v <> st_uid s) by (intros ->; destruct O; congruence). split; [|exact D].
  intros [W|[(W & _)|[(_ & _ & W)|(_ & _ & W)]]]; congruence.
Qed.
Lemma others_keep : forall sys uid p t t', others sys uid t t' ->
  (forall d, at_or_above d p -> exists s x, t d = Some (s, x) /\ kept sys uid s) ->
  forall d, at_or_above d p -> t' d = t d.
Proof.
  intros sys uid p t t' H. induction H as [t|v groups t t1 t2 N0 N1 N2 A H IH]; intros K d D; [reflexivity|].
  assert (Step : forall d, at_or_above d p -> t1 d = t d).
  { clear d D. intros d D. destruct A as [q s x x' E W|q s x s' E W|q c s x t1 E W F].
    - destruct (path_eqb d q) eqn:Q; [|reflexivity]. apply path_eqb_eq in Q. subst q. destruct (K d D) as (s' & x'' & E' & G). rewrite E in E'. injection E' as <- <-.
      destruct (kept_safe sys uid v groups s G N0 N1 N2). contradiction.
    - destruct (path_eqb d q) eqn:Q; [|reflexivity]. apply path_eqb_eq in Q. subst q. destruct (K d D) as (s'' & x'' & E' & G). rewrite E in E'. injection E' as <- <-.
      destruct (kept_safe sys uid v groups s G N0 N1 N2). destruct W; congruence.
    - apply F. intros (r & R). destruct D as (e & D). destruct (K q) as (s' & x' & E' & G).
      + exists ([c] ++ r ++ e). rewrite D, R, <- !app_assoc. reflexivity.
      + rewrite E in E'. injection E' as <- <-. destruct (kept_safe sys uid v groups s G N0 N1 N2). contradiction. }
  rewrite IH; [apply Step; exact D| |exact D]. intros e E. rewrite (Step e E). apply K. exact E.
Qed.
