(** Proofs for C86. *)
From Coq Require Import String.
From Verif Require Import Base Text IdentModel IdentSpec.
Local Open Scope Z_scope.

Lemma zlen_snoc : forall (l : list Z) c, zlen (l ++ [c]) = zlen l + 1.
Proof. intros. rewrite zlen_app. reflexivity. Qed.
Lemma line_iff : forall s cur nl l rest, zlen cur <= 8192 -> (read_line cur nl s = LLine l rest <->
  exists x k, l = cur ++ x /\ s = x ++ repeat 13 k ++ [10] ++ rest /\ Forall (fun c => c <> 0 /\ c <> 10 /\ c <> 13) x /\ (nl = true -> x = []) /\ zlen l <= 8192).
Proof.
  induction s as [|c s IH]; intros cur nl l rest L; cbn [read_line].
  - split; [discriminate|]. intros (x & k & _ & E & _). destruct x; [|discriminate]. destruct k; discriminate.
  - destruct (Z.eqb_spec c 13) as [-> | N13].
    + rewrite IH by assumption. split.
      * intros (x & k & -> & E & F & X & Y). rewrite (X eq_refl) in *. exists [], (S k). splits; auto. cbn [app repeat] in *. rewrite E. reflexivity.
      * intros (x & k & -> & E & F & X & Y). destruct x as [|y x].
        -- destruct k as [|k]; [discriminate|]. cbn [app repeat] in E. injection E as E. exists [], k. splits; auto.
        -- cbn [app] in E. injection E as <- _. inversion F as [|? ? F1 _]; subst. destruct F1 as (_ & _ & F1). congruence.
    + destruct (Z.eqb_spec c 10) as [-> | N10].
      * split.
        -- intros H. injection H as <- <-. exists [], 0%nat. rewrite app_nil_r. splits; auto.
        -- intros (x & k & -> & E & F & X & Y). destruct x as [|y x].
           ++ destruct k as [|k]; [|discriminate]. cbn [app repeat] in E. injection E as <-. rewrite app_nil_r. reflexivity.
           ++ cbn [app] in E. injection E as <- _. inversion F as [|? ? F1 _]; subst. destruct F1 as (_ & F1 & _). congruence.
      * destruct (Z.eqb_spec c 0) as [-> | N0]; cbn [orb].
        { split; [discriminate|]. intros (x & k & -> & E & F & X & Y). destruct x as [|y x]; [destruct k; discriminate|].
          cbn [app] in E. injection E as <- _. inversion F as [|? ? F1 _]; subst. destruct F1 as (F1 & _ & _). congruence. }
        destruct nl.
        { split; [discriminate|]. intros (x & k & -> & E & F & X & Y). rewrite (X eq_refl) in E. destruct k; [injection E as -> _; congruence|injection E as -> _; congruence]. }
        destruct (Z.ltb_spec 8192 (zlen (cur ++ [c]))) as [B|B].
        { split; [discriminate|]. intros (x & k & -> & E & F & X & Y). destruct x as [|y x]; [destruct k; injection E as -> _; congruence|].
          cbn [app] in E. injection E as <- _. rewrite zlen_app, zlen_cons in Y. rewrite zlen_snoc in B. pose proof (zlen_nonneg _ x). lia. }
        rewrite IH by lia. split.
        -- intros (x & k & -> & -> & F & X & Y). exists (c :: x), k. splits; auto.
           all: try (rewrite <- app_assoc in *; solve [reflexivity | exact Y]); try (intros Q; discriminate Q); try exact Y.
        -- intros (x & k & -> & E & F & X & Y). destruct x as [|y x]; [destruct k; injection E as -> _; congruence|].
           cbn [app] in E. injection E as <- E. inversion F as [|? ? F1 F2]; subst. exists x, k. splits; auto; try (rewrite <- app_assoc in *; solve [reflexivity | exact Y]); try (intros Q; discriminate Q).
Qed.
Lemma line_first : forall s l rest, read_line [] false s = LLine l rest <-> exists t, line l t /\ s = t ++ rest.
Proof.
  intros s l rest. rewrite line_iff by (unfold zlen; cbn [length]; lia). split.
  - intros (x & k & -> & -> & F & _ & Y). exists (x ++ repeat 13 k ++ [10]). split; [|rewrite <- !app_assoc; reflexivity].
    split; [split; assumption|]. exists k. reflexivity.
  - intros (t & ((F & Y) & k & ->) & ->). exists l, k. splits; auto; [rewrite <- !app_assoc; reflexivity|discriminate].
Qed.
Lemma is_ident_iff : forall l, is_ident l = true <-> identifies l.
Proof.
  intros l. unfold is_ident, identifies. split.
  - intros H. apply andb_true_iff in H. destruct H as (L & E). apply Z.ltb_lt in L. apply beqb_eq in E.
    exists (zdrop 4 l). split.
    + intros N. pose proof (zlen_zdrop _ 4 l) as T. rewrite N in T. unfold zlen at 2 in T. cbn [length] in T. lia.
    + rewrite <- E. symmetry. apply ztake_zdrop.
  - intros (x & N & ->). apply andb_true_iff. split.
    + apply Z.ltb_lt. rewrite zlen_app. change (zlen (bs "SSH-")) with 4. destruct x as [|y x]; [congruence|]. rewrite zlen_cons. pose proof (zlen_nonneg _ x). lia.
    + apply beqb_eq. apply ztake_app_exact. reflexivity.
Qed.
Lemma ident_iff : forall n server s l rest, read_ident n server s = IOk l rest <->
  exists m pre t, (m < n)%nat /\ (server = true -> m = 0%nat) /\ preamble m pre /\ line l t /\ identifies l /\ s = pre ++ t ++ rest.
Proof.
  induction n as [|n IH]; intros server s l rest; cbn [read_ident].
  - split; [discriminate|]. intros (m & pre & t & L & _). lia.
  - destruct (read_line [] false s) as [| |x r] eqn:R.
    1, 2: split; [discriminate|]; intros (m & pre & t & L & S & P & T & I & E); exfalso;
      destruct P as [|m x u q X N P];
      [assert (K : read_line [] false s = LLine l rest) by (apply line_first; exists t; auto); congruence
      |assert (K : read_line [] false s = LLine x (q ++ t ++ rest)) by (apply line_first; exists u; split; [assumption|rewrite E, <- app_assoc; reflexivity]); congruence].
    destruct (is_ident x) eqn:Q.
    + split.
      * intros H. injection H as <- <-. apply line_first in R. destruct R as (t & T & ->). apply is_ident_iff in Q.
        exists 0%nat, [], t. splits; auto; [lia|constructor].
      * intros (m & pre & t & L & S & P & T & I & E). destruct P as [|m y u q X N P].
        -- assert (K : read_line [] false s = LLine l rest) by (apply line_first; exists t; auto). rewrite K in R. injection R as <- <-. reflexivity.
        -- assert (K : read_line [] false s = LLine y (q ++ t ++ rest)) by (apply line_first; exists u; split; [assumption|rewrite E, <- app_assoc; reflexivity]).
           rewrite K in R. injection R as <- _. exfalso. apply N. apply is_ident_iff. exact Q.
    + assert (NQ : ~ identifies x) by (intros I; apply is_ident_iff in I; congruence). destruct server.
      * split; [discriminate|]. intros (m & pre & t & L & S & P & T & I & E). rewrite (S eq_refl) in P. inversion P; subst.
        assert (K : read_line [] false ([] ++ t ++ rest) = LLine l rest) by (apply line_first; exists t; auto). rewrite K in R. injection R as <- <-. contradiction.
      * rewrite IH. apply line_first in R. destruct R as (u & U & ->). split.
        -- intros (m & pre & t & L & S & P & T & I & ->). exists (Datatypes.S m), (u ++ pre), t. splits; auto; [lia|discriminate|constructor 2 with x; assumption|].
           rewrite <- app_assoc. reflexivity.
        -- intros (m & pre & t & L & S & P & T & I & E).
           assert (K0 : read_line [] false (u ++ r) = LLine x r) by (apply line_first; exists u; auto).
           destruct P as [|m y w q X N P].
           ++ assert (K : read_line [] false (u ++ r) = LLine l rest) by (apply line_first; exists t; auto). rewrite K in K0. injection K0 as <- <-. contradiction.
           ++ assert (K : read_line [] false (u ++ r) = LLine y (q ++ t ++ rest)) by (apply line_first; exists w; split; [assumption|rewrite E, <- app_assoc; reflexivity]).
              rewrite K in K0. injection K0 as <- <-. exists m, q, t. splits; auto; [lia|discriminate].
Qed.
Lemma line_more : forall s more cur nl, read_line cur nl s <> LMore ->
  read_line cur nl (s ++ more) = match read_line cur nl s with LLine l r => LLine l (r ++ more) | x => x end.
Proof.
  induction s as [|c s IH]; intros more cur nl H; cbn [read_line app] in *; [congruence|].
  destruct (c =? 13); [apply IH; exact H|]. destruct (c =? 10); [reflexivity|]. destruct ((c =? 0) || nl); [reflexivity|].
  destruct (8192 <? zlen (cur ++ [c])); [reflexivity|]. apply IH. exact H.
Qed.
Lemma ident_more : forall n server s more, read_ident n server s <> IMore ->
  read_ident n server (s ++ more) = match read_ident n server s with IOk l r => IOk l (r ++ more) | x => x end.
Proof.
  induction n as [|n IH]; intros server s more H; cbn [read_ident] in *; [reflexivity|].
  destruct (read_line [] false s) as [| |l r] eqn:E; [congruence| |]; rewrite line_more by congruence; rewrite E; [reflexivity|].
  destruct (is_ident l); [reflexivity|]. destruct server; [reflexivity|]. apply IH. exact H.
Qed.
Lemma crs : forall n cur nl, read_line cur nl (repeat 13 n) = LMore.
Proof. induction n as [|n IH]; intros cur nl; [reflexivity|]. cbn [repeat read_line]. change (13 =? 13) with true. cbv iota. apply IH. Qed.
Lemma too_many : forall n pre rest, preamble n pre -> read_ident n false (pre ++ rest) = IBad.
Proof.
  intros n pre rest P. induction P as [|n l t r L N P IH]; [reflexivity|]. cbn [read_ident].
  assert (R : read_line [] false ((t ++ r) ++ rest) = LLine l (r ++ rest)) by (apply line_first; exists t; split; [assumption|rewrite <- app_assoc; reflexivity]).
  assert (Q : is_ident l = false) by (destruct (is_ident l) eqn:Q; [apply is_ident_iff in Q; contradiction|reflexivity]).
  rewrite R, Q. exact IH.
Qed.
Lemma read_text : forall x cur s, Forall (fun c => c <> 0 /\ c <> 10 /\ c <> 13) x -> zlen cur + zlen x <= 8192 ->
  read_line cur false (x ++ s) = read_line (cur ++ x) false s.
Proof.
  induction x as [|c x IH]; intros cur s F L; [rewrite app_nil_r; reflexivity|]. inversion F as [|? ? (N0 & N10 & N13) F2]; subst.
  rewrite zlen_cons in L. pose proof (zlen_nonneg _ x). cbn [app read_line]. apply Z.eqb_neq in N0, N10, N13. rewrite N0, N10, N13. cbn [orb].
  replace (8192 <? zlen (cur ++ [c])) with false by (symmetry; apply Z.ltb_ge; rewrite zlen_snoc; lia).
  rewrite IH by (try assumption; rewrite zlen_snoc; lia). rewrite <- app_assoc. reflexivity.
Qed.
Lemma read_crs : forall k cur nl s, read_line cur nl (repeat 13 k ++ s) = read_line cur (nl || negb (Nat.eqb k 0)) s.
Proof.
  induction k as [|k IH]; intros cur nl s; cbn [repeat app]; [rewrite orb_false_r; reflexivity|].
  cbn [read_line]. change (13 =? 13) with true. cbv iota. rewrite IH. cbn [orb Nat.eqb negb]. rewrite orb_true_r. reflexivity.
Qed.
