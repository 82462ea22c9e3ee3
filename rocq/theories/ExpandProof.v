(** Proofs for C84. *)
From Verif Require Import Base Text ExpandModel ExpandSpec.
Local Open Scope Z_scope.

Lemma brace_iff : forall s n t, to_brace s = Some (n, t) <-> s = n ++ [125] ++ t /\ ~ In 125 n.
Proof.
  induction s as [|c s IH]; intros n t; cbn [to_brace].
  - split; [discriminate|]. intros (E & _). destruct n; discriminate.
  - destruct (Z.eqb_spec c 125) as [-> | N].
    + split.
      * intros E. injection E as <- <-. split; [reflexivity|intros []].
      * intros (E & I). destruct n as [|x n]; [cbn [app] in E; injection E as <-; reflexivity|]. cbn [app] in E. injection E as <- E. exfalso. apply I. left. reflexivity.
    + split.
      * destruct (to_brace s) as [(n', t')|] eqn:E; [|discriminate]. intros X. injection X as <- <-. destruct (proj1 (IH n' t') eq_refl) as (-> & I).
        split; [reflexivity|]. intros [X|X]; [congruence|contradiction].
      * intros (E & I). destruct n as [|x n]; cbn [app] in E; [injection E as -> _; congruence|]. injection E as <- E.
        assert (K : to_brace s = Some (n, t)) by (apply IH; split; [exact E|intros X; apply I; right; exact X]). rewrite K. reflexivity.
Qed.
Lemma existsb_in : forall k l, existsb (fun c => c =? k) l = true <-> In k l.
Proof.
  intros k l. rewrite existsb_exists. split; [intros (x & I & E); apply Z.eqb_eq in E; subst; assumption|intros I; exists k; split; [assumption|apply Z.eqb_refl]].
Qed.
Lemma lookup_iff : forall keys k v, lookup keys k = Some v <-> value_of keys k v.
Proof.
  intros keys k v. unfold lookup, value_of. induction keys as [|(ks, w) keys IH]; cbn [find fst].
  - split; [discriminate|]. intros (pre & ks & post & E & _). destruct pre; discriminate.
  - destruct (existsb (fun c => c =? k) ks) eqn:E.
    + apply existsb_in in E. cbn [snd]. split.
      * intros X. injection X as <-. exists [], ks, keys. splits; auto.
      * intros (pre & ks' & post & X & I & N). destruct pre as [|p pre]; cbn [app] in X; [injection X as _ -> _; reflexivity|].
        injection X as <- _. exfalso. apply (N (ks, w)); [left; reflexivity|exact E].
    + assert (N0 : ~ In k ks) by (intros X; apply existsb_in in X; congruence). rewrite IH. split.
      * intros (pre & ks' & post & X & I & N). exists ((ks, w) :: pre), ks', post. splits; [rewrite X; reflexivity|assumption|].
        intros x [<- | J]; [exact N0|apply N; exact J].
      * intros (pre & ks' & post & X & I & N). destruct pre as [|p pre]; cbn [app] in X; [injection X as -> _ _; contradiction|].
        injection X as _ X. exists pre, ks', post. splits; auto. intros x J. apply N. right. exact J.
Qed.
Lemma emit_some : forall v o m t, emit v o = Some (m, t) <-> exists t', o = Some (m, t') /\ t = v ++ t'.
Proof.
  intros v [(m', t')|] m t; cbn [emit]; split.
  - intros H. injection H as <- <-. exists t'. auto.
  - intros (x & E & ->). injection E as -> ->. reflexivity.
  - discriminate.
  - intros (x & E & _). discriminate.
Qed.
Lemma missing_some : forall o m t, missing o = Some (m, t) <-> m = true /\ exists m', o = Some (m', t).
Proof.
  intros [(m', t')|] m t; cbn [missing]; split.
  - intros H. injection H as <- <-. eauto.
  - intros (-> & x & E). injection E as _ ->. reflexivity.
  - discriminate.
  - intros (_ & x & E). discriminate.
Qed.
Lemma expand_sound : forall env d p keys fuel s m o, expand env fuel d p keys s = Some (m, o) -> stands_for env d p keys s m o.
Proof.
  intros env d p keys fuel. induction fuel as [|fuel IH]; intros s m o H; cbn [expand] in H; [discriminate|].
  destruct s as [|c r]; [injection H as <- <-; constructor|].
  destruct (d && (c =? 36) && (hd 0 r =? 123)) eqn:V.
  - apply andb_true_iff in V. destruct V as (V & V3). apply andb_true_iff in V. destruct V as (V1 & V2).
    apply Z.eqb_eq in V2. apply Z.eqb_eq in V3. subst c. destruct r as [|x r]; [discriminate|]. cbn [hd] in V3. subst x. cbn [tl] in H.
    destruct (to_brace r) as [(name, r')|] eqn:B; [|discriminate]. apply brace_iff in B. destruct B as (-> & NB).
    destruct (Z.eqb_spec (zlen name) 0) as [Z0|Z0]; [discriminate|]. assert (NN : name <> []) by (intros ->; apply Z0; reflexivity).
    destruct (env name) as [v|] eqn:E.
    + apply emit_some in H. destruct H as (t' & H & ->). apply (sf_set env d p keys name v r' m t'); auto.
    + apply missing_some in H. destruct H as (-> & m' & H). apply (sf_unset env d p keys name r' m' o); auto.
  - assert (W : d = true -> c = 36 -> forall t, r <> 123 :: t).
    { intros -> -> t ->. cbn [hd] in V. discriminate V. }
    destruct (negb (c =? 37) || negb p) eqn:L.
    + apply emit_some in H. destruct H as (t' & H & ->). apply (sf_other env d p keys c r m t'); auto.
      intros -> ->. discriminate L.
    + apply orb_false_iff in L. destruct L as (L1 & L2). apply negb_false_iff in L1. apply negb_false_iff in L2. apply Z.eqb_eq in L1. subst c.
      destruct r as [|k r]; [discriminate|]. destruct (Z.eqb_spec k 37) as [-> | K].
      * apply emit_some in H. destruct H as (t' & H & ->). apply (sf_percent env d p keys r m t'); auto.
      * destruct (lookup keys k) as [v|] eqn:E; [|discriminate]. apply lookup_iff in E. apply emit_some in H. destruct H as (t' & H & ->).
        apply (sf_key env d p keys k v r m t'); auto.
Qed.
Lemma expand_complete : forall env d p keys s m o, stands_for env d p keys s m o -> forall fuel, (length s < fuel)%nat -> expand env fuel d p keys s = Some (m, o).
Proof.
  intros env d p keys s m o H. induction H as [|name v r m o D N B E H IH|name r m o D N B E H IH|r m o P H IH|k v r m o P K V H IH|c r m o P D H IH];
    intros fuel L; (destruct fuel as [|fuel]; [lia|]); cbn [expand app].
  - reflexivity.
  - subst d. cbn [andb hd tl]. change (36 =? 36) with true. change (123 =? 123) with true. cbn [andb].
    assert (T : to_brace (name ++ 125 :: r) = Some (name, r)) by (apply brace_iff; auto). rewrite T.
    replace (zlen name =? 0) with false by (symmetry; apply Z.eqb_neq; intros X; apply zlen_zero_nil in X; contradiction).
    rewrite E. apply emit_some. exists o. split; [|reflexivity]. apply IH. cbn [length app] in L. rewrite app_length in L. cbn [length] in L. lia.
  - subst d. cbn [andb hd tl]. change (36 =? 36) with true. change (123 =? 123) with true. cbn [andb].
    assert (T : to_brace (name ++ 125 :: r) = Some (name, r)) by (apply brace_iff; auto). rewrite T.
    replace (zlen name =? 0) with false by (symmetry; apply Z.eqb_neq; intros X; apply zlen_zero_nil in X; contradiction).
    rewrite E. apply missing_some. split; [reflexivity|]. exists m. apply IH. cbn [length app] in L. rewrite app_length in L. cbn [length] in L. lia.
  - subst p. change (37 =? 36) with false. change (37 =? 37) with true. rewrite andb_false_r. cbn [andb negb orb].
    apply emit_some. exists o. split; [|reflexivity]. apply IH. cbn [length app] in L. lia.
  - subst p. change (37 =? 36) with false. change (37 =? 37) with true. rewrite andb_false_r. cbn [andb negb orb].
    replace (k =? 37) with false by (symmetry; apply Z.eqb_neq; assumption). apply lookup_iff in V. rewrite V.
    apply emit_some. exists o. split; [|reflexivity]. apply IH. cbn [length app] in L. lia.
  - replace (d && (c =? 36) && (hd 0 r =? 123)) with false.
    + replace (negb (c =? 37) || negb p) with true.
      * apply emit_some. exists o. split; [|reflexivity]. apply IH. cbn [length app] in L. lia.
      * symmetry. destruct p; [|apply orb_true_r]. specialize (P eq_refl). replace (c =? 37) with false by (symmetry; apply Z.eqb_neq; assumption). reflexivity.
    + symmetry. destruct d; [|reflexivity]. destruct (Z.eqb_spec c 36) as [-> | X]; [|reflexivity]. cbn [andb].
      destruct r as [|x r]; [reflexivity|]. cbn [hd]. apply Z.eqb_neq. intros ->. exact (D eq_refl eq_refl r eq_refl).
Qed.
Lemma expand_iff : forall env d p keys s m o, expand env (S (length s)) d p keys s = Some (m, o) <-> stands_for env d p keys s m o.
Proof. intros. split; [apply expand_sound|]. intros H. apply (expand_complete _ _ _ _ _ _ _ H). lia. Qed.

(** ** Values do not matter for the reading *)
Lemma same_value : forall a b k v, same_keys a b -> value_of a k v -> exists w, value_of b k w.
Proof.
  intros a b k v S H. apply lookup_iff in H. unfold same_keys in S.
  assert (K : lookup b k <> None).
  { revert b S H. unfold lookup. induction a as [|(ks, x) a IH]; intros b S H; [discriminate|]. destruct b as [|(ks', y) b]; [discriminate|].
    cbn [map fst] in S. injection S as <- S. cbn [find fst] in *. destruct (existsb (fun c => c =? k) ks); [discriminate|]. apply IH; assumption. }
  destruct (lookup b k) as [w|] eqn:E; [|congruence]. exists w. apply lookup_iff. exact E.
Qed.
Lemma reading : forall e f d p a b s m o, same_vars e f -> same_keys a b -> stands_for e d p a s m o -> exists o', stands_for f d p b s m o'.
Proof.
  intros e f d p a b s m o V K H. induction H as [|name v r m o D N B E H IH|name r m o D N B E H IH|r m o P H IH|k v r m o P X Y H IH|c r m o P D H IH].
  - exists []. constructor.
  - destruct IH as (o' & IH). destruct (f name) as [w|] eqn:F; [|apply V in F; congruence]. exists (w ++ o'). apply sf_set; auto.
  - destruct IH as (o' & IH). apply V in E. exists o'. apply (sf_unset f d p b name r m o'); auto.
  - destruct IH as (o' & IH). exists ([37] ++ o'). apply sf_percent; auto.
  - destruct IH as (o' & IH). destruct (same_value a b k v K Y) as (w & W). exists (w ++ o'). apply sf_key; auto.
  - destruct IH as (o' & IH). exists ([c] ++ o'). apply sf_other; auto.
Qed.
Lemma doubled_ok : forall env d keys s, d = false \/ no_variable s -> stands_for env d true keys (doubled s) false s.
Proof.
  intros env d keys s. induction s as [|c s IH]; intros N; [constructor|].
  assert (N' : d = false \/ no_variable s).
  { destruct N as [N|N]; [auto|]. right. intros a b ->. apply (N (c :: a) b). reflexivity. }
  specialize (IH N'). unfold doubled. cbn [flat_map]. fold (doubled s). destruct (Z.eqb_spec c 37) as [-> | C].
  - apply (sf_percent env d true keys (doubled s) false s); auto.
  - apply (sf_other env d true keys c (doubled s) false s); auto.
    intros D -> t E. destruct N as [N|N]; [congruence|]. destruct s as [|x s]; [discriminate|]. unfold doubled in E. cbn [flat_map] in E.
    destruct (Z.eqb_spec x 37) as [-> | X]; cbn [app] in E; [discriminate|]. injection E as -> _. apply (N [] s). reflexivity.
Qed.
