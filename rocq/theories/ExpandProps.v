(** C84: tokens and variables in configuration strings are expanded once, and values are
    never read as templates. *)
From Coq Require Import String.
From Verif Require Import Base Text ExpandModel ExpandSpec ExpandProof.
Local Open Scope Z_scope.

(** The result is exactly what the template stands for *)
Theorem C84_exact : forall env d p keys s v, p = false \/ 1 <= zlen keys <= 64 ->
  (vexpand env d p keys s = XStr v <-> stands_for env d p keys s false v) /\
  (vexpand env d p keys s = XNull <-> exists o, stands_for env d p keys s true o) /\
  (vexpand env d p keys s = XError <-> ~ exists m o, stands_for env d p keys s m o) /\
  vexpand env d p keys s <> XFatal.
Proof.
  intros env d p keys s v K. unfold vexpand.
  replace (p && ((64 <? zlen keys) || (zlen keys =? 0))) with false.
  2: { symmetry. destruct p; [|reflexivity]. destruct K as [K|K]; [discriminate|]. cbn [andb]. apply orb_false_iff. split; [apply Z.ltb_ge; lia|apply Z.eqb_neq; lia]. }
  destruct (expand env (S (length s)) d p keys s) as [([], o)|] eqn:E.
  - assert (F : forall m o', stands_for env d p keys s m o' -> m = true /\ o' = o) by (intros m o' H; apply expand_iff in H; rewrite E in H; injection H as <- <-; auto).
    apply expand_iff in E. splits.
    + split; [discriminate|]. intros H. apply F in H. destruct H. discriminate.
    + split; [intros _; exists o; exact E|reflexivity].
    + split; [discriminate|]. intros N. exfalso. apply N. eauto.
    + discriminate.
  - assert (F : forall m o', stands_for env d p keys s m o' -> m = false /\ o' = o) by (intros m o' H; apply expand_iff in H; rewrite E in H; injection H as <- <-; auto).
    apply expand_iff in E. splits.
    + split; [intros H; injection H as <-; exact E|]. intros H. apply F in H. destruct H as (_ & ->). reflexivity.
    + split; [discriminate|]. intros (o' & H). apply F in H. destruct H. discriminate.
    + split; [discriminate|]. intros N. exfalso. apply N. eauto.
    + discriminate.
  - assert (F : forall m o', ~ stands_for env d p keys s m o') by (intros m o' H; apply expand_iff in H; congruence).
    splits.
    + split; [discriminate|]. intros H. apply F in H. contradiction.
    + split; [discriminate|]. intros (o' & H). apply F in H. contradiction.
    + split; [intros _ (m & o & H); apply F in H; exact H|reflexivity].
    + discriminate.
Qed.
Print Assumptions C84_exact.

(** A template stands for one thing *)
Theorem C84_one_reading : forall env d p keys s m o m' o', stands_for env d p keys s m o -> stands_for env d p keys s m' o' -> m = m' /\ o = o'.
Proof. intros env d p keys s m o m' o' H H'. apply expand_iff in H. apply expand_iff in H'. rewrite H in H'. injection H' as <- <-. auto. Qed.
Print Assumptions C84_one_reading.

(** Whatever the values of tokens and variables are, the template is read the same way:
    no value can cause or prevent an error *)
Theorem C84_values : forall e f d p a b s, same_vars e f -> same_keys a b ->
  match vexpand e d p a s, vexpand f d p b s with
  | XStr _, XStr _ | XNull, XNull | XError, XError | XFatal, XFatal => True
  | _, _ => False
  end.
Proof.
  intros e f d p a b s V K. unfold vexpand.
  assert (L : zlen a = zlen b) by (unfold zlen; rewrite <- (map_length fst a), <- (map_length fst b), K; reflexivity).
  rewrite L. destruct (p && ((64 <? zlen b) || (zlen b =? 0))); [exact I|].
  destruct (expand e (S (length s)) d p a s) as [(m, o)|] eqn:E.
  - apply expand_iff in E. destruct (reading e f d p a b s m o V K E) as (o' & F). apply expand_iff in F. rewrite F. destruct m; exact I.
  - destruct (expand f (S (length s)) d p b s) as [(m, o)|] eqn:F; [|exact I]. apply expand_iff in F.
    assert (V' : same_vars f e) by (intros n; symmetry; apply V). assert (K' : same_keys b a) by (symmetry; exact K).
    destruct (reading f e d p b a s m o V' K' F) as (o' & G). apply expand_iff in G. congruence.
Qed.
Print Assumptions C84_values.

(** Doubling the percent signs protects any string *)
Theorem C84_doubled : forall env keys s, 1 <= zlen keys <= 64 ->
  percent_expand env keys (doubled s) = XStr s /\ (no_variable s -> percent_dollar_expand env keys (doubled s) = XStr s).
Proof.
  intros env keys s K. split.
  - unfold percent_expand. rewrite (proj2 (proj1 (C84_exact env false true keys (doubled s) s (or_intror K)))); [reflexivity|]. apply doubled_ok. auto.
  - intros N. unfold percent_dollar_expand. rewrite (proj2 (proj1 (C84_exact env true true keys (doubled s) s (or_intror K)))); [reflexivity|]. apply doubled_ok. auto.
Qed.
Print Assumptions C84_doubled.

(** Values are put in as they are, at the front and anywhere else, even if they hold
    percent signs and variables themselves *)
Theorem C84_verbatim : forall env keys k v r o, 1 <= zlen keys <= 64 -> k <> 37 -> value_of keys k v ->
  percent_dollar_expand env keys r = XStr o -> percent_dollar_expand env keys ([37; k] ++ r) = XStr (v ++ o).
Proof.
  intros env keys k v r o K N V H. unfold percent_dollar_expand in *.
  destruct (vexpand env true true keys r) eqn:E; try discriminate. injection H as ->.
  apply (proj1 (C84_exact env true true keys r o (or_intror K))) in E.
  rewrite (proj2 (proj1 (C84_exact env true true keys ([37; k] ++ r) (v ++ o) (or_intror K)))); [reflexivity|]. apply sf_key; auto.
Qed.
Print Assumptions C84_verbatim.

(** With variables only, percent signs are plain; with tokens only, dollars are *)
Theorem C84_plain : forall env keys s, 1 <= zlen keys <= 64 ->
  (no_variable s -> dollar_expand env s = XStr s) /\ (~ In 37 s -> percent_expand env keys s = XStr s).
Proof.
  intros env keys s K. split.
  - intros N. unfold dollar_expand. apply C84_exact; [auto|]. induction s as [|c s IH]; [constructor|].
    apply (sf_other env true false [] c s false s).
    + discriminate.
    + intros _ -> t ->. apply (N [] t). reflexivity.
    + apply IH. intros a b ->. apply (N (c :: a) b). reflexivity.
  - intros N. unfold percent_expand. rewrite (proj2 (proj1 (C84_exact env false true keys s s (or_intror K)))); [reflexivity|].
    induction s as [|c s IH]; [constructor|]. apply (sf_other env false true keys c s false s).
    + intros _ ->. apply N. left. reflexivity.
    + discriminate.
    + apply IH. intros X. apply N. right. exact X.
Qed.
Print Assumptions C84_plain.

(** ** Examples *)
Definition env1 (n : list Z) : option (list Z) := if beqb n (bs "HOME") then Some (bs "/h/%u") else None.
Definition keys1 : list (list Z * list Z) := [(bs "h", bs "${HOME}%h"); (bs "ru", bs "joe")].
Example C84_runs :
  percent_dollar_expand env1 keys1 (bs "${HOME}/%u@%h 100%% $x") = XStr (bs "/h/%u/joe@${HOME}%h 100% $x") /\
  percent_dollar_expand env1 keys1 (bs "${NO}") = XNull /\ percent_dollar_expand env1 keys1 (bs "%x") = XFatal /\ dollar_expand env1 (bs "%x ${HOME") = XError /\
  percent_expand env1 keys1 (bs "${HOME}%r") = XStr (bs "${HOME}joe") /\ value_of keys1 117 (bs "joe").
Proof.
  splits; try reflexivity. exists [(bs "h", bs "${HOME}%h")], (bs "ru"), []. splits; [reflexivity|cbn; tauto|].
  intros x [<- | []]. cbn. intros [X|[]]. discriminate X.
Qed.
