(** C85: a file that passes the check of StrictModes is in the hands of its user. *)
From Coq Require Import String.
From Verif Require Import Base Text SafepModel SafepSpec SafepProof.
Local Open Scope Z_scope.

(** The check passes exactly if the file is regular and it and every directory above it,
    up to the home directory if that is one of them, is owned by the user or the system
    and not writable by group or others *)
Theorem C85_exact : forall sys stat p s home uid, p <> [] ->
  (safe_path sys stat (Some p) s home uid = true <->
   st_reg s = true /\ kept sys uid s /\
   forall d, above d p -> (forall h, home = Some h -> above h p -> ~ above d h) -> exists s', stat d = Some s' /\ kept sys uid s').
Proof.
  intros sys stat p s home uid P. unfold safe_path.
  destruct (exists_last P) as (dir & last & ->). rewrite rev_app_distr. cbn [rev app tl].
  assert (Ab : forall d, above d (dir ++ [last]) <-> at_or_above d dir).
  { intros d. split.
    - intros (r & R & E). destruct (exists_last R) as (r' & l & ->). rewrite app_assoc in E. apply app_inj_tail in E. destruct E as (E & _). exists r'. exact E.
    - intros (r & E). exists (r ++ [last]). split; [destruct r; discriminate|]. rewrite E, app_assoc. reflexivity. }
  destruct (st_reg s) eqn:R; cbn [negb]; [|split; [discriminate|intros (X & _); discriminate]].
  destruct (bad sys uid s) eqn:B.
  - split; [discriminate|]. intros (_ & K & _). apply bad_iff in K. congruence.
  - apply bad_iff in B. rewrite walk_iff, rev_involutive. split.
    + intros H. splits; auto. intros d A N. apply H; [apply Ab; exact A|]. intros h E Ah. apply N; [exact E|apply Ab; exact Ah].
    + intros (_ & _ & H) d A N. apply H; [apply Ab; exact A|]. intros h E Ah. apply N; [exact E|apply Ab; exact Ah].
Qed.
Print Assumptions C85_exact.

(** What has no canonical path does not pass *)
Theorem C85_no_path : forall sys stat s home uid, safe_path sys stat None s home uid = false.
Proof. reflexivity. Qed.
Print Assumptions C85_no_path.

(** After a check up to the root, or with directories above the home directory that
    others cannot change either, nothing that others do, in any number of steps, changes
    the file, what its path leads to, or the outcome of the check *)
Theorem C85_kept : forall sys uid p s x home t t', p <> [] -> t p = Some (s, x) ->
  safe_path sys (stat_of t) (Some p) s home uid = true ->
  (forall h d, home = Some h -> above h p -> above d h -> exists s', stat_of t d = Some s' /\ kept sys uid s') ->
  others sys uid t t' ->
  t' p = Some (s, x) /\ (forall d, above d p -> t' d = t d) /\ safe_path sys (stat_of t') (Some p) s home uid = true.
Proof.
  intros sys uid p s x home t t' P E H Hh O. pose proof H as H0. apply C85_exact in H; [|assumption]. destruct H as (R & K & H).
  assert (All : forall d, at_or_above d p -> exists s' x', t d = Some (s', x') /\ kept sys uid s').
  { intros d (e & D). destruct e as [|y e]; [rewrite app_nil_r in D; subst d; exists s, x; auto|].
    assert (A : above d p) by (exists (y :: e); split; [discriminate|exact D]).
    assert (X : exists s', stat_of t d = Some s' /\ kept sys uid s').
    { destruct home as [h|].
      - assert (Dec : (above h p /\ above d h) \/ ~ (above h p /\ above d h)).
        { assert (P1 : forall a b : path, above a b \/ ~ above a b).
          { intros a b. destruct (path_eqb (firstn (length a) b) a) eqn:F.
            - apply path_eqb_eq in F. destruct (skipn (length a) b) as [|z r] eqn:G.
              + right. intros (r & Nr & ->). rewrite skipn_app, skipn_all, Nat.sub_diag in G. cbn [skipn app] in G. contradiction.
              + left. exists (z :: r). split; [discriminate|]. rewrite <- G. rewrite <- F at 1. symmetry. apply firstn_skipn.
            - right. intros (r & _ & ->). rewrite firstn_app, firstn_all, Nat.sub_diag in F. cbn [firstn] in F. rewrite app_nil_r in F.
              assert (Y : path_eqb a a = true) by (apply path_eqb_eq; reflexivity). congruence. }
          destruct (P1 h p), (P1 d h); tauto. }
        destruct Dec as [(A1 & A2) | N]; [apply (Hh h d eq_refl A1 A2)|]. apply H; [exact A|]. intros h' Eh A1 A2. injection Eh as <-. apply N. auto.
      - apply H; [exact A|]. intros h Eh. discriminate. }
    destruct X as (s' & X & Kx). unfold stat_of in X. destruct (t d) as [(s1, x1)|]; [|discriminate]. injection X as ->. exists s', x1. auto. }
  pose proof (others_keep sys uid p t t' O All) as Same.
  assert (Pp : at_or_above p p) by (exists []; rewrite app_nil_r; reflexivity).
  assert (Up : forall d, above d p -> at_or_above d p) by (intros d (r & _ & Er); exists r; exact Er).
  splits.
  - rewrite (Same p Pp). exact E.
  - intros d A. apply Same. apply Up. exact A.
  - apply C85_exact; [assumption|]. splits; auto. intros d A N. destruct (H d A N) as (s' & Es & Ks). exists s'. split; [|exact Ks].
    unfold stat_of in *. rewrite (Same d (Up d A)). exact Es.
Qed.
Print Assumptions C85_kept.

(** ** Examples *)
Definition root_only (u : Z) : bool := u =? 0.
Definition dir (u m : Z) : option (st * list Z) := Some (mkSt u u m false, []).
Definition keyfile : st := mkSt 1000 1000 384 true.
(** /h, /h/joe, /h/joe/keys; the mode of /h is [m] *)
Definition tr (m : Z) : tree := fun p =>
  if path_eqb p [] then dir 0 493 else if path_eqb p [bs "h"] then dir 0 m
  else if path_eqb p [bs "h"; bs "joe"] then dir 1000 493
  else if path_eqb p [bs "h"; bs "joe"; bs "keys"] then Some (keyfile, bs "key") else None.
Example C85_runs :
  safe_path root_only (stat_of (tr 493)) (Some [bs "h"; bs "joe"; bs "keys"]) keyfile (Some [bs "h"; bs "joe"]) 1000 = true /\
  safe_path root_only (stat_of (tr 509)) (Some [bs "h"; bs "joe"; bs "keys"]) keyfile None 1000 = false /\
  safe_path root_only (stat_of (tr 493)) (Some [bs "h"; bs "joe"; bs "keys"]) keyfile None 1001 = false.
Proof. splits; reflexivity. Qed.

(** Refuted: that a file that passes is safe whatever the directories above the home
    directory are like.  They are not looked at: with /h writable by all, user 1001 puts
    another directory in the place of /h/joe *)
Theorem C85_above_home_refuted : exists t t', 
  safe_path root_only (stat_of t) (Some [bs "h"; bs "joe"; bs "keys"]) keyfile (Some [bs "h"; bs "joe"]) 1000 = true /\
  t [bs "h"; bs "joe"; bs "keys"] = Some (keyfile, bs "key") /\ others root_only 1000 t t' /\
  t' [bs "h"; bs "joe"; bs "keys"] = Some (keyfile, bs "evil").
Proof.
  exists (tr 511), (fun q => if path_eqb q [bs "h"; bs "joe"; bs "keys"] then Some (keyfile, bs "evil") else tr 511 q). splits; try reflexivity.
  apply (o_act root_only 1000 1001 (fun _ => False) _ (fun q => if path_eqb q [bs "h"; bs "joe"; bs "keys"] then Some (keyfile, bs "evil") else tr 511 q));
    [lia|lia|reflexivity| |constructor].
  apply (a_entry 1001 _ (tr 511) [bs "h"] (bs "joe") (mkSt 0 0 511 false) []).
  - reflexivity.
  - right. right. right. splits; [cbn; lia|intros []|reflexivity].
  - intros q N. destruct (path_eqb q [bs "h"; bs "joe"; bs "keys"]) eqn:Q; [|reflexivity]. apply path_eqb_eq in Q. subst q. exfalso. apply N. exists [bs "keys"]. reflexivity.
Qed.
Print Assumptions C85_above_home_refuted.
(** The hypotheses of C85_kept hold of /h/joe/keys with the usual modes, and others do
    have something to do: with /h/tmp writable by all, user 1001 makes a file there *)
Definition tr2 : tree := fun p => if path_eqb p [bs "h"; bs "tmp"] then dir 0 1023 else tr 493 p.
Example C85_met :
  tr2 [bs "h"; bs "joe"; bs "keys"] = Some (keyfile, bs "key") /\
  safe_path root_only (stat_of tr2) (Some [bs "h"; bs "joe"; bs "keys"]) keyfile (Some [bs "h"; bs "joe"]) 1000 = true /\
  (forall h d, Some [bs "h"; bs "joe"] = Some h -> above h [bs "h"; bs "joe"; bs "keys"] -> above d h -> exists s', stat_of tr2 d = Some s' /\ kept root_only 1000 s') /\
  others root_only 1000 tr2 (fun q => if path_eqb q [bs "h"; bs "tmp"; bs "f"] then Some (mkSt 1001 1001 420 true, bs "x") else tr2 q).
Proof.
  splits; try reflexivity.
  - intros h d E _ (r & R & D). injection E as <-. destruct d as [|a d]; cbn [app] in D.
    + exists (mkSt 0 0 493 false). split; [reflexivity|]. apply bad_iff. reflexivity.
    + injection D as <- D. destruct d as [|b d]; cbn [app] in D.
      * exists (mkSt 0 0 493 false). split; [reflexivity|]. apply bad_iff. reflexivity.
      * injection D as <- D. destruct d as [|c d]; cbn [app] in D; [subst r; congruence|discriminate].
  - apply (o_act root_only 1000 1001 (fun _ => False) _ (fun q => if path_eqb q [bs "h"; bs "tmp"; bs "f"] then Some (mkSt 1001 1001 420 true, bs "x") else tr2 q));
      [lia|lia|reflexivity| |constructor].
    apply (a_entry 1001 _ tr2 [bs "h"; bs "tmp"] (bs "f") (mkSt 0 0 1023 false) []).
    + reflexivity.
    + right. right. right. splits; [cbn; lia|intros []|reflexivity].
    + intros q N. destruct (path_eqb q [bs "h"; bs "tmp"; bs "f"]) eqn:Q; [|reflexivity]. apply path_eqb_eq in Q. subst q. exfalso. apply N. exists []. reflexivity.
Qed.
