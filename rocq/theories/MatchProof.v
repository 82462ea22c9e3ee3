From Coq Require Import String Permutation.
From Verif Require Import Base Text MatchModel MatchSpec.

(** ** match_pattern *)
Lemma glob_nil_inv : forall s, glob [] s -> s = [].
Proof. intros s H. now inversion H. Qed.
Lemma glob_star_inv : forall p s, glob (42 :: p) s -> exists a b, s = a ++ b /\ glob p b.
Proof. intros p s H. inversion H; subst; eauto. congruence. Qed.
Lemma glob_star_any : forall p a s, glob p s -> glob (42 :: p) (a ++ s).
Proof. intros. now constructor. Qed.
Lemma glob_quest_inv : forall p s, glob (63 :: p) s -> exists x r, s = x :: r /\ glob p r.
Proof. intros p s H. inversion H; subst; eauto. Qed.
Lemma glob_char_inv : forall c p s, c <> 42 -> c <> 63 -> glob (c :: p) s -> exists r, s = c :: r /\ glob p r.
Proof. intros c p s H1 H2 H. inversion H; subst; try congruence. eauto. Qed.
Lemma glob_star_cons : forall p x s, glob (42 :: p) s -> glob (42 :: p) (x :: s).
Proof. intros p x s H. apply glob_star_inv in H. destruct H as (a & b & -> & H). apply (glob_star p (x :: a) b H). Qed.

Lemma mp_glob : forall n p s, (length p <= n)%nat -> (mp p s = true <-> glob p s).
Proof.
  induction n as [|n IH]; intros p s Hl.
  { destruct p; [|cbn in Hl; lia]. cbn. destruct s; cbn; split; intros H; try constructor; try discriminate. now inversion H. }
  destruct p as [|c p'].
  { cbn. destruct s; cbn; split; intros H; try constructor; try discriminate. now inversion H. }
  cbn [length] in Hl. cbn [mp]. destruct (c =? STAR) eqn:Ec.
  - assert (c = 42) by (unfold STAR in *; lia). subst c. destruct p' as [|d p''].
    { split; [intros _|reflexivity]. rewrite <- (app_nil_r s). repeat constructor. }
    cbn [length] in Hl.
    destruct (d =? STAR) eqn:Ed.
    + assert (d = 42) by (unfold STAR in *; lia). subst d. rewrite IH by (cbn; lia). split; intros H.
      * apply (glob_star (42 :: p'') [] s H).
      * apply glob_star_inv in H. destruct H as (a & b & -> & H). apply glob_star_inv in H. destruct H as (a' & b' & -> & H).
        rewrite app_assoc. now constructor.
    + destruct (d =? QUEST) eqn:Eq; cbn [negb].
      * assert (d = 63) by (unfold QUEST in *; lia). subst d.
        induction s as [|x s IHs].
        { split; [discriminate|]. intros H. apply glob_star_inv in H. destruct H as (a & b & E & H).
          symmetry in E. apply app_eq_nil in E. destruct E as [-> ->]. apply glob_quest_inv in H. now destruct H as (x & r & [=] & _). }
        destruct (mp (63 :: p'') (x :: s)) eqn:Em.
        { split; [intros _|reflexivity]. apply (glob_star _ [] (x :: s)). apply IH; [cbn; lia|assumption]. }
        rewrite IHs. split; intros H; [now apply glob_star_cons|].
        apply glob_star_inv in H. destruct H as (a & b & E & H). destruct a as [|y a]; cbn in E.
        { subst b. apply IH in H; [congruence|cbn; lia]. }
        inversion E; subst. now constructor.
      * assert (d <> 42 /\ d <> 63) as [D1 D2] by (unfold STAR, QUEST in *; lia).
        induction s as [|x s IHs].
        { split; [discriminate|]. intros H. apply glob_star_inv in H. destruct H as (a & b & E & H).
          symmetry in E. apply app_eq_nil in E. destruct E as [-> ->]. apply glob_char_inv in H; auto. now destruct H as (r & [=] & _). }
        destruct ((x =? d) && mp p'' s) eqn:Em.
        { split; [intros _|reflexivity]. apply andb_true_iff in Em. destruct Em as [E1 E2]. assert (x = d) by lia. subst x.
          apply (glob_star _ [] (d :: s)). constructor; auto. apply IH; [lia|assumption]. }
        rewrite IHs. split; intros H; [now apply glob_star_cons|].
        apply glob_star_inv in H. destruct H as (a & b & E & H). destruct a as [|y a]; cbn in E.
        { subst b. apply glob_char_inv in H; auto. destruct H as (r & [= -> ->] & H). rewrite Z.eqb_refl in Em. cbn in Em.
          apply IH in H; [congruence|lia]. }
        inversion E; subst. now constructor.
  - assert (c <> 42) by (unfold STAR in *; lia).
    destruct (c =? QUEST) eqn:Eq; cbn [negb andb].
    + assert (c = 63) by (unfold QUEST in *; lia). subst c. destruct s as [|x s].
      { split; [discriminate|]. intros H1. apply glob_quest_inv in H1. now destruct H1 as (y & r & [=] & _). }
      rewrite IH by lia. split; intros H1; [now constructor|]. apply glob_quest_inv in H1. destruct H1 as (y & r & [= -> ->] & H1). assumption.
    + assert (c <> 63) by (unfold QUEST in *; lia). destruct s as [|x s].
      { split; [discriminate|]. intros H1. apply glob_char_inv in H1; auto. now destruct H1 as (r & [=] & _). }
      destruct (c =? x) eqn:Ex; cbn [negb].
      * assert (c = x) by lia. subst x. rewrite IH by lia. split; intros H1; [now constructor|].
        apply glob_char_inv in H1; auto. destruct H1 as (r & [= ->] & H1). assumption.
      * split; [discriminate|]. intros H1. apply glob_char_inv in H1; auto. destruct H1 as (r & [= -> _] & _). lia.
Qed.

Lemma match_pattern_glob : forall s p, match_pattern s p = true <-> glob p s.
Proof. intros. apply (mp_glob (length p)). lia. Qed.
Lemma match_pattern_glob_f : forall s p, match_pattern s p = false <-> ~ glob p s.
Proof.
  intros. rewrite <- match_pattern_glob. destruct (match_pattern s p); split; congruence.
Qed.

(** ** Pattern lists *)
Lemma split_break : forall c l, (free_of c l /\ split c l = [l]) \/
  (exists f r, l = f ++ c :: r /\ free_of c f /\ split c l = f :: split c r).
Proof.
  intros c l. induction l as [|x r IH]; [left; split; [intros []|reflexivity]|].
  destruct (x =? c) eqn:E.
  - right. exists [], r. assert (x = c) by lia. subst. cbn. rewrite Z.eqb_refl. splits; auto. intros [].
  - destruct IH as [[H1 H2]|(f & r' & -> & H1 & H2)].
    + left. split; [intros [H|H]; [lia|contradiction]|]. cbn. now rewrite E, H2.
    + right. exists (x :: f), r'. splits; auto; [intros [H|H]; [lia|contradiction]|]. cbn [app split]. now rewrite E, H2.
Qed.
Lemma drop_last_empty_cons : forall f c r, drop_last_empty (f :: split c r) = f :: drop_last_empty (split c r).
Proof. intros f c r. destruct (split_cons c r) as (g & gs & ->). reflexivity. Qed.

(** Structural description of the entries. *)
Lemma entries_nil : entries [] = [].
Proof. reflexivity. Qed.
Lemma entries_single : forall p, p <> [] -> free_of 44 p -> entries p = [p].
Proof. intros p Hp H. unfold entries. rewrite split_single by assumption. destruct p; [congruence|reflexivity]. Qed.
Lemma entries_app : forall f r, free_of 44 f -> entries (f ++ 44 :: r) = f :: entries r.
Proof. intros f r H. unfold entries. rewrite split_app by assumption. apply drop_last_empty_cons. Qed.

Lemma take_sub_short : forall n d f r, free_of 44 f -> (length f < n)%nat ->
  (r = [] \/ exists r', r = 44 :: r') ->
  take_sub n d (f ++ r) = (fold_case d f, r).
Proof.
  induction n as [|n IH]; intros d f r Hf Hl Hr; [lia|]. destruct f as [|x f].
  - cbn [app]. unfold fold_case. destruct Hr as [->|(r' & ->)]; destruct d; reflexivity.
  - cbn [app take_sub]. unfold COMMA. destruct (x =? 44) eqn:E; [exfalso; apply Hf; left; lia|].
    rewrite IH; auto; [|intros H; apply Hf; now right|cbn in Hl; lia]. unfold fold_case. destruct d; reflexivity.
Qed.
Lemma take_sub_long : forall n d f r, free_of 44 f -> (n <= length f)%nat ->
  length (fst (take_sub n d (f ++ r))) = n.
Proof.
  induction n as [|n IH]; intros d f r Hf Hl; [reflexivity|]. destruct f as [|x f]; [cbn in Hl; lia|].
  cbn [app take_sub]. unfold COMMA. destruct (x =? 44) eqn:E; [exfalso; apply Hf; left; lia|].
  specialize (IH d f r). destruct (take_sub n d (f ++ r)). cbn in *. rewrite IH; auto; [|lia]. intros H; apply Hf; now right.
Qed.

(** The list matcher on the list of entries. *)
Fixpoint mpl_spec (s : list Z) (d got : bool) (es : list (list Z)) : Z :=
  match es with
  | [] => if got then 1 else 0
  | e :: r =>
      if 1023 <=? zlen (body e) then 0
      else if match_pattern s (fold_case d (body e)) then
             if negative e then -1 else mpl_spec s d true r
           else mpl_spec s d got r
  end.

Lemma fold_case_len : forall d f, length (fold_case d f) = length f.
Proof. intros. unfold fold_case. destruct d; [apply map_length|reflexivity]. Qed.

Lemma body_free : forall f, free_of 44 f -> free_of 44 (body f).
Proof.
  intros f H. unfold body. destruct (negative f); [|assumption]. destruct f; [assumption|]. intros Hi. apply H. now right.
Qed.

Lemma mpl_entries : forall n s p d got, (length p < n)%nat -> mpl n s p d got = Some (mpl_spec s d got (entries p)).
Proof.
  induction n as [|n IH]; intros s p d got Hn; [lia|]. cbn [mpl].
  destruct p as [|c p]; [reflexivity|].
  assert (Hcase : exists f r, c :: p = f ++ r /\ free_of 44 f /\ (r = [] \/ exists r', r = 44 :: r') /\
      entries (c :: p) = f :: entries (match r with [] => [] | _ :: r' => r' end) /\ (r = [] -> f <> [])).
  { destruct (split_break 44 (c :: p)) as [[H _]|(f & r & E & H & _)].
    - exists (c :: p), []. rewrite app_nil_r. splits; auto; [|discriminate]. rewrite entries_single; [reflexivity|discriminate|assumption].
    - exists f, (44 :: r). splits; auto; [eauto|rewrite E; now apply entries_app|discriminate]. }
  destruct Hcase as (f & r & E & Hf & Hr & He & Hne). rewrite He. cbn [mpl_spec].
  assert (Hp1 : (if c =? BANG then p else c :: p) = body f ++ r /\ (c =? BANG) = negative f).
  { destruct f as [|x f].
    - cbn in E. destruct Hr as [->|(r' & ->)]; [exfalso; now apply Hne|]. inversion E; subst c r'.
      unfold BANG, body, negative. cbn. auto.
    - cbn in E. inversion E; subst x p. unfold BANG, body, negative. destruct (c =? 33); auto. }
  destruct Hp1 as [-> ->].
  set (rest' := match r with [] => [] | _ :: r' => r' end).
  assert (Hlen : (length rest' < n)%nat).
  { assert (length (c :: p) = length f + length r)%nat by (rewrite E; apply app_length). cbn [length] in H. unfold rest'.
    destruct Hr as [->|(r' & ->)]; cbn [length] in *; [|lia]. specialize (Hne eq_refl). destruct f; [congruence|]. cbn in H. lia. }
  pose proof (body_free _ Hf) as Hbf.
  destruct (1023 <=? zlen (body f)) eqn:Hlong.
  - pose proof (take_sub_long (Z.to_nat SUBMAX) d (body f) r Hbf) as HL. destruct (take_sub _ _ _) as [sub rest]. cbn [fst] in HL.
    unfold SUBMAX, zlen in *. rewrite HL by lia. reflexivity.
  - rewrite take_sub_short; auto; [|unfold SUBMAX, zlen in *; lia].
    unfold zlen, SUBMAX in *. rewrite fold_case_len. replace (1023 <=? Z.of_nat (length (body f))) with false by lia.
    assert (Hrest : (match r with d0 :: r' => if d0 =? COMMA then r' else r | [] => [] end) = rest').
    { unfold rest'. destruct Hr as [->|(r' & ->)]; reflexivity. }
    rewrite Hrest.
    destruct (match_pattern s (fold_case d (body f))); [destruct (negative f); [reflexivity|]|]; apply IH; assumption.
Qed.

Lemma match_pattern_list_entries : forall s p d, match_pattern_list s p d = Some (mpl_spec s d false (entries p)).
Proof. intros. unfold match_pattern_list. apply mpl_entries. lia. Qed.

Lemma mpl_spec_values : forall s d es got, mpl_spec s d got es = -1 \/ mpl_spec s d got es = 0 \/ mpl_spec s d got es = 1.
Proof.
  induction es as [|e es IH]; intros got; cbn [mpl_spec]; [destruct got; auto|].
  destruct (_ <=? _); [auto|]. destruct (match_pattern _ _); [destruct (negative e); auto|]; apply IH.
Qed.

(** Result when every entry fits. *)
Lemma mpl_spec_fits : forall s d es got, Forall fits es ->
  (mpl_spec s d got es = -1 <-> some_negative d s es) /\
  (mpl_spec s d got es = 1 <-> ~ some_negative d s es /\ (got = true \/ some_positive d s es)).
Proof.
  intros s d es. induction es as [|e es IH]; intros got Hf.
  - cbn. unfold some_negative, some_positive. split; split.
    + destruct got; discriminate.
    + intros (e & [] & _).
    + destruct got; [|discriminate]. intros _. split; [intros (e & [] & _)|auto].
    + intros [_ [->|(e & [] & _)]]. reflexivity.
  - inversion Hf; subst. cbn [mpl_spec]. unfold fits in H1.
    replace (1023 <=? zlen (body e)) with false by (unfold zlen; lia).
    assert (SN : some_negative d s (e :: es) <-> (negative e = true /\ covers d s e) \/ some_negative d s es).
    { unfold some_negative. split.
      - intros (x & [->|Hx] & A); [auto|right; eauto].
      - intros [[A B]|(x & Hx & A)]; [exists e; cbn; auto|exists x; cbn; auto]. }
    assert (SP : some_positive d s (e :: es) <-> (negative e = false /\ covers d s e) \/ some_positive d s es).
    { unfold some_positive. split.
      - intros (x & [->|Hx] & A); [auto|right; eauto].
      - intros [[A B]|(x & Hx & A)]; [exists e; cbn; auto|exists x; cbn; auto]. }
    rewrite SN, SP. fold (covers d s e) in *.
    destruct (match_pattern s (fold_case d (body e))) eqn:Em.
    + apply match_pattern_glob in Em. fold (covers d s e) in Em. destruct (negative e) eqn:En.
      * split; split; try discriminate; try tauto.
      * destruct (IH true H2) as [I1 I2]. rewrite I1, I2. split; split; intuition (auto; congruence).
    + apply match_pattern_glob_f in Em. fold (covers d s e) in Em. destruct (IH got H2) as [I1 I2]. rewrite I1, I2. split; split; tauto.
Qed.

(** Result when an entry does not fit. *)
Lemma mpl_spec_long : forall s d pre e post got, Forall fits pre -> ~ fits e ->
  (mpl_spec s d got (pre ++ e :: post) = -1 <-> some_negative d s pre) /\
  mpl_spec s d got (pre ++ e :: post) <> 1.
Proof.
  intros s d pre e post. induction pre as [|x pre IH]; intros got Hf He.
  - cbn [app mpl_spec]. unfold fits in He. replace (1023 <=? zlen (body e)) with true by (unfold zlen; lia).
    split; [|discriminate]. split; [discriminate|]. intros (y & [] & _).
  - inversion Hf; subst. cbn [app mpl_spec]. unfold fits in H1.
    replace (1023 <=? zlen (body x)) with false by (unfold zlen; lia).
    assert (SN : some_negative d s (x :: pre) <-> (negative x = true /\ covers d s x) \/ some_negative d s pre).
    { unfold some_negative. split.
      - intros (y & [->|Hy] & A); [auto|right; eauto].
      - intros [[A B]|(y & Hy & A)]; [exists x; cbn; auto|exists y; cbn; auto]. }
    rewrite SN. destruct (match_pattern s (fold_case d (body x))) eqn:Em.
    + apply match_pattern_glob in Em. fold (covers d s x) in Em. destruct (negative x) eqn:En.
      * split; [tauto|discriminate].
      * destruct (IH true H2 He) as [-> I2]. split; [|assumption]. intuition congruence.
    + apply match_pattern_glob_f in Em. fold (covers d s x) in Em. destruct (IH got H2 He) as [-> I2]. split; [tauto|assumption].
Qed.

(** ** match_list *)
Lemma until_empty_names : forall fs, until_empty fs = names_of fs.
Proof. induction fs as [|f fs IH]; [reflexivity|]. cbn. destruct f; cbn; [reflexivity|]. now rewrite IH. Qed.
Lemma existsb_In : forall n sv, existsb (beqb n) sv = true <-> In n sv.
Proof.
  intros n sv. rewrite existsb_exists. split.
  - intros (x & Hx & E). apply beqb_eq in E. now subst.
  - intros H. exists n. split; [assumption|apply beqb_refl].
Qed.

Lemma ml_scan_some : forall fs sv pos total n nx, ml_scan fs sv pos total = Some (n, nx) ->
  first_common (names_of fs) sv n.
Proof.
  induction fs as [|f fs IH]; intros sv pos total n nx H; [discriminate|]. cbn [ml_scan] in H.
  destruct f as [|x f]; [discriminate|]. cbn [is_nil] in H. destruct (existsb (beqb (x :: f)) sv) eqn:E.
  - inversion H; subst. exists [], (names_of fs). splits; [reflexivity|now apply existsb_In|intros y []].
  - apply IH in H. destruct H as (a & b & Ea & Hin & Hno). exists ((x :: f) :: a), b. cbn [names_of]. rewrite Ea. splits; auto.
    intros y [<-|Hy]; [|auto]. rewrite <- existsb_In. congruence.
Qed.
Lemma ml_scan_none : forall fs sv pos total, ml_scan fs sv pos total = None ->
  forall n, In n (names_of fs) -> ~ In n sv.
Proof.
  induction fs as [|f fs IH]; intros sv pos total H n Hn; [destruct Hn|]. cbn [ml_scan] in H. destruct f as [|x f]; [destruct Hn|].
  cbn [is_nil] in H. destruct (existsb (beqb (x :: f)) sv) eqn:E; [discriminate|].
  destruct Hn as [<-|Hn]; [rewrite <- existsb_In; congruence|]. eapply IH; eauto.
Qed.

(** *next *)
Lemma ml_scan_next : forall fs sv pre n nx client, pre ++ join 44 fs = client -> fs <> [] ->
  ml_scan fs sv (zlen pre) (zlen client) = Some (n, nx) ->
  exists a b, fs = a ++ n :: b /\ zdrop nx client = join 44 b /\ 0 <= nx <= zlen client.
Proof.
  induction fs as [|f fs IH]; intros sv pre n nx client Ec Hne H; [congruence|]. cbn [ml_scan] in H.
  destruct f as [|x f]; [discriminate|]. cbn [is_nil] in H. destruct (existsb (beqb (x :: f)) sv) eqn:E.
  - inversion H; subst n nx. exists [], fs. split; [reflexivity|]. destruct fs as [|g fs].
    + cbn [join]. rewrite zdrop_all by lia. split; [reflexivity|]. pose proof (zlen_nonneg Z client). lia.
    + subst client. change (join 44 ((x :: f) :: g :: fs)) with ((x :: f) ++ 44 :: join 44 (g :: fs)).
      replace (pre ++ (x :: f) ++ 44 :: join 44 (g :: fs)) with ((pre ++ (x :: f) ++ [44]) ++ join 44 (g :: fs)) by now rewrite <- !app_assoc.
      set (J := join 44 (g :: fs)).
      assert (HL : zlen pre + zlen (x :: f) + 1 = zlen (pre ++ (x :: f) ++ [44])) by (rewrite !zlen_app; change (zlen [44]) with 1; lia).
      split.
      * unfold zdrop. rewrite HL. unfold zlen. rewrite Nat2Z.id. rewrite skipn_app. rewrite skipn_all. rewrite Nat.sub_diag. reflexivity.
      * rewrite HL, (zlen_app _ (pre ++ (x :: f) ++ [44])). pose proof (zlen_nonneg Z J). pose proof (zlen_nonneg Z (pre ++ (x :: f) ++ [44])). lia.
  - destruct fs as [|g fs]; [discriminate|].
    destruct (IH sv (pre ++ (x :: f) ++ [44]) n nx client) as (a & b & Ea & R).
    + subst client. change (join 44 ((x :: f) :: g :: fs)) with ((x :: f) ++ 44 :: join 44 (g :: fs)). now rewrite <- !app_assoc.
    + discriminate.
    + rewrite !zlen_app. change (zlen [44]) with 1. replace (zlen pre + (zlen (x :: f) + 1)) with (zlen pre + zlen (x :: f) + 1) by lia. exact H.
    + exists ((x :: f) :: a), b. rewrite Ea. auto.
Qed.

Lemma first_common_fun : forall cl sv n m, first_common cl sv n -> first_common cl sv m -> n = m.
Proof.
  intros cl sv n m (a & b & E & Hn & Ha) (c & d & E' & Hm & Hc). subst cl.
  assert (G : forall a c b d, a ++ n :: b = c ++ m :: d -> (forall x, In x a -> ~ In x sv) -> (forall x, In x c -> ~ In x sv) -> n = m).
  { clear - Hn Hm. induction a as [|x a IH]; intros [|y c] b d E Ha Hc; cbn in E.
    - now inversion E.
    - inversion E; subst. exfalso. apply (Hc y); cbn; auto.
    - inversion E; subst. exfalso. apply (Ha m); cbn; auto.
    - inversion E; subst. eapply IH; eauto; intros; [apply Ha|apply Hc]; cbn; auto. }
  eapply G; eauto.
Qed.

Lemma match_list_spec : forall client server,
  match match_list client server with
  | Some n => first_common (names client) (firstn 40 (names server)) n
  | None => forall n, In n (names client) -> ~ In n (firstn 40 (names server))
  end.
Proof.
  intros client server. unfold match_list, match_list_next, names. rewrite until_empty_names. unfold COMMA, MAX_PROP.
  destruct (ml_scan _ _ _ _) as [[n nx]|] eqn:E; cbn [option_map fst].
  - eapply ml_scan_some; eauto.
  - eapply ml_scan_none; eauto.
Qed.

Lemma names_wf : forall l n, In n (names l) -> n <> [] /\ free_of 44 n.
Proof.
  intros l n. unfold names. pose proof (split_free 44 l) as H. induction H as [|f fs Hf Hfs IH]; [intros []|].
  cbn. destruct f; [intros []|]. intros [<-|Hn]; [split; [discriminate|assumption]|auto].
Qed.
Lemma names_of_all : forall fs, Forall (fun f => f <> []) fs -> names_of fs = fs.
Proof. induction 1 as [|f fs Hf Hfs IH]; [reflexivity|]. destruct f; [congruence|]. cbn. now rewrite IH. Qed.
Lemma names_join : forall l, Forall (fun f => f <> [] /\ free_of 44 f) l -> names (join 44 l) = l.
Proof.
  intros l H. destruct l as [|f l]; [reflexivity|]. unfold names. rewrite split_join; [|discriminate|].
  - apply names_of_all. eapply Forall_impl; [|exact H]. cbn. tauto.
  - eapply Forall_impl; [|exact H]. cbn. tauto.
Qed.
