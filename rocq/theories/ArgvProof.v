(** Proofs about argv_split and argv_assemble. *)
From Coq Require Import String.
From Verif Require Import Base ArgvModel ArgvSpec.

Lemma blank_iff : forall c, blank c = true <-> blank_char c.
Proof. intros. unfold blank, blank_char. lia. Qed.
Lemma protects_iff : forall q d, protects q d <-> (d =? SQ) || (d =? DQ) || (d =? BSL) || (negb q && (d =? 32)) = true.
Proof. intros q d. unfold protects, SQ, DQ, BSL. cbn [In]. destruct q; cbn [negb andb]; lia. Qed.
Lemma protects_false : forall q d, ~ protects q d <-> (d =? SQ) || (d =? DQ) || (d =? BSL) || (negb q && (d =? 32)) = false.
Proof. intros q d. rewrite protects_iff. now rewrite Bool.not_true_iff_false. Qed.

Lemma token_rest : forall n s q a e f, (length s <= n)%nat -> token s q = (a, e, f) ->
  (length e <= length s)%nat /\ match e with [] => True | c :: _ => blank c = true /\ f = 0 end.
Proof.
  induction n as [|n IH]; intros s q a e f Hn H.
  - destruct s; [|cbn in Hn; lia]. inversion H; subst. auto.
  - destruct s as [|c r]; [inversion H; subst; auto|]. cbn [length] in *. cbn [token] in H.
    assert (G : forall s' q' x, (length s' <= n)%nat -> (let '(a, e, f) := token s' q' in (x :: a, e, f)) = (a, e, f) ->
              (length e <= length s')%nat /\ match e with [] => True | c :: _ => blank c = true /\ f = 0 end).
    { intros s' q' x Hl G. destruct (token s' q') as [[a' e'] f'] eqn:E. inversion G; subst. eapply IH; [|exact E]. assumption. }
    destruct (c =? BSL).
    + destruct r as [|d r'].
      { apply G in H; [|cbn [length]; lia]. cbn [length] in *. split; [lia|tauto]. }
      cbn [length] in Hn. destruct (_ || _); (apply G in H; [|cbn [length]; lia]); cbn [length] in *; (split; [lia|tauto]).
    + destruct ((q =? 0) && blank c) eqn:E1; [inversion H; subst; cbn [length]; split; [lia|]; split; lia|].
      destruct ((q =? 0) && ((c =? DQ) || (c =? SQ))).
      { apply IH in H; [|lia]. split; [lia|tauto]. }
      destruct (negb (q =? 0) && (c =? q)).
      { apply IH in H; [|lia]. split; [lia|tauto]. }
      apply G in H; [|lia]. split; [lia|tauto].
Qed.

(** [token] against the rules. *)
Lemma token_inside : forall q s w r, q <> 0 -> q <> 92 -> inside q s w r ->
  token s q = let '(a, e, f) := token r 0 in (w ++ a, e, f).
Proof.
  intros q s w r H0 H92. induction 1 as [r|d s w r Hp Hi IH|s w r Hp Hi IH|c s w r Hq Hb Hi IH].
  - cbn [token]. unfold BSL. replace (q =? 92) with false by lia. replace (q =? 0) with false by lia. cbn [andb negb]. rewrite Z.eqb_refl.
    destruct (token r 0) as [[a e] f]. reflexivity.
  - apply protects_iff in Hp. cbn [token]. change (92 =? BSL) with true. cbv iota. replace (q =? 0) with false by lia. cbn [andb negb] in *. rewrite Hp. rewrite IH.
    destruct (token r 0) as [[a e] f]. reflexivity.
  - cbn [token]. change (92 =? BSL) with true. cbv iota. destruct s as [|d s].
    + rewrite IH. destruct (token r 0) as [[a e] f]. reflexivity.
    + cbn [starts] in Hp. apply protects_false in Hp. replace (q =? 0) with false by lia. cbn [andb negb] in *. rewrite Hp. rewrite IH.
      destruct (token r 0) as [[a e] f]. reflexivity.
  - cbn [token]. unfold BSL. replace (c =? 92) with false by lia. replace (q =? 0) with false by lia. cbn [andb negb]. replace (c =? q) with false by lia. rewrite IH.
    destruct (token r 0) as [[a e] f]. reflexivity.
Qed.
Lemma token_word : forall s w r, word s w r -> token s 0 = (w, r, 0).
Proof.
  induction 1 as [r Hr|d s w r Hp Hi IH|s w r Hp Hi IH|q s w1 r1 w2 r Hq Hi Hw IH|c s w r Hc Hi IH].
  - destruct Hr as [->|Hr]; [reflexivity|]. destruct r as [|c r]; [destruct Hr|]. cbn [starts] in Hr. cbn [token].
    apply blank_iff in Hr. assert (c =? BSL = false) as -> by (unfold blank, BSL in *; lia). rewrite Hr. reflexivity.
  - apply protects_iff in Hp. cbn [token]. change (92 =? BSL) with true. cbv iota. cbn [negb] in Hp. change (0 =? 0) with true. rewrite Hp. now rewrite IH.
  - cbn [token]. change (92 =? BSL) with true. cbv iota. destruct s as [|d s].
    + now rewrite IH.
    + cbn [starts] in Hp. apply protects_false in Hp. change (0 =? 0) with true. cbn [negb] in Hp. rewrite Hp. now rewrite IH.
  - cbn [In] in Hq. cbn [token]. unfold BSL, DQ, SQ, blank. replace (q =? 92) with false by lia. change (0 =? 0) with true.
    replace ((q =? 32) || (q =? 9)) with false by lia. replace ((q =? 34) || (q =? 39)) with true by lia. cbn [andb].
    rewrite (token_inside q s w1 r1) by (assumption || lia). now rewrite IH.
  - cbn [In] in Hc. cbn [token]. unfold BSL, DQ, SQ, blank. replace (c =? 92) with false by lia. change (0 =? 0) with true.
    replace ((c =? 32) || (c =? 9)) with false by lia. replace ((c =? 34) || (c =? 39)) with false by lia. cbn [andb negb]. now rewrite IH.
Qed.

(** Conversely: a token that ends outside quotes was a word. *)
Lemma token_inv : forall n s, (length s <= n)%nat ->
  (forall w r, token s 0 = (w, r, 0) -> word s w r) /\
  (forall q w r, In q [34; 39] -> token s q = (w, r, 0) -> exists w1 r1 w2, inside q s w1 r1 /\ w = w1 ++ w2 /\ word r1 w2 r).
Proof.
  induction n as [|n IH]; intros s Hn.
  - destruct s; [|cbn in Hn; lia]. split.
    + intros w r H. inversion H; subst. apply w_end. auto.
    + intros q w r Hq H. inversion H; subst. cbn in Hq. lia.
  - destruct s as [|c s].
    { split.
      + intros w r H. inversion H; subst. apply w_end. auto.
      + intros q w r Hq H. inversion H; subst. cbn in Hq. lia. }
    cbn [length] in Hn. destruct (IH s ltac:(lia)) as [IHw IHq]. split.
    + intros w r H. cbn [token] in H. destruct (c =? BSL) eqn:Eb.
      * assert (c = 92) by (unfold BSL in Eb; lia). subst c. destruct s as [|d s'].
        -- destruct (token [] 0) as [[a e] f] eqn:E. inversion H; subst. apply w_backslash; [intros []|]. now apply IHw.
        -- change (0 =? 0) with true in H. destruct ((d =? SQ) || _ || _ || _) eqn:Ep.
           ++ destruct (token s' 0) as [[a e] f] eqn:E. inversion H; subst. apply w_escape; [now apply protects_iff|]. cbn [length] in Hn. apply IH; [lia|assumption].
           ++ destruct (token (d :: s') 0) as [[a e] f] eqn:E. inversion H; subst. apply w_backslash; [cbn [starts]; now apply protects_false|]. now apply IHw.
      * unfold BSL in Eb. change (0 =? 0) with true in H. cbn [andb negb] in H. destruct (blank c) eqn:Ebl.
        { inversion H; subst. apply w_end. right. cbn [starts]. now apply blank_iff. }
        destruct ((c =? DQ) || (c =? SQ)) eqn:Eq.
        -- assert (Hq : In c [34; 39]) by (unfold DQ, SQ in Eq; cbn [In]; lia). apply IHq in H; [|assumption].
           destruct H as (w1 & r1 & w2 & Hi & -> & Hw). eapply w_quote; eassumption.
        -- destruct (token s 0) as [[a e] f] eqn:E. inversion H; subst. apply w_char; [|now apply IHw].
           unfold blank, DQ, SQ in *. cbn [In]. lia.
    + intros q w r Hq H. cbn [token] in H. assert (Hq0 : q =? 0 = false) by (cbn [In] in Hq; lia). rewrite Hq0 in H. cbn [andb negb] in H.
      destruct (c =? BSL) eqn:Eb.
      * assert (c = 92) by (unfold BSL in Eb; lia). subst c. destruct s as [|d s'].
        -- destruct (token [] q) as [[a e] f] eqn:E. inversion H; subst. cbn in E. inversion E; subst. lia.
        -- destruct ((d =? SQ) || _ || _ || _) eqn:Ep.
           ++ destruct (token s' q) as [[a e] f] eqn:E. inversion H; subst. cbn [length] in Hn. apply (proj2 (IH s' ltac:(lia))) in E; [|assumption].
              destruct E as (w1 & r1 & w2 & Hi & -> & Hw). exists (d :: w1), r1, w2. splits; auto. apply in_escape; [now apply protects_iff|assumption].
           ++ destruct (token (d :: s') q) as [[a e] f] eqn:E. inversion H; subst. apply IHq in E; [|assumption].
              destruct E as (w1 & r1 & w2 & Hi & -> & Hw). exists (92 :: w1), r1, w2. splits; auto. apply in_backslash; [cbn [starts]; now apply protects_false|assumption].
      * unfold BSL in Eb. destruct (c =? q) eqn:Ec.
        -- assert (c = q) by lia. subst c. exists [], s, w. splits; auto. constructor.
        -- destruct (token s q) as [[a e] f] eqn:E. inversion H; subst. apply IHq in E; [|assumption].
           destruct E as (w1 & r1 & w2 & Hi & -> & Hw). exists (c :: w1), r1, w2. splits; auto. apply in_char; [lia|lia|assumption].
Qed.

Lemma token_progress : forall c s a e f, blank c = false -> token (c :: s) 0 = (a, e, f) -> (length e <= length s)%nat.
Proof.
  intros c s a e f Hb H. cbn [token] in H. destruct (c =? BSL).
  - assert (G : forall s' x, (length s' <= length s)%nat -> (let '(a, e, f) := token s' 0 in (x :: a, e, f)) = (a, e, f) -> (length e <= length s)%nat).
    { intros s' x Hl G. destruct (token s' 0) as [[a' e'] f'] eqn:E. inversion G; subst. destruct (token_rest _ _ _ _ _ _ (le_n _) E). lia. }
    destruct s as [|d s']; [exact (G [] c (le_n _) H)|]. destruct (_ || _); [apply (G s' d)|apply (G (d :: s') c)]; try exact H; cbn [length]; lia.
  - rewrite Hb in H. change (0 =? 0) with true in H. cbn [andb negb] in H. destruct (_ || _).
    + destruct (token_rest _ _ _ _ _ _ (le_n _) H). assumption.
    + destruct (token s 0) as [[a' e'] f'] eqn:E. inversion H; subst. destruct (token_rest _ _ _ _ _ _ (le_n _) E). assumption.
Qed.

Lemma split_loop_fuel : forall fuel s cm argv, (length s < fuel)%nat -> split_loop fuel s cm argv <> SFuel.
Proof.
  induction fuel as [|fuel IH]; intros s cm argv H; [lia|]. destruct s as [|c s]; cbn [split_loop length] in *; [discriminate|].
  destruct (blank c) eqn:Eb; [apply IH; lia|]. destruct (cm && _); [discriminate|].
  destruct (token (c :: s) 0) as [[a e] f] eqn:E. apply token_progress in E; [|assumption]. destruct e as [|x e].
  - destruct (negb _); discriminate.
  - apply IH. cbn [length] in E. lia.
Qed.

Lemma split_line : forall cm s ws, line cm s ws -> forall fuel argv, (length s < fuel)%nat ->
  split_loop fuel s cm argv = SArgs (argv ++ ws).
Proof.
  intros cm s ws H. induction H as [|c s ws Hb H IH|s Hc|c s w r ws Hb Hc Hw H IH]; intros fuel argv Hf; (destruct fuel as [|fuel]; [lia|]); cbn [split_loop length] in *.
  - now rewrite app_nil_r.
  - apply blank_iff in Hb. rewrite Hb. apply IH. lia.
  - subst cm. change (blank 35) with false. change (35 =? 35) with true. cbn [andb]. now rewrite app_nil_r.
  - assert (Eb : blank c = false). { apply Bool.not_true_iff_false. now rewrite blank_iff. } rewrite Eb.
    replace (cm && (c =? 35)) with false. 2:{ destruct cm; [|reflexivity]. specialize (Hc eq_refl). cbn. lia. }
    pose proof (token_word _ _ _ Hw) as E. rewrite E. pose proof (token_progress _ _ _ _ _ Eb E) as Hp. change (0 =? 0) with true. cbn [negb].
    destruct r as [|x r]; [inversion H; subst; reflexivity|].
    destruct (token_rest _ _ _ _ _ _ (le_n _) E) as [_ [Hx _]]. cbn [length] in Hp.
    assert (K : split_loop (S fuel) (x :: r) cm (argv ++ [w]) = split_loop fuel r cm (argv ++ [w])) by (cbn [split_loop]; now rewrite Hx).
    rewrite <- K. rewrite IH by (cbn [length]; lia). now rewrite <- app_assoc.
Qed.
Lemma split_inv : forall fuel s cm argv out, split_loop fuel s cm argv = SArgs out -> exists ws, out = argv ++ ws /\ line cm s ws.
Proof.
  induction fuel as [|fuel IH]; intros s cm argv out H; [discriminate|]. destruct s as [|c s]; cbn [split_loop] in H.
  - inversion H; subst. exists []. split; [now rewrite app_nil_r|constructor].
  - destruct (blank c) eqn:Eb.
    + apply IH in H. destruct H as (ws & -> & Hl). exists ws. split; [reflexivity|]. apply l_blank; [now apply blank_iff|assumption].
    + destruct (cm && (c =? 35)) eqn:Ec.
      * inversion H; subst. exists []. split; [now rewrite app_nil_r|]. assert (c = 35) by lia. subst c. apply l_comment. lia.
      * assert (Nb : ~ blank_char c) by (rewrite <- blank_iff; congruence).
        assert (Nc : cm = true -> c <> 35) by (intros ->; cbn [andb] in Ec; lia).
        destruct (token (c :: s) 0) as [[a e] f] eqn:E. destruct e as [|x e].
        -- destruct (negb (f =? 0)) eqn:Ef; [discriminate|]. inversion H; subst. exists [a]. split; [reflexivity|]. assert (f = 0) by lia. subst f.
           eapply l_word; try assumption; [|constructor]. now apply (proj1 (token_inv _ _ (le_n _))).
        -- destruct (token_rest _ _ _ _ _ _ (le_n _) E) as [_ [Hx ->]]. apply IH in H. destruct H as (ws & -> & Hl).
           exists (a :: ws). split; [now rewrite <- app_assoc|]. eapply l_word; try assumption.
           ++ apply (proj1 (token_inv _ _ (le_n _))). exact E.
           ++ apply l_blank; [now apply blank_iff|assumption].
Qed.

(** Assembling. *)
Lemma quote_inside : forall a r, inside 34 (quote_arg a ++ 34 :: r) a r.
Proof.
  induction a as [|c a IH]; intros r; cbn [quote_arg app]; [apply in_close|]. destruct (blank c) eqn:Eb.
  - cbn [app]. apply in_char; [unfold blank in Eb; lia|unfold blank in Eb; lia|apply IH].
  - destruct (_ || _) eqn:E; unfold BSL, SQ, DQ in *; cbn [app].
    + apply in_escape; [|apply IH]. left. cbn [In]. lia.
    + apply in_char; [lia|lia|apply IH].
Qed.
Lemma quote_word : forall a r, existsb blank a = false -> (r = [] \/ starts blank_char r) -> word (quote_arg a ++ r) a r.
Proof.
  induction a as [|c a IH]; intros r Hb Hr; cbn [quote_arg app]; [now apply w_end|]. cbn [existsb] in Hb.
  apply Bool.orb_false_iff in Hb. destruct Hb as [Hc Hb]. rewrite Hc. destruct (_ || _) eqn:E; unfold BSL, SQ, DQ in *; cbn [app].
  - apply w_escape; [|now apply IH]. left. cbn [In]. lia.
  - apply w_char; [|now apply IH]. unfold blank in Hc. cbn [In]. lia.
Qed.
Lemma asm_word : forall a r, a <> [] -> (r = [] \/ starts blank_char r) -> word (asm_arg a ++ r) a r.
Proof.
  intros a r Ha Hr. unfold asm_arg. destruct (existsb blank a) eqn:E; [|now apply quote_word].
  cbn [app]. rewrite <- app_assoc. cbn [app]. rewrite <- (app_nil_r a) at 2. eapply w_quote.
  - left. reflexivity.
  - apply quote_inside.
  - now apply w_end.
Qed.
Definition hash_start (a : list Z) : Prop := starts (eq 35) a /\ existsb blank a = false.
Lemma asm_first : forall a, a <> [] -> exists c s, asm_arg a = c :: s /\ ~ blank_char c /\ (c = 35 -> hash_start a).
Proof.
  intros a Ha. unfold asm_arg, hash_start. destruct (existsb blank a) eqn:E.
  - exists 34, (quote_arg a ++ [34]). splits; [reflexivity|unfold blank_char; lia|lia].
  - destruct a as [|c a]; [congruence|]. cbn [existsb] in E. apply Bool.orb_false_iff in E. destruct E as [E _].
    cbn [quote_arg]. rewrite E. unfold BSL, SQ, DQ. destruct (_ || _) eqn:E2; do 2 eexists; (splits; [reflexivity| |]); unfold blank, blank_char in *; try lia.
    intros ->. cbn. auto.
Qed.
(** What survives: the non-empty arguments, up to one taken for a comment. *)
Definition looks_comment (a : list Z) : bool := match a with c :: _ => (c =? 35) && negb (existsb blank a) | [] => false end.
Fixpoint survivors (cm : bool) (argv : list (list Z)) : list (list Z) :=
  match argv with
  | [] => []
  | a :: r => if cm && looks_comment a then [] else match a with [] => survivors cm r | _ => a :: survivors cm r end
  end.
Lemma asm_line : forall cm argv i, line cm (asm_loop i argv) (survivors cm argv).
Proof.
  intros cm argv. induction argv as [|a argv IH]; intros i; cbn [asm_loop survivors]; [constructor|].
  assert (L : line cm (asm_arg a ++ asm_loop (S i) argv) (if cm && looks_comment a then [] else match a with [] => survivors cm argv | _ => a :: survivors cm argv end)).
  { destruct a as [|x a']; [cbn [looks_comment]; rewrite Bool.andb_false_r; apply IH|]. set (a := x :: a') in *.
    assert (Ha : a <> []) by discriminate. destruct (asm_first a Ha) as (c & s & E & Hb & Hc).
    assert (W : word (asm_arg a ++ asm_loop (S i) argv) a (asm_loop (S i) argv)).
    { apply asm_word; [assumption|]. destruct argv; [left; reflexivity|right]. cbn. now left. }
    rewrite E in *. cbn [app] in *. destruct (cm && looks_comment a) eqn:El.
    - assert (c = 35) as ->; [|apply l_comment; lia].
      apply andb_prop in El. destruct El as [_ El]. unfold looks_comment in El. unfold a in El. apply andb_prop in El. destruct El as [E1 E2].
      fold a in E2. unfold asm_arg in E. destruct (existsb blank a) eqn:Eb; [discriminate|]. unfold a in E. cbn [quote_arg] in E. assert (x = 35) by lia. subst x.
      cbn in E. congruence.
    - eapply l_word; try eassumption; [|apply IH]. intros -> ->. destruct (Hc eq_refl) as [Hs Hn]. unfold a in Hs. cbn in Hs. subst x.
      unfold looks_comment in El. unfold a at 1 in El. rewrite Hn in El. discriminate. }
  destruct i; [exact L|]. cbn [app]. apply l_blank; [now left|exact L].
Qed.
