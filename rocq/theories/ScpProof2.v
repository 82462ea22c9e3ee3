(** Proofs about the scp receiver: it ends, and what brace patterns mean. *)
From Coq Require Import String.
From Verif Require Import Base Text AddrModel MiscNumModel ScpModel ScpSpec ScpProof.
Local Open Scope Z_scope.

Definition len (s : st) : nat := length (inp s).

Lemma read_line_len : forall n l a b, read_line n l = Some (a, b) -> (length b <= length l)%nat.
Proof.
  induction n as [|n IH]; intros l a b H; cbn [read_line] in H; [inversion H; subst; lia|].
  destruct l as [|c r]; [discriminate|]. destruct (c =? 10); [inversion H; subst; cbn; lia|].
  destruct (read_line n r) as [[a' b']|] eqn:E; [|discriminate]. apply IH in E. inversion H; subst. cbn. lia.
Qed.
Lemma len_note_if : forall b s, len (note_if b s) = len s.
Proof. intros []; reflexivity. Qed.
Lemma len_flush : forall s, len (flush s) = len s.
Proof. intros s. unfold flush. destruct (noted s); reflexivity. Qed.
Lemma len_response : forall s, (len (fst (response s)) <= len s)%nat.
Proof.
  intros s. unfold response, len. destruct (inp s) as [|c r] eqn:E; [cbn [fst]; rewrite E; cbn; lia|]. destruct (c =? 0); [cbn; lia|].
  destruct (read_line _ r) as [[a b]|] eqn:E2; cbn [fst incr with_inp inp length]; [|lia]. apply read_line_len in E2. lia.
Qed.
Section F.
Variable Os : os.
Variable C : conf.

Lemma len_copy : forall np cnt, 0 < cnt -> forall f left_ w s, (len s < f)%nat -> match copy Os f np cnt left_ w s with CDone _ s' => (len s' <= len s)%nat | CQuit _ => True | CFuel => False end.
Proof.
  intros np cnt Hc. induction f as [|f IH]; intros left_ w s H; [lia|]. cbn [copy]. destruct (left_ <=? 0) eqn:El; [lia|].
  destruct (zlen (inp s) <? Z.min cnt left_) eqn:Ez; [exact I|].
  assert (D : (length (zdrop (Z.min cnt left_) (inp s)) < length (inp s))%nat).
  { unfold zdrop, zlen in *. rewrite skipn_length. lia. }
  assert (G : forall w' s', len s' = length (zdrop (Z.min cnt left_) (inp s)) -> match copy Os f np cnt (left_ - Z.min cnt left_) w' s' with CDone _ s'' => (len s'' <= len s)%nat | CQuit _ => True | CFuel => False end).
  { intros w' s' Hs. specialize (IH (left_ - Z.min cnt left_) w' s'). unfold len in *. destruct (copy Os f np cnt _ w' s'); try (apply IH; lia). specialize (IH ltac:(lia)). lia. }
  destruct w; [apply G; reflexivity|]. unfold call. apply G. rewrite len_note_if. reflexivity.
Qed.
Lemma len_set_mode : forall np ex om s, len (set_mode Os C np ex om s) = len s.
Proof. intros. unfold set_mode, call. destruct (c_p C); (destruct (_ : bool); [rewrite len_note_if; reflexivity|reflexivity]). Qed.
Lemma len_finish : forall np ex om z tm w s, match finish Os C np ex om z tm w s with FNext _ s' => (len s' <= len s)%nat | FQuit _ => True | FFuel => False end.
Proof.
  intros. unfold finish, call. set (s1 := if _ && _ then _ else s).
  assert (L1 : len s1 = len s) by (subst s1; destruct (_ && _); [rewrite len_note_if; reflexivity|reflexivity]). clearbody s1.
  set (s2 := set_mode _ _ _ _ _ _). assert (L2 : len s2 = len s1) by apply len_set_mode. clearbody s2.
  set (s4 := note_if _ (emit (EClose np) s2)). assert (L4 : len s4 = len s2) by (subst s4; rewrite len_note_if; reflexivity). clearbody s4.
  pose proof (len_response s4) as L5. destruct (response s4) as [s5 q]. cbn [fst] in L5. destruct q; [exact I|].
  destruct tm as [t|]; [destruct w|]; rewrite len_flush; try rewrite len_note_if; change (len (emit (EUtimes np t) s5)) with (len s5) || idtac; lia.
Qed.
Lemma len_recv : forall np ex om z tm s, match recv_file Os C np ex om z tm s with FNext _ s' => (len s' <= len s)%nat | FQuit _ => True | FFuel => False end.
Proof.
  intros. unfold recv_file, call. destruct (os_ok Os _); cbn [negb]; [|unfold len; cbn; lia].
  set (s2 := emit EOk _). destruct (os_blk Os _) as [cnt|]; [|subst s2; unfold len; cbn; lia].
  pose proof (len_copy np (Z.pos cnt) ltac:(lia) (S (length (inp (emit (EBuf np) s2)))) z false (emit (EBuf np) s2)) as K.
  unfold len in K at 1. specialize (K ltac:(lia)).
  destruct (copy Os _ np (Z.pos cnt) z false _) as [w s4|s4|]; [|exact I|exact K].
  pose proof (len_finish np ex om z tm w s4) as L. destruct (finish Os C np ex om z tm w s4); try exact L.
  change (len (emit (EBuf np) s2)) with (len s) in K. lia.
Qed.
Lemma len_enter : forall targ s, len (fst (enter Os C targ s)) = len s.
Proof. intros. unfold enter, stat. destruct (c_d C); [destruct (negb _); reflexivity|reflexivity]. Qed.

Definition fuel_ok (f : nat) (r : res) (s : st) : Prop := match r with Done s' => (len s' <= len s)%nat | Exit _ => True | Fuel => (f <= len s)%nat end.
Lemma loop_len : forall f targ d pats tm s, fuel_ok f (loop Os C f targ d pats tm s) s.
Proof.
  unfold fuel_ok. induction f as [|f IH]; intros targ d pats tm s; [cbn; lia|]. cbn [loop].
  unfold len. destruct (inp s) as [|c r] eqn:Ei; [cbn; rewrite Ei; cbn; lia|]. destruct (c =? 10); [exact I|].
  destruct (read_line 2046 r) as [[line r']|] eqn:Er; [|exact I]. cbv zeta. apply read_line_len in Er.
  assert (G : forall targ d pats tm s', (len s' <= length r')%nat -> match loop Os C f targ d pats tm s' with Done s'' => (length (inp s'') <= length (c :: r))%nat | Exit _ => True | Fuel => (S f <= length (c :: r))%nat end).
  { intros ? ? ? ? s' Hs. specialize (IH targ0 d0 pats0 tm0 s'). cbn [length]. unfold len in *. destruct (loop Os C f _ _ _ _ s'); try exact I; lia. }
  destruct (c =? 1); [apply G; unfold len; cbn; lia|]. destruct (c =? 2); [exact I|]. destruct (c =? 69); [cbn; lia|].
  set (arg := cstr _). clearbody arg. destruct (c =? 84). { destruct (parse_times arg); [|exact I]. apply G; unfold len; cbn; lia. }
  destruct (_ || _); [|exact I]. destruct (parse_ctl arg) as [[[m size] name]|]; [|exact I]. destruct (_ || _); [exact I|].
  set (np := path_of targ d name). unfold stat. set (ex := os_stat Os _). set (s2 := emit (EStat np) _).
  assert (L2 : len s2 = length r') by reflexivity. clearbody ex s2.
  destruct (c =? 68).
  2:{ pose proof (len_recv np ex (eff_mode C m) size tm s2) as K. destruct (recv_file _ _ _ _ _ _ _ _) as [tm' s3|s3|]; [apply G; lia|exact I|tauto]. }
  destruct (negb (c_r C)); [exact I|].
  set (g := if is_some ex then _ else _).
  assert (Lg : len (snd g) = length r').
  { subst g. unfold call. destruct (is_some ex); [destruct (is_dir ex)|]; cbn [snd fst]; try assumption. destruct (c_p C); assumption. }
  destruct g as [[modf|] s3]; cbn [snd] in Lg; [|apply G; unfold len in *; cbn; lia].
  pose proof (len_enter np s3) as L4. destruct (enter Os C np s3) as [s4 [dd|]]; cbn [fst] in L4; [|exact I].
  assert (K : (len s4 <= length r')%nat) by lia.
  pose proof (IH np dd pats None s4) as K5. destruct (loop Os C f np dd pats None s4) as [s5|s5|]; [|exact I|cbn [length]; lia].
  apply G. destruct tm; destruct modf; unfold call; cbn [snd]; unfold len in *; cbn [inp emit]; lia.
Qed.
Lemma loop_mono : forall f f' targ d pats tm s, (f <= f')%nat -> loop Os C f targ d pats tm s <> Fuel -> loop Os C f' targ d pats tm s = loop Os C f targ d pats tm s.
Proof.
  induction f as [|f IH]; intros f' targ d pats tm s Hf H; [cbn in H; congruence|]. destruct f' as [|f']; [lia|]. apply le_S_n in Hf.
  cbn [loop] in *. destruct (inp s) as [|c r]; [reflexivity|]. destruct (c =? 10); [reflexivity|].
  destruct (read_line 2046 r) as [[line r']|]; [|reflexivity]. cbv zeta in *.
  destruct (c =? 1); [now apply IH|]. destruct (c =? 2); [reflexivity|]. destruct (c =? 69); [reflexivity|].
  set (arg := cstr _) in *. clearbody arg. destruct (c =? 84). { destruct (parse_times arg); [|reflexivity]. now apply IH. }
  destruct (_ || _); [|reflexivity]. destruct (parse_ctl arg) as [[[m size] name]|]; [|reflexivity]. destruct (_ || _); [reflexivity|].
  set (np := path_of targ d name) in *. unfold stat in *. set (ex := os_stat Os _) in *. set (s2 := emit (EStat np) _) in *. clearbody ex s2.
  destruct (c =? 68).
  2:{ destruct (recv_file _ _ _ _ _ _ _ _) as [tm' s3|s3|]; [now apply IH|reflexivity|reflexivity]. }
  destruct (negb (c_r C)); [reflexivity|]. set (g := if is_some ex then _ else _) in *. clearbody g.
  destruct g as [[modf|] s3]; [|now apply IH]. destruct (enter Os C np s3) as [s4 [dd|]]; [|reflexivity].
  assert (E : loop Os C f np dd pats None s4 <> Fuel) by (intros E; rewrite E in H; now apply H).
  rewrite (IH f' _ _ _ _ _ Hf E). destruct (loop Os C f np dd pats None s4); [|reflexivity|congruence]. now apply IH.
Qed.
(** The receiver without its fuel. *)
Definition go (targ : list Z) (d : bool) (pats : list (list Z)) (tm : option times) (s : st) : res := loop Os C (S (len s)) targ d pats tm s.
Lemma loop_go : forall f targ d pats tm s, (len s < f)%nat -> loop Os C f targ d pats tm s = go targ d pats tm s.
Proof.
  intros. unfold go. apply loop_mono; [lia|]. intros E. pose proof (loop_len (S (len s)) targ d pats tm s) as K. rewrite E in K. cbn in K. lia.
Qed.
Lemma go_total : forall targ d pats tm s, go targ d pats tm s <> Fuel.
Proof. intros. unfold go. intros E. pose proof (loop_len (S (len s)) targ d pats tm s) as K. rewrite E in K. cbn in K. lia. Qed.
End F.

(** ** Braces *)
Lemma find_brace_bounds : forall n l, (length l <= n)%nat -> forall i inb start lev s e, find_brace l i inb start lev = Some (Some (s, e)) ->
  (forall s0, start = Some s0 -> s = s0 /\ i <= e) /\ (start = None -> i <= s < e) /\ e < i + zlen l.
Proof.
  induction n as [|n IH]; intros l Hn i inb start lev s e H.
  - destruct l; [|cbn in Hn; lia]. cbn in H. destruct (_ || _); discriminate.
  - destruct l as [|c r]; [cbn in H; destruct (_ || _); discriminate|]. cbn [length] in Hn. rewrite zlen_cons. pose proof (zlen_nonneg _ r).
    assert (G1 : forall inb' lev', find_brace r (i + 1) inb' start lev' = Some (Some (s, e)) -> (forall s0, start = Some s0 -> s = s0 /\ i <= e) /\ (start = None -> i <= s < e) /\ e < i + (zlen r + 1)).
    { intros inb' lev' K. apply IH in K; [|lia]. destruct K as (K1 & K2 & K3). split; [intros s0 E; specialize (K1 s0 E); lia|]. split; [intros E; specialize (K2 E); lia|lia]. }
    assert (G2 : forall x r', r = x :: r' -> find_brace r' (i + 2) inb start lev = Some (Some (s, e)) -> (forall s0, start = Some s0 -> s = s0 /\ i <= e) /\ (start = None -> i <= s < e) /\ e < i + (zlen r + 1)).
    { intros x r' -> K. cbn [length] in Hn. apply IH in K; [|lia]. rewrite zlen_cons in *. destruct K as (K1 & K2 & K3). split; [intros s0 E; specialize (K1 s0 E); lia|]. split; [intros E; specialize (K2 E); lia|lia]. }
    cbn [find_brace] in H. destruct (c =? 92). { destruct r as [|x r']; [eapply G1; exact H|eapply G2; [reflexivity|exact H]]. }
    destruct (c =? 91); [eapply G1; exact H|]. destruct (c =? 93); [eapply G1; exact H|].
    destruct ((c =? 123) && negb inb).
    + assert (G3 : find_brace r (i + 1) inb match start with Some _ => start | None => Some i end (lev + 1) = Some (Some (s, e)) -> (forall s0, start = Some s0 -> s = s0 /\ i <= e) /\ (start = None -> i <= s < e) /\ e < i + (zlen r + 1)).
      { intros K. destruct start as [s0|]; [eapply G1; exact K|]. apply IH in K; [|lia]. destruct K as (K1 & K2 & K3). specialize (K1 i eq_refl).
        split; [intros; discriminate|]. split; [intros _; lia|lia]. }
      destruct r as [|x r']; [apply G3; exact H|]. destruct (x =? 125); [eapply G2; [reflexivity|exact H]|apply G3; exact H].
    + destruct ((c =? 125) && negb inb); [|eapply G1; exact H]. destruct start as [s0|]; [|discriminate].
      destruct (lev - 1 <=? 0); [|eapply G1; exact H]. inversion H; subst. split; [intros s1 E; inversion E; subst; lia|]. split; [intros; discriminate|lia].
Qed.
Lemma selections_len : forall n l, (length l <= n)%nat -> forall inb lev sel r, selections l inb lev sel = Some r -> forall x, In x r -> zlen x <= zlen sel + zlen l.
Proof.
  induction n as [|n IH]; intros l Hn inb lev sel res H x Hx.
  - destruct l; [|cbn in Hn; lia]. cbn in H. destruct (_ || _); inversion H; subst. destruct Hx.
  - destruct l as [|c r]; [cbn in H; destruct (_ || _); inversion H; subst; destruct Hx|]. cbn [length] in Hn. cbn [selections] in H.
    set (inb' := if c =? 91 then _ else _) in *. set (lev' := if _ && _ then lev + 1 else _) in *. clearbody inb' lev'. pose proof (zlen_nonneg _ sel) as S0. pose proof (zlen_nonneg _ r) as R0.
    assert (CM : forall (a : list Z) l0 i' v', (length l0 <= n)%nat -> zlen a <= zlen sel + zlen (c :: r) -> zlen l0 <= zlen (c :: r) -> option_map (cons a) (selections l0 i' v' []) = Some res -> zlen x <= zlen sel + zlen (c :: r)).
    { intros a l0 i' v' Hl Ha Hz K. destruct (selections l0 i' v' []) as [q|] eqn:E; [|discriminate]. inversion K; subst. destruct Hx as [<-|Hx]; [assumption|].
      pose proof (IH _ Hl _ _ _ _ E _ Hx) as L. rewrite zlen_nil in L. lia. }
    assert (GO : forall l0 i' v' sel', (length l0 <= n)%nat -> zlen sel' + zlen l0 <= zlen sel + zlen (c :: r) -> selections l0 i' v' sel' = Some res -> zlen x <= zlen sel + zlen (c :: r)).
    { intros l0 i' v' sel' Hl Hz K. pose proof (IH _ Hl _ _ _ _ K _ Hx). lia. }
    assert (RV : forall a : list Z, zlen (rev a) = zlen a) by (intros; unfold zlen; now rewrite rev_length).
    destruct r as [|c2 r2].
    + destruct (_ || _); [eapply (GO [] _ _ (c :: sel)); [cbn; lia| |exact H]; rewrite !zlen_cons, ?zlen_nil; lia|].
      eapply (CM (rev (c :: sel)) []); [cbn; lia| | |exact H]; rewrite ?RV, ?zlen_cons, ?zlen_nil; lia.
    + cbn [length] in Hn. rewrite zlen_cons in R0. pose proof (zlen_nonneg _ r2).
      assert (A1 : forall i' v', selections r2 i' v' (c2 :: c :: sel) = Some res -> zlen x <= zlen sel + zlen (c :: c2 :: r2)).
      { intros i' v' K. eapply (GO r2); [lia| |exact K]. rewrite !zlen_cons. lia. }
      destruct (c =? 92).
      * destruct ((c2 =? 44) && negb (is_nil r2)).
        { destruct (_ || _); [eapply A1; exact H|]. eapply (CM (rev (c :: sel)) r2); [lia| | |exact H]; rewrite ?RV, ?zlen_cons; lia. }
        destruct (is_nil r2); [|eapply A1; exact H].
        destruct (_ || _); [eapply A1; exact H|]. eapply (CM (rev (c2 :: c :: sel)) r2); [lia| | |exact H]; rewrite ?RV, ?zlen_cons; lia.
      * assert (A2 : forall i' v', selections (c2 :: r2) i' v' (c :: sel) = Some res -> zlen x <= zlen sel + zlen (c :: c2 :: r2)).
        { intros i' v' K. eapply (GO (c2 :: r2)); [cbn; lia| |exact K]. rewrite !zlen_cons. lia. }
        destruct (c =? 44); [|eapply A2; exact H]. destruct (_ || _); [eapply A2; exact H|].
        eapply (CM (rev sel) (c2 :: r2)); [cbn; lia| | |exact H]; rewrite ?RV, ?zlen_cons; lia.
Qed.
Lemma expand_one_len : forall p l q, expand_one p = Some (Some l) -> In q l -> (length q < length p)%nat.
Proof.
  intros p l q H Hq. unfold expand_one in H. destruct (find_brace p 0 false None 0) as [[[s e]|]|] eqn:E; try discriminate.
  apply (find_brace_bounds (length p)) in E; [|lia]. destruct E as (_ & E2 & E3). specialize (E2 eq_refl).
  destruct (selections _ _ _ _) as [sels|] eqn:Es; [|discriminate]. inversion H; subst. apply in_map_iff in Hq. destruct Hq as (x & <- & Hx).
  pose proof (selections_len _ _ (le_n _) _ _ _ _ Es _ Hx) as L. rewrite zlen_nil in L.
  unfold zlen, ztake, zdrop in *. rewrite firstn_length, skipn_length in L. rewrite !app_length, firstn_length, skipn_length. lia.
Qed.
Lemma each_fuel : forall f l, (forall p, In p l -> f p <> XFuel) -> each f l <> XFuel.
Proof.
  intros f. induction l as [|p l IH]; intros H; cbn; [discriminate|]. pose proof (H p (or_introl eq_refl)). destruct (f p); try congruence.
  assert (each f l <> XFuel) by (apply IH; intros; apply H; now right). destruct (each f l); congruence.
Qed.
Lemma brace_fuel : forall f p, (length p < f)%nat -> brace_expand f p <> XFuel.
Proof.
  induction f as [|f IH]; intros p H; [lia|]. cbn [brace_expand]. destruct (expand_one p) as [[l|]|] eqn:E; try discriminate.
  apply each_fuel. intros q Hq. apply in_rev in Hq. apply IH. pose proof (expand_one_len _ _ _ E Hq). lia.
Qed.

Lemma lit_nil : forall s i inb lev, lit_text s -> find_brace s i inb None lev = if inb then None else Some None.
Proof.
  induction s as [|c s IH]; intros i inb lev H; [destruct inb; reflexivity|]. inversion H; subst. unfold special in H2. rewrite !orb_false_iff in H2. destruct H2 as ((((A & B) & D) & E) & F).
  cbn [find_brace]. rewrite A, B, D, E, F. cbn [andb]. now apply IH.
Qed.
Lemma lit_app : forall s r i start lev, lit_text s -> find_brace (s ++ r) i false start lev = find_brace r (i + zlen s) false start lev.
Proof.
  induction s as [|c s IH]; intros r i start lev H; [cbn [app]; f_equal; rewrite zlen_nil; lia|]. inversion H; subst. unfold special in H2. rewrite !orb_false_iff in H2. destruct H2 as ((((A & B) & D) & E) & F).
  cbn [app find_brace]. rewrite A, B, D, E, F. cbn [andb]. rewrite IH by assumption. f_equal. rewrite zlen_cons. lia.
Qed.
Lemma commas_lit : forall l, Forall alt_text l -> lit_text (commas l).
Proof.
  induction l as [|x [|y l] IH]; intros H; [constructor|inversion H; subst; apply H2|]. inversion H; subst. cbn [commas]. apply Forall_app. split; [apply H2|].
  constructor; [reflexivity|]. now apply IH.
Qed.
Lemma commas_last : forall l, last l [] <> [] -> commas l <> [].
Proof. induction l as [|x [|y l] IH]; intros H; [now cbn in H|exact H|]. cbn [commas]. destruct x; discriminate. Qed.
Lemma find_alt : forall pre l post, lit_text pre -> Forall alt_text l -> last l [] <> [] ->
  find_brace (pre ++ 123 :: commas l ++ 125 :: post) 0 false None 0 = Some (Some (zlen pre, zlen pre + 1 + zlen (commas l))).
Proof.
  intros pre l post Hp Hl Hn. rewrite lit_app by assumption. cbn [find_brace].
  change (123 =? 92) with false. change (123 =? 91) with false. change (123 =? 93) with false. change ((123 =? 123) && negb false) with true. cbv iota.
  pose proof (commas_last _ Hn) as Hc. pose proof (commas_lit _ Hl) as Ht. set (b := commas l) in *. clearbody b.
  assert (E : find_brace (b ++ 125 :: post) (0 + zlen pre + 1) false (Some (0 + zlen pre)) (0 + 1) = Some (Some (zlen pre, zlen pre + 1 + zlen b))).
  { rewrite lit_app by assumption. cbn [find_brace]. change (125 =? 92) with false. change (125 =? 91) with false. change (125 =? 93) with false. change (125 =? 123) with false. change ((125 =? 125) && negb false) with true. cbn [andb]. cbv iota.
    change (0 + 1 - 1 <=? 0) with true. cbv iota. repeat f_equal; lia. }
  destruct b as [|x b]; [congruence|]. cbn [app] in *. inversion Ht; subst. unfold special in H1. rewrite !orb_false_iff in H1. destruct H1 as ((((_ & _) & _) & _) & F). rewrite F. exact E.
Qed.
Lemma sel_text : forall s r sel, alt_text s -> r <> [] -> selections (s ++ r) false 0 sel = selections r false 0 (rev s ++ sel).
Proof.
  induction s as [|c s IH]; intros r sel (Hl & Hn) Hr; [reflexivity|]. inversion Hl; subst. unfold special in H1. rewrite !orb_false_iff in H1. destruct H1 as ((((A & B) & D) & E) & F).
  assert (G : c =? 44 = false). { apply Z.eqb_neq. intros ->. apply Hn. now left. }
  assert (Hs : alt_text s) by (split; [assumption|intros X; apply Hn; now right]).
  cbn [app selections rev]. destruct (s ++ r) as [|c2 r2] eqn:X; [destruct s; [|discriminate]; cbn in X; congruence|].
  rewrite A, B, D, E, F, G. cbn [andb]. rewrite <- X. rewrite IH by assumption. now rewrite <- app_assoc.
Qed.
Lemma sel_last : forall s sel, alt_text s -> s <> [] -> selections s false 0 sel = Some [rev sel ++ s].
Proof.
  induction s as [|c s IH]; intros sel (Hl & Hn) Hs; [congruence|]. inversion Hl; subst. unfold special in H1. rewrite !orb_false_iff in H1. destruct H1 as ((((A & B) & D) & E) & F).
  assert (G : c =? 44 = false). { apply Z.eqb_neq. intros ->. apply Hn. now left. }
  assert (Hs' : alt_text s) by (split; [assumption|intros X; apply Hn; now right]).
  cbn [selections]. rewrite A, B, D, E, F, G. cbn [andb]. destruct s as [|c2 s].
  - cbn [orb Z.ltb]. change (0 <? 0) with false. cbn [orb selections option_map rev]. change (0 <? 0) with false. reflexivity.
  - rewrite IH by (assumption || discriminate). cbn [rev]. now rewrite <- app_assoc.
Qed.
Lemma sel_commas : forall l, Forall alt_text l -> last l [] <> [] -> selections (commas l) false 0 [] = Some l.
Proof.
  induction l as [|x [|y l] IH]; intros H Hl; [now cbn in Hl|inversion H; subst; cbn [commas]; rewrite sel_last by assumption; reflexivity|].
  inversion H; subst. assert (Hc : commas (y :: l) <> []) by (apply commas_last; exact Hl).
  change (commas (x :: y :: l)) with (x ++ 44 :: commas (y :: l)). rewrite sel_text by (assumption || discriminate). rewrite app_nil_r.
  cbn [selections]. change (44 =? 91) with false. change (44 =? 93) with false. change (44 =? 123) with false. change (44 =? 125) with false. change (44 =? 92) with false. change (44 =? 44) with true.
  cbn [andb orb]. change (0 <? 0) with false. cbn [orb]. destruct (commas (y :: l)) eqn:E; [congruence|]. rewrite <- E in *.
  rewrite (IH H3 Hl). cbn [option_map]. now rewrite rev_involutive.
Qed.

Fixpoint nalts (gs : list seg) : nat := match gs with [] => 0 | Lit _ :: r => nalts r | Alt _ :: r => S (nalts r) end.
Lemma no_alts : forall gs, nalts gs = 0%nat -> Forall seg_ok gs -> lit_text (request gs) /\ forall x, choice gs x <-> x = request gs.
Proof.
  induction gs as [|[s|l] gs IH]; intros H Ho; cbn in H.
  - split; [constructor|]. intros x. reflexivity.
  - inversion Ho; subst. destruct (IH H H3) as (A & B). split; [apply Forall_app; split; assumption|]. intros x. cbn [choice request flat_map seg_text]. split.
    + intros (y & Hy & ->). apply B in Hy. now subst.
    + intros ->. exists (request gs). split; [now apply B|reflexivity].
  - discriminate.
Qed.
Lemma first_alt : forall gs n, nalts gs = S n -> Forall seg_ok gs -> exists pre l post, gs = pre ++ Alt l :: post /\ nalts pre = 0%nat /\ nalts post = n /\ Forall seg_ok pre /\ seg_ok (Alt l) /\ Forall seg_ok post.
Proof.
  induction gs as [|[s|l] gs IH]; intros n H Ho; cbn in H; [discriminate| |].
  - inversion Ho; subst. destruct (IH _ H H3) as (pre & l & post & -> & R1 & R2 & R3 & R4 & R5). exists (Lit s :: pre), l, post. splits; try assumption; try reflexivity. now constructor.
  - inversion Ho; subst. exists [], l, gs. splits; try reflexivity; try assumption; try lia. constructor.
Qed.
Lemma choice_app : forall a b x, choice (a ++ b) x <-> exists y z, choice a y /\ choice b z /\ x = y ++ z.
Proof.
  induction a as [|[s|l] a IH]; intros b x; cbn [app choice].
  - split; [intros H; exists [], x; auto|intros (y & z & -> & H & ->); exact H].
  - split.
    + intros (y & Hy & ->). apply IH in Hy. destruct Hy as (u & v & Hu & Hv & ->). exists (s ++ u), v. splits; [exists u; auto|assumption|now rewrite app_assoc].
    + intros (y & z & (u & Hu & ->) & Hz & ->). exists (u ++ z). split; [apply IH; exists u, z; auto|now rewrite app_assoc].
  - split.
    + intros (c & y & Hc & Hy & ->). apply IH in Hy. destruct Hy as (u & v & Hu & Hv & ->). exists (c ++ u), v. splits; [exists c, u; auto|assumption|now rewrite app_assoc].
    + intros (y & z & (c & u & Hc & Hu & ->) & Hz & ->). exists c, (u ++ z). splits; [assumption|apply IH; exists u, z; auto|now rewrite app_assoc].
Qed.
Lemma each_in : forall f l, (forall p, In p l -> exists r, f p = XOk r) -> exists r, each f l = XOk r /\ forall n, In n r <-> exists p q, In p l /\ f p = XOk q /\ In n q.
Proof.
  intros f. induction l as [|p l IH]; intros H; cbn [each].
  - exists []. split; [reflexivity|]. intros n. split; [intros []|intros (p & q & [] & _)].
  - destruct (H p (or_introl eq_refl)) as (a & Ha). destruct IH as (b & Hb & Hi); [intros; apply H; now right|]. rewrite Ha, Hb. exists (a ++ b). split; [reflexivity|].
    intros n. rewrite in_app_iff, Hi. split.
    + intros [K|(p' & q & K1 & K2)]; [exists p, a; split; [now left|auto]|exists p', q; split; [now right|auto]].
    + intros (p' & q & [<-|K1] & K2 & K3); [left; rewrite Ha in K2; inversion K2; now subst|right; exists p', q; auto].
Qed.
Lemma strrchr_base : forall p, match strrchr_cut 47 p with Some (d, n) => p = d ++ 47 :: n /\ ~ In 47 n | None => ~ In 47 p end.
Proof.
  induction p as [|c p IH]; [cbn; tauto|]. cbn [strrchr_cut]. destruct (strrchr_cut 47 p) as [[d n]|].
  - destruct IH as (-> & H). split; [reflexivity|assumption].
  - destruct (c =? 47) eqn:E; [split; [assert (c = 47) by lia; now subst|assumption]|]. intros [H|H]; [lia|tauto].
Qed.
Lemma split_47 : forall (d n d' n' : list Z), ~ In 47 n -> ~ In 47 n' -> d ++ 47 :: n = d' ++ 47 :: n' -> n = n'.
Proof.
  induction d as [|c d IH]; intros n d' n' H H' E.
  - destruct d' as [|c' d']; [now inversion E|]. inversion E; subst. exfalso. apply H. apply in_or_app. right. now left.
  - destruct d' as [|c' d']; [inversion E; subst; exfalso; apply H'; apply in_or_app; right; now left|]. inversion E; subst. eapply IH; eassumption.
Qed.
Lemma base_of_last : forall p n, base_of p n <-> n = last_component p.
Proof.
  intros p n. unfold last_component. pose proof (strrchr_base p) as H. destruct (strrchr_cut 47 p) as [[d m]|].
  - destruct H as (-> & H). split.
    + intros (Hn & [E|(d' & E)]); [exfalso; apply Hn; rewrite <- E; apply in_or_app; right; now left|]. symmetry. eapply split_47; eassumption.
    + intros ->. split; [assumption|]. right. now exists d.
  - split.
    + intros (Hn & [E|(d' & E)]); [now symmetry|]. exfalso. apply H. rewrite E. apply in_or_app. right. now left.
    + intros ->. split; [assumption|now left].
Qed.
Lemma braces : forall k gs f, nalts gs = k -> Forall seg_ok gs -> (length (request gs) < f)%nat ->
  exists l, brace_expand f (request gs) = XOk l /\ forall n, In n l <-> exists x, choice gs x /\ base_of x n.
Proof.
  induction k as [|k IH]; intros gs f Hk Ho Hf; (destruct f as [|f]; [lia|]); cbn [brace_expand].
  - destruct (no_alts gs Hk Ho) as (A & B). unfold expand_one. rewrite lit_nil by assumption. eexists. split; [reflexivity|].
    intros n. split.
    + intros [<-|[]]. exists (request gs). split; [now apply B|]. now apply base_of_last.
    + intros (x & Hx & Hb). apply B in Hx. subst. apply base_of_last in Hb. now left.
  - destruct (first_alt _ _ Hk Ho) as (pre & l & post & -> & K1 & K2 & O1 & O2 & O3). destruct O2 as (Hne & Hal & Hla).
    destruct (no_alts pre K1 O1) as (A & B).
    assert (Er : request (pre ++ Alt l :: post) = request pre ++ 123 :: commas l ++ 125 :: request post).
    { unfold request. rewrite flat_map_app. cbn [flat_map seg_text]. rewrite <- app_comm_cons, <- app_assoc. reflexivity. }
    assert (Ex : expand_one (request (pre ++ Alt l :: post)) = Some (Some (map (fun x => request pre ++ x ++ request post) l))).
    { unfold expand_one. rewrite Er. rewrite find_alt by assumption.
      replace (zlen (request pre) + 1 + zlen (commas l) - zlen (request pre) - 1) with (zlen (commas l)) by lia.
      assert (D1 : zdrop (zlen (request pre) + 1) (request pre ++ 123 :: commas l ++ 125 :: request post) = commas l ++ 125 :: request post).
      { unfold zdrop, zlen. rewrite skipn_app. rewrite skipn_all2 by lia. replace (Z.to_nat (Z.of_nat (length (request pre)) + 1) - length (request pre))%nat with 1%nat by lia. reflexivity. }
      assert (D2 : zdrop (zlen (request pre) + 1 + zlen (commas l) + 1) (request pre ++ 123 :: commas l ++ 125 :: request post) = request post).
      { unfold zdrop, zlen. rewrite skipn_app. rewrite skipn_all2 by lia. cbn [app].
        replace (Z.to_nat (Z.of_nat (length (request pre)) + 1 + Z.of_nat (length (commas l)) + 1) - length (request pre))%nat with (S (length (commas l) + 1)) by lia.
        cbn [skipn]. rewrite skipn_app. rewrite skipn_all2 by lia. replace (length (commas l) + 1 - length (commas l))%nat with 1%nat by lia. reflexivity. }
      assert (D3 : forall (a b : list Z), ztake (zlen a) (a ++ b) = a).
      { intros a b. unfold ztake, zlen. rewrite Nat2Z.id, firstn_app, Nat.sub_diag, firstn_all. cbn. apply app_nil_r. }
      rewrite D1, D2, !D3. rewrite sel_commas by assumption. reflexivity. }
    rewrite Ex.
    assert (Rx : forall a, In a l -> request pre ++ a ++ request post = request (pre ++ Lit a :: post)).
    { intros a _. unfold request. rewrite flat_map_app. reflexivity. }
    assert (Ok : forall a, In a l -> exists r, brace_expand f (request pre ++ a ++ request post) = XOk r /\ forall n, In n r <-> exists x, choice (pre ++ Lit a :: post) x /\ base_of x n).
    { intros a Ha. rewrite (Rx a Ha). apply IH.
      - clear -K1 K2. induction pre as [|[s|z] pre IHp]; cbn in *; [assumption|now apply IHp|discriminate].
      - apply Forall_app. split; [assumption|]. constructor; [|assumption]. rewrite Forall_forall in Hal. apply (Hal a Ha).
      - rewrite <- (Rx a Ha). assert (length (request pre ++ a ++ request post) < length (request (pre ++ Alt l :: post)))%nat; [|lia].
        eapply expand_one_len; [exact Ex|]. apply in_map_iff. exists a. auto. }
    destruct (each_in (brace_expand f) (rev (map (fun x => request pre ++ x ++ request post) l))) as (r & Hr & Hi).
    { intros p Hp. apply in_rev, in_map_iff in Hp. destruct Hp as (a & <- & Ha). destruct (Ok a Ha) as (r & Hr & _). eauto. }
    exists r. split; [exact Hr|]. intros n. rewrite Hi. split.
    + intros (p & q & Hp & Hq & Hn). apply in_rev, in_map_iff in Hp. destruct Hp as (a & <- & Ha). destruct (Ok a Ha) as (r' & Hr' & Hi'). rewrite Hr' in Hq. inversion Hq; subst.
      apply Hi' in Hn. destruct Hn as (x & Hx & Hb). exists x. split; [|assumption]. apply choice_app in Hx. destruct Hx as (y & z & Hy & Hz & ->). apply choice_app. exists y, z. split; [assumption|]. split; [|reflexivity].
      cbn [choice] in *. destruct Hz as (u & Hu & ->). exists a, u. auto.
    + intros (x & Hx & Hb). apply choice_app in Hx. destruct Hx as (y & z & Hy & (a & u & Ha & Hu & ->) & ->). destruct (Ok a Ha) as (r' & Hr' & Hi').
      exists (request pre ++ a ++ request post), r'. split; [apply in_rev; rewrite rev_involutive; apply in_map_iff; exists a; auto|]. split; [assumption|]. apply Hi'.
      exists (y ++ a ++ u). split; [|assumption]. apply choice_app. exists y, (a ++ u). splits; try assumption; try reflexivity. cbn [choice]. exists u. auto.
Qed.
