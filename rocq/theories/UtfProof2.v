From Coq Require Import String.
From Verif Require Import Base Bits VisModel VisSpec VisProof UtfModel UtfSpec UtfProof.
Local Open Scope Z_scope.

Lemma app_same_len : forall (A : Type) (p r q t : list A), p ++ r = q ++ t -> zlen p = zlen q -> p = q /\ r = t.
Proof.
  intros A p. induction p as [|a p IH]; intros r q t E L; destruct q as [|b q]; cbn [app] in E.
  - auto.
  - rewrite zlen_cons in L. pose proof (zlen_nonneg _ q). change (zlen (@nil A)) with 0 in L. lia.
  - rewrite zlen_cons in L. pose proof (zlen_nonneg _ p). change (zlen (@nil A)) with 0 in L. lia.
  - injection E as <- E. rewrite !zlen_cons in L. destruct (IH _ _ _ E) as [-> ->]; [lia|auto].
Qed.

(** ** Renderings *)
Section R.
Variable mbtowc : nat -> list Z -> option (Z * Z).
Variable wcwidth : Z -> Z.
Variable nul : bool.
Hypothesis Sane : sane mbtowc wcwidth.
Notation renders := (renders mbtowc wcwidth nul).

Lemma line_dec : forall wc, {line_char nul wc} + {~ line_char nul wc}.
Proof.
  intros wc. destruct (nul && ((wc =? 10) || (wc =? 13) || (wc =? 9))) eqn:E.
  - left. now apply line_char_dec.
  - right. intros H. apply line_char_dec in H. congruence.
Qed.
Lemma renders_total : forall m n src, (length src <= m)%nat -> exists l, renders n src l.
Proof.
  induction m as [|m IH]; intros n src L.
  - destruct src; [|cbn in L; lia]. exists []. constructor.
  - destruct src as [|b r]; [exists []; constructor|]. destruct (mbtowc n (b :: r)) as [[wc len]|] eqn:E.
    + destruct Sane as [S1 _]. destruct (S1 n (b :: r) wc len) as [S2 _]; [discriminate|exact E|].
      assert (Hp : zlen (ztake len (b :: r)) = len) by (rewrite zlen_ztake; lia).
      destruct (IH (S n) (zdrop len (b :: r))) as [l Hl].
      { assert (zlen (zdrop len (b :: r)) = zlen (b :: r) - len) by (rewrite zlen_zdrop; lia). unfold zlen in *. lia. }
      assert (E2 : mbtowc n (ztake len (b :: r) ++ zdrop len (b :: r)) = Some (wc, zlen (ztake len (b :: r)))) by (rewrite Hp, ztake_zdrop; exact E).
      assert (N : ztake len (b :: r) <> []) by (intros Q; rewrite Q in Hp; change (zlen (@nil Z)) with 0 in Hp; lia).
      rewrite <- (ztake_zdrop _ len (b :: r)).
      destruct (line_dec wc) as [LC|LC].
      * eexists. eapply re_line; eassumption.
      * destruct (Z.lt_ge_cases (wcwidth wc) 0) as [W|W]; eexists; [eapply re_hidden|eapply re_char]; eassumption.
    + destruct (IH (S (S n)) r) as [l Hl]; [cbn in L; lia|]. eexists. eapply re_bad; eassumption.
Qed.
Lemma renders_inv : forall n src l, renders n src l ->
  (src = [] /\ l = []) \/
  (exists p rest wc l', src = p ++ rest /\ p <> [] /\ mbtowc n src = Some (wc, zlen p) /\ renders (S n) rest l' /\
    ((line_char nul wc /\ l = char_item p 0 :: l') \/ (~ line_char nul wc /\ 0 <= wcwidth wc /\ l = char_item p (wcwidth wc) :: l') \/
     (~ line_char nul wc /\ wcwidth wc < 0 /\ l = map esc_item p ++ l'))) \/
  (exists b rest l', src = b :: rest /\ mbtowc n src = None /\ renders (S (S n)) rest l' /\ l = esc_item b :: l').
Proof.
  intros n src l H. destruct H as [n|n p rest wc l E N LC R|n p rest wc l E N LC W R|n p rest wc l E N LC W R|n b rest l E R].
  - now left.
  - right. left. exists p, rest, wc, l. auto 10.
  - right. left. exists p, rest, wc, l. auto 10.
  - right. left. exists p, rest, wc, l. auto 10.
  - right. right. exists b, rest, l. auto.
Qed.
Lemma renders_fun : forall n src l, renders n src l -> forall l', renders n src l' -> l = l'.
Proof.
  intros n src l H. induction H as [n|n p rest wc l E N LC R IH|n p rest wc l E N LC W R IH|n p rest wc l E N LC W R IH|n b rest l E R IH]; intros l' H';
    destruct (renders_inv _ _ _ H') as [[Q ->]|[(q & t & wc' & m & Q & Nq & Eq & Rq & K)|(b' & t & m & Q & Eq & Rq & ->)]];
    try reflexivity; try (destruct p; [now elim N|discriminate]); try (destruct q; [now elim Nq|discriminate]); try discriminate; try congruence.
  - rewrite E in Eq. injection Eq as <- L. destruct (app_same_len _ _ _ _ _ Q L) as [<- <-].
    destruct K as [[_ ->]|[(K & _)|(K & _)]]; try contradiction. f_equal. now apply IH.
  - rewrite E in Eq. injection Eq as <- L. destruct (app_same_len _ _ _ _ _ Q L) as [<- <-].
    destruct K as [[K _]|[(_ & _ & ->)|(_ & K & _)]]; try contradiction; try lia. f_equal. now apply IH.
  - rewrite E in Eq. injection Eq as <- L. destruct (app_same_len _ _ _ _ _ Q L) as [<- <-].
    destruct K as [[K _]|[(_ & K & _)|(_ & _ & ->)]]; try contradiction; try lia. f_equal. now apply IH.
  - injection Q as <- <-. f_equal. now apply IH.
Qed.
Lemma renders_need : forall n src l, renders n src l -> sum it_need l <= 4 * zlen src.
Proof.
  intros n src l H. induction H as [n|n p rest wc l E N LC R IH|n p rest wc l E N LC W R IH|n p rest wc l E N LC W R IH|n b rest l E R IH].
  - cbn. lia.
  - rewrite zlen_app. cbn [sum char_item it_need]. pose proof (zlen_nonneg _ p). lia.
  - rewrite zlen_app. cbn [sum char_item it_need]. pose proof (zlen_nonneg _ p). lia.
  - rewrite zlen_app, sum_app, esc_need. lia.
  - rewrite zlen_cons. cbn [sum esc_item it_need]. lia.
Qed.
End R.

Lemma c_str_ok : forall f, is_bytes f -> c_string (c_str f).
Proof.
  intros f H. induction H as [|b r Hb Hr IH]; cbn [c_str]; [constructor|]. destruct (b =? 0) eqn:E; [constructor|].
  constructor; [unfold is_byte in Hb; lia|exact IH].
Qed.
Lemma c_str_len : forall f, zlen (c_str f) <= zlen f.
Proof.
  induction f as [|b r IH]; cbn [c_str]; [lia|]. destruct (b =? 0); rewrite ?zlen_cons; [change (zlen (@nil Z)) with 0; pose proof (zlen_nonneg _ r); lia|lia].
Qed.

(** ** Runs that are not stopped *)
Section S.
Variable isgraph iscntrl : Z -> bool.
Variable mbtowc : nat -> list Z -> option (Z * Z).
Variable wcwidth : Z -> Z.
Variable codeset : list Z.
Variable grow : nat -> bool.
Variables maxsz mw : Z.
Notation chars := (chars isgraph iscntrl mbtowc wcwidth codeset grow).

Section G.
Hypothesis Grow : forall n, grow n = true.
Lemma grow_some : forall s need, exists s', grow_dst grow s maxsz need = Some s'.
Proof. intros s need. unfold grow_dst. destruct (_ <? _); [eauto|]. cbv zeta. rewrite Grow. eauto. Qed.
Lemma add_ret_go : forall s n s', add_ret s n <> PStop s'.
Proof. intros s n s'. unfold add_ret. destruct (_ >=? _); [|discriminate]. destruct (is_int _); discriminate. Qed.
Lemma show_go : forall p w s s', show grow maxsz mw p w s <> PStop s'.
Proof.
  intros p w s s'. unfold show. destruct (negb _); [discriminate|]. cbv zeta. match goal with |- (if ?b then _ else _) <> _ => destruct b end; [|apply add_ret_go].
  match goal with |- context [grow_dst grow ?x ?a ?b] => destruct (grow_some x b) as [s1 ->] end. destruct (_ || _); [discriminate|apply add_ret_go].
Qed.
Lemma escape_go : forall p s s', escape isgraph iscntrl grow maxsz mw p s <> PStop s'.
Proof.
  induction p as [|c p IH]; intros s s'; cbn [escape]; [discriminate|]. destruct (negb _); [discriminate|]. cbv zeta.
  match goal with |- match ?x with _ => _ end <> _ => assert (N : forall s', x <> PStop s') end.
  { intros s1. match goal with |- (if ?b then _ else _) <> _ => destruct b end; [|apply add_ret_go].
    match goal with |- context [grow_dst grow ?x ?a ?b] => destruct (grow_some x b) as [s2 ->] end. destruct (_ || _); [discriminate|apply add_ret_go]. }
  match goal with |- match ?x with _ => _ end <> _ => destruct x as [s1|s1|] end; [apply IH|now elim (N s1)|discriminate].
Qed.
Hypothesis Safe : dangerous_locale codeset = false.
Lemma chars_go : forall nul fuel src s s', chars fuel nul maxsz mw src s <> Some (PStop s').
Proof.
  intros nul. induction fuel as [|k IH]; intros src s s'; cbn [UtfModel.chars]; [discriminate|]. destruct src as [|b r]; [discriminate|].
  assert (N : forall s1 t, one_char isgraph iscntrl mbtowc wcwidth codeset grow nul maxsz mw (b :: r) s <> (PStop s1, t)).
  { intros s1 t. unfold one_char. destruct (mbtowc _ _) as [[wc len]|]; cbv zeta; rewrite Safe, ?andb_false_r.
    - destruct (nul && _); [intros Q; injection Q as Q _; now apply show_go in Q|].
      destruct (_ >=? 0); intros Q; injection Q as Q _; [now apply show_go in Q|now apply escape_go in Q].
    - intros Q. apply (f_equal fst) in Q. exact (escape_go _ _ _ Q). }
  destruct (one_char _ _ _ _ _ _ _ _ _ _ _) as [[s1|s1|] t]; [apply IH|now elim (N s1 t)|discriminate].
Qed.
End G.

(** In any other locale text is refused unless it needs no escapes. *)
Hypothesis Sane : sane mbtowc wcwidth.
Lemma step_calls : forall p w s s', show grow maxsz mw p w s = PGo s' -> p_calls s' = p_calls s.
Proof.
  intros p w s s'. unfold show. destruct (negb _); [discriminate|]. cbv zeta.
  assert (Q : forall a n s1 s2, add_ret (put s1 a n) (zlen p) = PGo s2 -> p_calls s2 = p_calls s1).
  { intros a n s1 s2. unfold add_ret. destruct (_ >=? _); [|intros E; injection E as <-; reflexivity]. match goal with |- (if ?b then _ else _) = _ -> _ => destruct b end; [|discriminate]. intros E; injection E as <-; reflexivity. }
  assert (Q2 : forall s1 s2, add_ret s1 (zlen p) = PGo s2 -> p_calls s2 = p_calls s1).
  { intros s1 s2. unfold add_ret. destruct (_ >=? _); [|intros E; injection E as <-; reflexivity]. match goal with |- (if ?b then _ else _) = _ -> _ => destruct b end; [|discriminate]. intros E; injection E as <-; reflexivity. }
  match goal with |- context [if ?b then set_print s false else s] => set (s0 := if b then set_print s false else s) end. assert (C0 : p_calls s0 = p_calls s) by (unfold s0; destruct (_ && _); reflexivity).
  destruct (p_print s0); [|intros E; apply Q2 in E; congruence].
  destruct (grow_dst grow s0 maxsz (zlen p)) as [s1|] eqn:G; [|discriminate]. match goal with |- (if ?b then _ else _) = _ -> _ => destruct b end; [discriminate|]. intros E. apply Q in E.
  assert (p_calls s1 = p_calls s0); [|congruence]. clearbody s0. unfold grow_dst in G. destruct (_ <? _); [congruence|]. cbv zeta in G.
  destruct (grow _); [|discriminate]. injection G as <-. reflexivity.
Qed.
Lemma danger : dangerous_locale codeset = true -> forall nul n src l, renders mbtowc wcwidth nul n src l ->
  forall fuel s s', p_calls s = n -> chars fuel nul maxsz mw src s = Some (PGo s') -> text l = src.
Proof.
  intros D nul n src l H. induction H as [n|n p rest wc l E N LC R IH|n p rest wc l E N LC W R IH|n p rest wc l E N LC W R IH|n b rest l E R IH];
    intros fuel s s' Cn Q; (destruct fuel as [|fuel]; [discriminate|]).
  - reflexivity.
  - cbn [UtfModel.chars] in Q. destruct (p ++ rest) as [|a q] eqn:Ep; [destruct p; [now elim N|discriminate]|]. rewrite <- Ep in *.
    unfold one_char in Q. rewrite Cn, E in Q. cbv zeta in Q. rewrite (proj2 (line_char_dec nul wc) LC) in Q.
    rewrite ztake_app_exact, zdrop_app_exact in Q by reflexivity.
    destruct (show _ _ _ _ _ _) as [s1|s1|] eqn:Es; [|discriminate|discriminate]. apply step_calls in Es.
    rewrite text_cons. cbn [char_item it_bytes]. f_equal. eapply IH; [|exact Q]. rewrite Es. cbn [called p_calls]. now rewrite Cn.
  - cbn [UtfModel.chars] in Q. destruct (p ++ rest) as [|a q] eqn:Ep; [destruct p; [now elim N|discriminate]|]. rewrite <- Ep in *.
    unfold one_char in Q. rewrite Cn, E in Q. cbv zeta in Q. rewrite (line_char_not nul wc LC) in Q.
    rewrite (proj2 (Z.eqb_neq (wcwidth wc) (-1))) in Q by lia. cbn [andb] in Q. rewrite (proj2 (Z.geb_le (wcwidth wc) 0)) in Q by lia.
    rewrite ztake_app_exact, zdrop_app_exact in Q by reflexivity.
    destruct (show _ _ _ _ _ _) as [s1|s1|] eqn:Es; [|discriminate|discriminate]. apply step_calls in Es.
    rewrite text_cons. cbn [char_item it_bytes]. f_equal. eapply IH; [|exact Q]. rewrite Es. cbn [called p_calls]. now rewrite Cn.
  - exfalso. cbn [UtfModel.chars] in Q. destruct (p ++ rest) as [|a q] eqn:Ep; [destruct p; [now elim N|discriminate]|]. rewrite <- Ep in *.
    unfold one_char in Q. rewrite Cn, E in Q. cbv zeta in Q. rewrite (line_char_not nul wc LC) in Q. destruct Sane as [_ SW]. specialize (SW wc).
    rewrite (proj2 (Z.eqb_eq (wcwidth wc) (-1))) in Q by lia. cbn [andb] in Q. rewrite D in Q. discriminate.
  - exfalso. cbn [UtfModel.chars] in Q. unfold one_char in Q. rewrite Cn, E in Q. cbv zeta in Q. rewrite D in Q. discriminate.
Qed.
End S.

(** ** UTF-8 *)
Lemma utf8_inv : forall s wc len, utf8 s = Some (wc, len) ->
  exists p r, s = p ++ r /\ zlen p = len /\ (forall t, utf8 (p ++ t) = Some (wc, len)) /\ 1 <= len <= 4 /\
    ((p = [wc] /\ wc < 128) \/ (128 <= wc /\ Forall (fun b => 128 <= b) p)).
Proof.
  intros s wc len H. destruct s as [|a r]; [discriminate|]. unfold utf8 in H.
  destruct (a <? 128) eqn:A.
  { match type of H with Some (?x, ?y) = _ => assert (wc = x) as -> by congruence; assert (len = y) as -> by congruence end; clear H. exists [a], r. split; [reflexivity|]. split; [reflexivity|]. split; [intros t; cbn [app utf8]; now rewrite A|]. split; [lia|]. left. split; [reflexivity|lia]. }
  destruct r as [|b r]; [discriminate|]. destruct ((194 <=? a) && (a <=? 223)) eqn:A2.
  { destruct (cont b) eqn:Cb; [|discriminate]. match type of H with Some (?x, ?y) = _ => assert (wc = x) as -> by congruence; assert (len = y) as -> by congruence end; clear H. exists [a; b], r. split; [reflexivity|]. split; [reflexivity|].
    split; [intros t; cbn [app utf8]; now rewrite A, A2, Cb|]. split; [lia|]. right. unfold cont in *. split; [lia|]. repeat constructor; lia. }
  destruct r as [|c r]; [discriminate|]. destruct ((224 <=? a) && (a <=? 239)) eqn:A3.
  { match type of H with (if ?x then _ else _) = _ => destruct x eqn:Cb end; [|discriminate]. match type of H with Some (?x, ?y) = _ => assert (wc = x) as -> by congruence; assert (len = y) as -> by congruence end; clear H. exists [a; b; c], r. split; [reflexivity|]. split; [reflexivity|].
    split; [intros t; cbn [app utf8]; now rewrite A, A2, A3, Cb|]. split; [lia|]. right. unfold cont in *. split; [lia|]. repeat constructor; lia. }
  destruct r as [|e r]; [discriminate|].
  match type of H with (if ?x then _ else _) = _ => destruct x eqn:Cb end; [|discriminate]. match type of H with Some (?x, ?y) = _ => assert (wc = x) as -> by congruence; assert (len = y) as -> by congruence end; clear H. exists [a; b; c; e], r. split; [reflexivity|]. split; [reflexivity|].
  split; [intros t; cbn [app utf8]; now rewrite A, A2, A3, Cb|]. split; [lia|]. right. unfold cont in *. split; [lia|]. repeat constructor; lia.
Qed.
Lemma utf8_plain : plain_decoder utf8.
Proof.
  split.
  - intros b r [P1 P2]. unfold utf8. rewrite (proj2 (Z.ltb_lt b 128)) by lia. reflexivity.
  - intros p r r' wc N E. destruct (utf8_inv _ _ _ E) as (q & t & Q & L & K & _). destruct (app_same_len _ _ _ _ _ Q) as [-> _]; [lia|]. apply K.
Qed.
Lemma utf8_sane : forall width, (forall wc, -1 <= width wc <= 2147483647) -> sane (fun _ => utf8) width.
Proof.
  intros width W. split; [|exact W]. intros n s wc len N E. destruct (utf8_inv _ _ _ E) as (p & r & -> & <- & _ & L & _).
  rewrite zlen_app. pose proof (zlen_nonneg _ r). lia.
Qed.

(** ** Reading the output *)
Section D.
Variable d : list Z -> option (Z * Z).
Variable width : Z -> Z.
Variable nul : bool.
Hypothesis Plain : plain_decoder d.
Hypothesis Wide : forall b, printable b -> 0 <= width b.
Definition seen (wc : Z) : Prop := 0 <= width wc \/ line_char nul wc.
Definition item_ok (it : item) : Prop :=
  (exists wc, it_bytes it <> [] /\ (forall r, d (it_bytes it ++ r) = Some (wc, zlen (it_bytes it))) /\ seen wc) \/
  (exists b, 1 <= b <= 255 /\ it_bytes it = escaped b).

Lemma renders_ok : forall n src l, renders (fun _ => d) width nul n src l -> c_string src -> Forall item_ok l.
Proof.
  intros n src l H. destruct Plain as [_ P2]. induction H as [n|n p rest wc l E N LC R IH|n p rest wc l E N LC W R IH|n p rest wc l E N LC W R IH|n b rest l E R IH]; intros C.
  - constructor.
  - apply Forall_app in C as [Cp Cr]. constructor; [|now apply IH]. left. exists wc. cbn [char_item it_bytes]. split; [exact N|]. split; [intros r; eapply P2; eassumption|]. now right.
  - apply Forall_app in C as [Cp Cr]. constructor; [|now apply IH]. left. exists wc. cbn [char_item it_bytes]. split; [exact N|]. split; [intros r; eapply P2; eassumption|]. now left.
  - apply Forall_app in C as [Cp Cr]. apply Forall_app. split; [|now apply IH]. apply Forall_forall. intros it Hi. apply in_map_iff in Hi. destruct Hi as (b & <- & Hb).
    right. exists b. rewrite Forall_forall in Cp. split; [now apply Cp|reflexivity].
  - inversion C; subst. constructor; [|now apply IH]. right. exists b. split; [assumption|reflexivity].
Qed.
Lemma escaped_printable : forall b, 1 <= b <= 255 -> Forall printable (escaped b).
Proof.
  intros b Hb. unfold escaped, printable. destruct (b =? 92); repeat constructor; Z.to_euclidean_division_equations; lia.
Qed.
Lemma decodes_ascii : forall p r l, Forall printable p -> decodes d r l -> decodes d (p ++ r) (p ++ l).
Proof.
  intros p r l H D. destruct Plain as [P1 _]. induction H as [|b p Hb Hp IH]; cbn [app]; [exact D|].
  change (b :: p ++ r) with ([b] ++ (p ++ r)). apply de_char; [discriminate| |exact IH]. change (zlen [b]) with 1. now apply P1.
Qed.
Lemma items_decode : forall l, Forall item_ok l -> exists cps, decodes d (text l) cps /\ Forall seen cps.
Proof.
  intros l H. induction H as [|it l Hi Hl (cps & D & F)]; [exists []; split; constructor|]. rewrite text_cons. destruct Hi as [(wc & N & K & S)|(b & Hb & ->)].
  - exists (wc :: cps). split; [apply de_char; [exact N|apply K|exact D]|constructor; assumption].
  - pose proof (escaped_printable b Hb) as P. exists (escaped b ++ cps). split; [now apply decodes_ascii|]. apply Forall_app. split; [|exact F].
    eapply Forall_impl; [|exact P]. intros c Hc. left. now apply Wide.
Qed.
End D.
