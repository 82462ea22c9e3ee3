From Coq Require Import String.
From Verif Require Import Base Bits VisModel VisSpec VisProof UtfModel UtfSpec.
Local Open Scope Z_scope.

Lemma text_app : forall a b, text (a ++ b) = text a ++ text b.
Proof. intros. unfold text. now rewrite map_app, concat_app. Qed.
Lemma text_cons : forall x l, text (x :: l) = it_bytes x ++ text l.
Proof. reflexivity. Qed.
Lemma sum_app : forall f a b, sum f (a ++ b) = sum f a + sum f b.
Proof. intros f a b. induction a as [|x a IH]; cbn [sum app]; lia. Qed.
Definition blen (x : item) : Z := zlen (it_bytes x).
Lemma text_len : forall l, zlen (text l) = sum blen l.
Proof. induction l as [|x l IH]; [reflexivity|]. rewrite text_cons, zlen_app, IH. reflexivity. Qed.

Lemma vis_escaped : forall isgraph iscntrl c, ascii_classes isgraph iscntrl -> 1 <= c <= 255 ->
  vis isgraph iscntrl c (Z.lor VIS_OCTAL VIS_ALL) = escaped c.
Proof.
  intros g k c Cls Hc. unfold vis, isvisible. change (has (Z.lor VIS_OCTAL VIS_ALL) VIS_ALL) with true. cbn [negb]. rewrite orb_false_r.
  unfold escaped. destruct (c =? 92) eqn:E.
  - apply Z.eqb_eq in E. subst c. destruct (Cls 92) as [[_ G] _]; [lia|]. rewrite G by lia.
    change (92 <? 128) with true. change (is_glob 92) with false. cbn [negb orb andb]. reflexivity.
  - cbn [andb]. change (has (Z.lor VIS_OCTAL VIS_ALL) VIS_CSTYLE) with false. cbv iota. unfold vis_rest.
    change (has (Z.lor VIS_OCTAL VIS_ALL) VIS_OCTAL) with true. rewrite orb_true_r. cbn [orb].
    pose (P := fun c => beqb (octal c) [92; 48 + c / 64; 48 + (c / 8) mod 8; 48 + c mod 8]).
    assert (H : P c = true) by (apply (range_ind P 256); [reflexivity|lia]). unfold P in H. now apply beqb_eq in H.
Qed.
Lemma escaped_len : forall b, 2 <= zlen (escaped b) <= 4.
Proof. intros b. unfold escaped. destruct (b =? 92); unfold zlen; cbn [length]; lia. Qed.

Definition good (it : item) : Prop :=
  0 < zlen (it_bytes it) <= it_need it /\ it_need it <= 16 /\ 0 <= it_cols it <= it_wneed it /\ it_wneed it <= INT_MAX.

Lemma good_char : forall p w, p <> [] -> zlen p <= 16 -> 0 <= w <= INT_MAX -> good (char_item p w).
Proof.
  intros p w N L W. unfold good, char_item. cbn. assert (0 < zlen p) by (destruct p; [now elim N|rewrite zlen_cons; pose proof (zlen_nonneg _ p); lia]). lia.
Qed.
Lemma good_esc : forall b, good (esc_item b).
Proof. intros b. unfold good, esc_item. cbn [it_bytes it_cols it_need it_wneed]. pose proof (escaped_len b). unfold INT_MAX. lia. Qed.
Lemma esc_need : forall p, sum it_need (map esc_item p) = 4 * zlen p.
Proof. induction p as [|b p IH]; [reflexivity|]. cbn [map sum esc_item it_need]. rewrite zlen_cons, IH. lia. Qed.

Lemma line_char_dec : forall (nul : bool) wc, nul && ((wc =? 10) || (wc =? 13) || (wc =? 9)) = true <-> line_char nul wc.
Proof. intros nul wc. unfold line_char. destruct nul; cbn [andb]; split; intros H; [split; [reflexivity|lia]|lia|discriminate|destruct H; discriminate]. Qed.
Lemma line_char_not : forall (nul : bool) wc, ~ line_char nul wc -> nul && ((wc =? 10) || (wc =? 13) || (wc =? 9)) = false.
Proof. intros nul wc N. destruct (nul && _) eqn:E; [|reflexivity]. exfalso. apply N. now apply line_char_dec. Qed.

Section P.
Variable isgraph iscntrl : Z -> bool.
Hypothesis Cls : ascii_classes isgraph iscntrl.
Variable mbtowc : nat -> list Z -> option (Z * Z).
Variable wcwidth : Z -> Z.
Variable codeset : list Z.
Variable grow : nat -> bool.
Variables maxsz mw : Z.
Hypothesis Hmax : 0 <= maxsz <= INT_MAX.
Hypothesis Hmw : 0 <= mw <= INT_MAX.

(** What show and escape have in common. *)
Definition step (extra : Z) (it : item) (s : pstate) : pout :=
  let s := if p_print s && ((zlen (p_dst s) >=? maxsz - it_need it) || (p_width s >? mw - it_wneed it)) then set_print s false else s in
  if p_print s then
    match grow_dst grow s maxsz (it_need it) with
    | None => PStop (set_ret s (-1))
    | Some s =>
        if negb (is_int (p_width s + it_cols it)) || (zlen (p_dst s) + zlen (it_bytes it) + extra >? p_sz s) then PUndef
        else add_ret (put s (it_bytes it) (it_cols it)) (zlen (it_bytes it))
    end
  else add_ret s (it_need it).

Lemma is_int_ok : forall x, 0 <= x <= INT_MAX -> is_int x = true.
Proof. intros x H. unfold is_int, INT_MAX in *. lia. Qed.
Lemma is_int_sub : forall w, 0 <= w <= INT_MAX -> is_int (mw - w) = true.
Proof. intros x H. unfold is_int, INT_MAX in *. lia. Qed.

Lemma show_step : forall p w s, 0 <= w <= INT_MAX -> show grow maxsz mw p w s = step 0 (char_item p w) s.
Proof.
  intros p w s Hw. unfold show, step, char_item. cbn [it_bytes it_cols it_need it_wneed]. rewrite is_int_sub by lia. cbn [negb].
  cbv zeta. destruct (p_print (if p_print s && _ then _ else _)); [|reflexivity].
  destruct (grow_dst grow _ maxsz (zlen p)) as [s'|]; [|reflexivity]. now rewrite Z.add_0_r.
Qed.
Lemma escape_step : forall c r s, 1 <= c <= 255 ->
  escape isgraph iscntrl grow maxsz mw (c :: r) s =
  match step 1 (esc_item c) s with PGo s' => escape isgraph iscntrl grow maxsz mw r s' | other => other end.
Proof.
  intros c r s Hc. cbn [escape]. rewrite is_int_sub by (unfold INT_MAX; lia). cbn [negb]. rewrite vis_escaped by assumption.
  unfold step, esc_item. cbn [it_bytes it_cols it_need it_wneed]. cbv zeta.
  match goal with |- match ?x with _ => _ end = _ => destruct x; reflexivity end.
Qed.

Definition inv (s : pstate) : Prop :=
  zlen (p_dst s) < p_sz s /\ 0 <= p_width s <= mw /\ (p_dst s = [] \/ zlen (p_dst s) < maxsz).
Definition nofit (it : item) (s : pstate) : Prop := maxsz <= zlen (p_dst s) + it_need it \/ mw < p_width s + it_wneed it.
Definition same_out (s s' : pstate) : Prop := p_dst s' = p_dst s /\ p_width s' = p_width s.

Lemma step_ok : forall extra it s, 0 <= extra <= 1 -> inv s -> good it -> 0 <= p_ret s -> p_ret s + it_need it <= INT_MAX ->
  match step extra it s with
  | PUndef => False
  | PStop s' => inv s' /\ same_out s s' /\ p_ret s' = -1 /\ exists n, grow n = false
  | PGo s' => inv s' /\ p_calls s' = p_calls s /\
      ((p_print s = true /\ p_print s' = true /\ p_dst s' = p_dst s ++ it_bytes it /\ p_width s' = p_width s + it_cols it /\
        p_ret s' = p_ret s + zlen (it_bytes it) /\ ~ nofit it s) \/
       (p_print s' = false /\ same_out s s' /\ p_ret s' = p_ret s + it_need it /\ (p_print s = true -> nofit it s)))
  end.
Proof.
  intros extra it s He (I1 & I2 & I3) (G1 & G2 & G3 & G4) R0 R1. unfold step.
  assert (Off : forall s0, same_out s s0 -> p_sz s0 = p_sz s -> p_ret s0 = p_ret s -> p_calls s0 = p_calls s -> p_print s0 = false -> (p_print s = true -> nofit it s) ->
    match add_ret s0 (it_need it) with
    | PUndef => False
    | PStop s' => inv s' /\ same_out s s' /\ p_ret s' = -1 /\ exists n, grow n = false
    | PGo s' => inv s' /\ p_calls s' = p_calls s /\
      ((p_print s = true /\ p_print s' = true /\ p_dst s' = p_dst s ++ it_bytes it /\ p_width s' = p_width s + it_cols it /\
        p_ret s' = p_ret s + zlen (it_bytes it) /\ ~ nofit it s) \/
       (p_print s' = false /\ same_out s s' /\ p_ret s' = p_ret s + it_need it /\ (p_print s = true -> nofit it s)))
    end).
  { intros s0 [O1 O2] O3 O4 O5 O6 N. unfold add_ret. rewrite O4. rewrite (proj2 (Z.geb_le _ _) R0). rewrite is_int_ok by lia.
    split; [unfold inv; cbn [set_ret p_dst p_sz p_width]; rewrite O1, O2, O3; auto|]. split; [exact O5|]. right.
    split; [exact O6|]. split; [split; assumption|]. split; [reflexivity|exact N]. }
  destruct (p_print s) eqn:Pr; cbn [andb].
  2:{ cbv zeta. rewrite Pr. apply (Off s); try reflexivity; [split; reflexivity|exact Pr|discriminate]. }
  destruct ((zlen (p_dst s) >=? maxsz - it_need it) || (p_width s >? mw - it_wneed it)) eqn:F.
  { cbv zeta. cbn [set_print p_print]. apply Off; try reflexivity; [split; reflexivity|]. intros _. unfold nofit. lia. }
  cbv zeta. rewrite Pr. unfold grow_dst.
  assert (NF : ~ nofit it s) by (unfold nofit; lia).
  assert (Fin : forall s0, same_out s s0 -> p_ret s0 = p_ret s -> p_calls s0 = p_calls s -> p_print s0 = true -> zlen (p_dst s) + it_need it < p_sz s0 ->
    match (if negb (is_int (p_width s0 + it_cols it)) || (zlen (p_dst s0) + zlen (it_bytes it) + extra >? p_sz s0) then PUndef
        else add_ret (put s0 (it_bytes it) (it_cols it)) (zlen (it_bytes it))) with
    | PUndef => False
    | PStop s' => inv s' /\ same_out s s' /\ p_ret s' = -1 /\ exists n, grow n = false
    | PGo s' => inv s' /\ p_calls s' = p_calls s /\
      ((true = true /\ p_print s' = true /\ p_dst s' = p_dst s ++ it_bytes it /\ p_width s' = p_width s + it_cols it /\
        p_ret s' = p_ret s + zlen (it_bytes it) /\ ~ nofit it s) \/
       (p_print s' = false /\ same_out s s' /\ p_ret s' = p_ret s + it_need it /\ (true = true -> nofit it s)))
    end).
  { intros s0 [O1 O2] O4 O5 O6 Sz. rewrite O1, O2. rewrite is_int_ok by lia. cbn [negb orb].
    replace (zlen (p_dst s) + zlen (it_bytes it) + extra >? p_sz s0) with false by lia. cbv iota. unfold add_ret. cbn [put p_ret]. rewrite O4. rewrite (proj2 (Z.geb_le _ _) R0).
    rewrite is_int_ok by lia. split.
    - unfold inv. cbn [set_ret put p_dst p_sz p_width]. rewrite O1, O2, zlen_app. split; [lia|]. split; [lia|]. right. lia.
    - split; [exact O5|]. left. cbn [set_ret put p_dst p_sz p_width p_ret p_print]. rewrite O1, O2. auto 10. }
  destruct (zlen (p_dst s) + it_need it <? p_sz s) eqn:Sz.
  - apply Fin; try reflexivity; [split; reflexivity|exact Pr|lia].
  - cbv zeta. destruct (grow (p_grows s)) eqn:Gr.
    + apply Fin; try reflexivity; [split; reflexivity|exact Pr|]. cbn [p_sz].
      destruct (p_sz s + 128 >? maxsz); lia.
    + split; [unfold inv; cbn [set_ret p_dst p_sz p_width]; auto|]. split; [split; reflexivity|]. split; [reflexivity|]. now exists (p_grows s).
Qed.

(** What a run over [l] may end in. *)
Definition extends (l : list item) (k : nat) (s s' : pstate) : Prop :=
  (k <= length l)%nat /\ p_dst s' = p_dst s ++ text (firstn k l) /\ p_width s' = p_width s + sum it_cols (firstn k l).
Definition ended (l : list item) (s s' : pstate) : Prop :=
  exists k, extends l k s s' /\
    (p_print s = false -> k = 0%nat /\ p_print s' = false /\ p_ret s' = p_ret s + sum it_need l) /\
    (p_print s = true ->
      (p_print s' = true /\ k = length l /\ p_ret s' = p_ret s + sum blen l) \/
      (p_print s' = false /\ (exists it, nth_error l k = Some it /\ nofit it s') /\
        p_ret s' = p_ret s + sum blen (firstn k l) + sum it_need (skipn k l))).
Definition stopped (l : list item) (s s' : pstate) : Prop :=
  exists k, extends l k s s' /\ p_ret s' = -1.

Lemma nofit_same : forall it s s', same_out s s' -> nofit it s -> nofit it s'.
Proof. intros it s s' [A B]. unfold nofit. now rewrite A, B. Qed.
Lemma same_sym : forall s s', same_out s s' -> same_out s' s.
Proof. intros s s' [A B]. split; congruence. Qed.

Definition moved (it : item) (s s1 : pstate) : Prop :=
  (p_print s = true /\ p_print s1 = true /\ p_dst s1 = p_dst s ++ it_bytes it /\ p_width s1 = p_width s + it_cols it /\
        p_ret s1 = p_ret s + zlen (it_bytes it)) \/
       (p_print s1 = false /\ same_out s s1 /\ p_ret s1 = p_ret s + it_need it /\ (p_print s = true -> nofit it s)).

Lemma extends_off : forall it l s s1 s', same_out s s1 -> extends l 0 s1 s' -> extends (it :: l) 0 s s'.
Proof.
  intros it l s s1 s' [A B] (_ & C & D). split; [lia|]. cbn [firstn] in *. rewrite C, D, A, B. split; reflexivity.
Qed.
Lemma ended_cons : forall it l s s1 s', moved it s s1 -> ended l s1 s' -> ended (it :: l) s s'.
Proof.
  intros it l s s1 s' [(P & P1 & D1 & W1 & R1)|(P1 & S1 & R1 & N)] (k & X & E0 & E1).
  - exists (S k). destruct X as (X1 & X2 & X3). split; [|split].
    + split; [cbn [length]; lia|]. cbn [firstn]. rewrite text_cons. cbn [sum]. rewrite X2, X3, D1, W1, <- app_assoc. split; [reflexivity|lia].
    + congruence.
    + intros _. destruct (E1 P1) as [(Q1 & Q2 & Q3)|(Q1 & Q2 & Q3)].
      * left. split; [exact Q1|]. cbn [length sum]. split; [now f_equal|]. unfold blen at 1. lia.
      * right. split; [exact Q1|]. cbn [nth_error]. split; [exact Q2|]. cbn [firstn skipn sum]. unfold blen at 1. lia.
  - destruct (E0 P1) as (-> & Q2 & Q3). exists 0%nat. split; [eapply extends_off; eassumption|]. split.
    + intros _. split; [reflexivity|]. split; [exact Q2|]. cbn [sum]. lia.
    + intros P. right. split; [exact Q2|]. cbn [nth_error firstn skipn sum]. split; [|lia]. exists it. split; [reflexivity|].
      assert (same_out s s'). { destruct X as (_ & X2 & X3). destruct S1 as [A B]. cbn [firstn] in *. cbn [sum] in X3. change (text []) with (@nil Z) in X2. rewrite app_nil_r in X2. split; [congruence|lia]. }
      eapply nofit_same; [eassumption|now apply N].
Qed.
Lemma stopped_cons : forall it l s s1 s', moved it s s1 -> (p_print s1 = false -> exists k, extends l k s1 s' /\ k = 0%nat) -> stopped l s1 s' -> stopped (it :: l) s s'.
Proof.
  intros it l s s1 s' [(P & P1 & D1 & W1 & R1)|(P1 & S1 & R1 & N)] Z0 (k & X & R).
  - exists (S k). split; [|exact R]. destruct X as (X1 & X2 & X3). split; [cbn [length]; lia|]. cbn [firstn]. rewrite text_cons. cbn [sum].
    rewrite X2, X3, D1, W1, <- app_assoc. split; [reflexivity|lia].
  - destruct (Z0 P1) as (k' & X' & ->). exists 0%nat. split; [eapply extends_off; eassumption|exact R].
Qed.

(** The conclusion of a run. *)
Definition post (l : list item) (s : pstate) (o : pout) : Prop :=
  match o with
  | PUndef => False
  | PStop s' => inv s' /\ stopped l s s' /\ (p_print s = false -> extends l 0 s s')
  | PGo s' => inv s' /\ 0 <= p_ret s' /\ p_ret s' <= p_ret s + sum it_need l /\ ended l s s'
  end.
Lemma post_nil : forall s, inv s -> 0 <= p_ret s -> post [] s (PGo s).
Proof.
  intros s I R. split; [exact I|]. split; [exact R|]. cbn [sum]. split; [lia|]. exists 0%nat. split.
  - split; [cbn; lia|]. cbn [firstn sum]. change (text []) with (@nil Z). rewrite app_nil_r. split; [reflexivity|lia].
  - split; intros P; [|left]; cbn [sum length]; split; auto; split; auto; lia.
Qed.
Lemma post_stop0 : forall l s s', inv s' -> same_out s s' -> p_ret s' = -1 -> post l s (PStop s').
Proof.
  intros l s s' I [A B] R. assert (X : extends l 0 s s').
  { split; [lia|]. cbn [firstn sum]. change (text []) with (@nil Z). rewrite app_nil_r. split; [exact A|lia]. }
  split; [exact I|]. split; [|now intros]. exists 0%nat. auto.
Qed.
Lemma post_cons : forall extra it l s o, 0 <= extra <= 1 -> inv s -> good it -> 0 <= p_ret s -> p_ret s + it_need it <= INT_MAX ->
  (forall s1, inv s1 -> 0 <= p_ret s1 -> p_calls s1 = p_calls s -> p_ret s1 <= p_ret s + it_need it -> step extra it s = PGo s1 -> post l s1 o) ->
  (forall o1, step extra it s = o1 -> (forall s1, o1 <> PGo s1) -> o = o1) ->
  post (it :: l) s o.
Proof.
  intros extra it l s o He I G R0 R1 Hgo Hother. pose proof (step_ok extra it s He I G R0 R1) as H.
  destruct (step extra it s) as [s1|s1|] eqn:E.
  - destruct H as (I1 & C1 & M).
    assert (Rb : 0 <= p_ret s1 <= p_ret s + it_need it).
    { destruct G as (G1 & _). destruct M as [(_ & _ & _ & _ & M & _)|(_ & _ & M & _)]; lia. }
    assert (M' : moved it s s1). { destruct M as [(M1 & M2 & M3 & M4 & M5 & _)|M]; [left; auto 10|right; exact M]. }
    specialize (Hgo s1 I1 ltac:(lia) C1 ltac:(lia) eq_refl). destruct o as [s'|s'|]; [| |exact Hgo].
    + destruct Hgo as (A & B & C & D). split; [exact A|]. split; [exact B|]. cbn [sum]. split; [lia|]. eapply ended_cons; eassumption.
    + destruct Hgo as (A & B & C). split; [exact A|]. split.
      * eapply stopped_cons; [eassumption| |exact B]. intros P. exists 0%nat. split; [now apply C|reflexivity].
      * intros P. destruct M' as [(M' & _)|(P1 & S1 & _)]; [congruence|]. eapply extends_off; [exact S1|]. now apply C.
  - rewrite (Hother _ eq_refl) by discriminate. destruct H as (H1 & H2 & H3 & _). now apply post_stop0.
  - destruct H.
Qed.

(** An escaped character, and then the rest. *)
Lemma escape_then : forall p l s (K : pstate -> pout), c_string p -> inv s -> 0 <= p_ret s -> p_ret s + 4 * zlen p <= INT_MAX ->
  (forall s1, inv s1 -> 0 <= p_ret s1 -> p_calls s1 = p_calls s -> p_ret s1 <= p_ret s + 4 * zlen p -> post l s1 (K s1)) ->
  post (map esc_item p ++ l) s (match escape isgraph iscntrl grow maxsz mw p s with PGo s1 => K s1 | o => o end).
Proof.
  induction p as [|b p IH]; intros l s K C I R0 R1 HK.
  - cbn [map app escape]. apply HK; auto. change (zlen (@nil Z)) with 0. lia.
  - inversion C as [|? ? Cb Cp]; subst. rewrite zlen_cons in *. cbn [map app]. pose proof (zlen_nonneg _ p).
    rewrite escape_step by exact Cb. apply (post_cons 1 (esc_item b)); auto; [lia|apply good_esc|cbn [esc_item it_need]; lia| |].
    + intros s1 I1 R2 C1 R3 ->. cbn [esc_item it_need] in R3. apply IH; auto; [lia|]. intros s2 I2 R4 C2 R5. apply HK; auto; [congruence|lia].
    + intros o1 -> N. destruct o1 as [s1|s1|]; [now elim (N s1)|reflexivity|reflexivity].
Qed.

Notation chars := (chars isgraph iscntrl mbtowc wcwidth codeset grow).
Hypothesis Sane : sane mbtowc wcwidth.

Lemma called_inv : forall n s, inv s -> inv (called s n).
Proof. intros n s H. exact H. Qed.
Lemma post_called : forall l n s o, post l (called s n) o -> post l s o.
Proof. intros l n s o H. exact H. Qed.

Lemma dec_self : forall n p rest wc, mbtowc n (p ++ rest) = Some (wc, zlen p) -> p <> [] -> zlen p <= 16.
Proof.
  intros n p rest wc E N. destruct Sane as [S1 _]. apply S1 in E; [lia|]. destruct p; [now elim N|discriminate].
Qed.
Lemma chars_ok : forall nul n src l, renders mbtowc wcwidth nul n src l -> forall fuel s, c_string src -> (length src < fuel)%nat -> n = p_calls s ->
  inv s -> 0 <= p_ret s -> p_ret s + sum it_need l <= INT_MAX ->
  exists o, chars fuel nul maxsz mw src s = Some o /\ post l s o.
Proof.
  assert (Cut : forall p rest, c_string (p ++ rest) -> c_string p /\ c_string rest) by (intros p rest H; now apply Forall_app in H).
  assert (Nneg : forall nul n src l, renders mbtowc wcwidth nul n src l -> 0 <= sum it_need l).
  { intros nul n src l H. induction H; cbn [sum]; try lia; try (cbn [char_item it_need]; pose proof (zlen_nonneg _ p); lia).
    - rewrite sum_app, esc_need. pose proof (zlen_nonneg _ p). lia.
    - cbn [esc_item it_need]. lia. }
  intros nul n src l H. induction H as [n|n p rest wc l E N LC R IH|n p rest wc l E N LC W R IH|n p rest wc l E N LC W R IH|n b rest l E R IH];
    intros fuel s C F Cn I R0 R1; (destruct fuel as [|fuel]; [lia|]).
  - exists (PGo s). split; [reflexivity|]. now apply post_nil.
  - destruct (Cut _ _ C) as [Cp Cr]. pose proof (Nneg _ _ _ _ R) as Ns. pose proof (dec_self _ _ _ _ E N) as L16.
    cbn [sum char_item it_need] in R1.
    assert (U : chars (S fuel) nul maxsz mw (p ++ rest) s =
      match show grow maxsz mw p 0 (called s 1) with PGo s' => chars fuel nul maxsz mw rest s' | other => Some other end).
    { cbn [UtfModel.chars]. destruct (p ++ rest) as [|a q] eqn:Q; [destruct p; [now elim N|discriminate]|]. rewrite <- Q in *.
      unfold one_char. rewrite <- Cn, E. cbv zeta. rewrite (proj2 (line_char_dec nul wc) LC). rewrite ztake_app_exact, zdrop_app_exact by reflexivity.
      destruct (show _ _ _ _ _ _); reflexivity. }
    rewrite U. rewrite show_step by (unfold INT_MAX; lia).
    pose proof (post_cons 0 (char_item p 0) l (called s 1)) as PC.
    destruct (step 0 (char_item p 0) (called s 1)) as [s1|s1|] eqn:St.
    + pose proof (step_ok 0 (char_item p 0) (called s 1)) as SO. rewrite St in SO. cbn [char_item it_need] in SO.
      destruct SO as (I1 & C1 & M); [lia|exact I|apply good_char; auto; unfold INT_MAX; lia|exact R0|change (p_ret (called s 1)) with (p_ret s); lia|].
      assert (Rb : 0 <= p_ret s1 <= p_ret s + zlen p).
      { change (p_ret (called s 1)) with (p_ret s) in M. cbn [char_item it_bytes it_need] in M. pose proof (zlen_nonneg _ p). destruct M as [(_ & _ & _ & _ & M & _)|(_ & _ & M & _)]; lia. }
      destruct (IH fuel s1) as (o & Eo & Po); auto; try lia.
      { rewrite app_length in F. assert (length p <> 0%nat) by (destruct p; [now elim N|discriminate]). lia. }
      { rewrite C1. cbn [called p_calls]. now rewrite Cn. }
      exists o. split; [exact Eo|]. apply (post_called _ 1). apply PC; auto; [lia|apply good_char; auto; unfold INT_MAX; lia|cbn [char_item it_need]; change (p_ret (called s 1)) with (p_ret s); lia| |].
      * intros s2 _ _ _ _ Q. injection Q as <-. exact Po.
      * intros o1 Q Nn. subst o1. now elim (Nn s1).
    + exists (PStop s1). split; [reflexivity|]. apply (post_called _ 1). apply PC; auto; [lia|apply good_char; auto; unfold INT_MAX; lia|cbn [char_item it_need]; change (p_ret (called s 1)) with (p_ret s); lia|discriminate].
    + exists PUndef. split; [reflexivity|]. apply (post_called _ 1). apply PC; auto; [lia|apply good_char; auto; unfold INT_MAX; lia|cbn [char_item it_need]; change (p_ret (called s 1)) with (p_ret s); lia|discriminate].
  - destruct (Cut _ _ C) as [Cp Cr]. pose proof (Nneg _ _ _ _ R) as Ns. pose proof (dec_self _ _ _ _ E N) as L16.
    cbn [sum char_item it_need] in R1. destruct Sane as [_ SW]. specialize (SW wc).
    assert (U : chars (S fuel) nul maxsz mw (p ++ rest) s =
      match show grow maxsz mw p (wcwidth wc) (called s 1) with PGo s' => chars fuel nul maxsz mw rest s' | other => Some other end).
    { cbn [UtfModel.chars]. destruct (p ++ rest) as [|a q] eqn:Q; [destruct p; [now elim N|discriminate]|]. rewrite <- Q in *.
      unfold one_char. rewrite <- Cn, E. cbv zeta. rewrite (line_char_not nul wc LC). rewrite (proj2 (Z.eqb_neq (wcwidth wc) (-1))) by lia. cbn [andb].
      rewrite (proj2 (Z.geb_le (wcwidth wc) 0)) by lia. rewrite ztake_app_exact, zdrop_app_exact by reflexivity.
      destruct (show _ _ _ _ _ _); reflexivity. }
    rewrite U. rewrite show_step by (unfold INT_MAX; lia).
    pose proof (post_cons 0 (char_item p (wcwidth wc)) l (called s 1)) as PC.
    destruct (step 0 (char_item p (wcwidth wc)) (called s 1)) as [s1|s1|] eqn:St.
    + pose proof (step_ok 0 (char_item p (wcwidth wc)) (called s 1)) as SO. rewrite St in SO. cbn [char_item it_need] in SO.
      destruct SO as (I1 & C1 & M); [lia|exact I|apply good_char; auto; unfold INT_MAX; lia|exact R0|change (p_ret (called s 1)) with (p_ret s); lia|].
      assert (Rb : 0 <= p_ret s1 <= p_ret s + zlen p).
      { change (p_ret (called s 1)) with (p_ret s) in M. cbn [char_item it_bytes it_need] in M. pose proof (zlen_nonneg _ p). destruct M as [(_ & _ & _ & _ & M & _)|(_ & _ & M & _)]; lia. }
      destruct (IH fuel s1) as (o & Eo & Po); auto; try lia.
      { rewrite app_length in F. assert (length p <> 0%nat) by (destruct p; [now elim N|discriminate]). lia. }
      { rewrite C1. cbn [called p_calls]. now rewrite Cn. }
      exists o. split; [exact Eo|]. apply (post_called _ 1). apply PC; auto; [lia|apply good_char; auto; unfold INT_MAX; lia|cbn [char_item it_need]; change (p_ret (called s 1)) with (p_ret s); lia| |].
      * intros s2 _ _ _ _ Q. injection Q as <-. exact Po.
      * intros o1 Q Nn. subst o1. now elim (Nn s1).
    + exists (PStop s1). split; [reflexivity|]. apply (post_called _ 1). apply PC; auto; [lia|apply good_char; auto; unfold INT_MAX; lia|cbn [char_item it_need]; change (p_ret (called s 1)) with (p_ret s); lia|discriminate].
    + exists PUndef. split; [reflexivity|]. apply (post_called _ 1). apply PC; auto; [lia|apply good_char; auto; unfold INT_MAX; lia|cbn [char_item it_need]; change (p_ret (called s 1)) with (p_ret s); lia|discriminate].
  - destruct (Cut _ _ C) as [Cp Cr]. pose proof (Nneg _ _ _ _ R) as Ns. rewrite sum_app, esc_need in R1.
    destruct Sane as [_ SW]. specialize (SW wc).
    assert (U : chars (S fuel) nul maxsz mw (p ++ rest) s =
      if dangerous_locale codeset then Some (PStop (set_ret (called s 1) (-1))) else
      match escape isgraph iscntrl grow maxsz mw p (called s 1) with PGo s' => chars fuel nul maxsz mw rest s' | other => Some other end).
    { cbn [UtfModel.chars]. destruct (p ++ rest) as [|a q] eqn:Q; [destruct p; [now elim N|discriminate]|]. rewrite <- Q in *.
      unfold one_char. rewrite <- Cn, E. cbv zeta. rewrite (line_char_not nul wc LC). rewrite (proj2 (Z.eqb_eq (wcwidth wc) (-1))) by lia. cbn [andb].
      destruct (dangerous_locale codeset); [reflexivity|]. destruct (wcwidth wc >=? 0) eqn:G; [lia|].
      rewrite ztake_app_exact, zdrop_app_exact by reflexivity. destruct (escape _ _ _ _ _ _ _); reflexivity. }
    rewrite U. destruct (dangerous_locale codeset).
    { exists (PStop (set_ret (called s 1) (-1))). split; [reflexivity|]. apply post_stop0; [exact I|split; reflexivity|reflexivity]. }
    pose (K := fun s1 => match chars fuel nul maxsz mw rest s1 with Some o => o | None => PUndef end).
    assert (HK : forall s1, inv s1 -> 0 <= p_ret s1 -> p_calls s1 = p_calls (called s 1) -> p_ret s1 <= p_ret (called s 1) + 4 * zlen p ->
      exists o, chars fuel nul maxsz mw rest s1 = Some o /\ post l s1 o).
    { intros s1 I1 R2 C1 R3. change (p_ret (called s 1)) with (p_ret s) in R3. apply IH; auto; try lia.
      - rewrite app_length in F. assert (length p <> 0%nat) by (destruct p; [now elim N|discriminate]). lia.
      - rewrite C1. cbn [called p_calls]. now rewrite Cn. }
    assert (Q : post (map esc_item p ++ l) (called s 1) (match escape isgraph iscntrl grow maxsz mw p (called s 1) with PGo s1 => K s1 | o => o end)).
    { apply escape_then; auto; [change (p_ret (called s 1)) with (p_ret s); lia|]. intros s1 I1 R2 C1 R3.
      destruct (HK s1 I1 R2 C1 R3) as (o & Eo & Po). unfold K. now rewrite Eo. }
    destruct (escape isgraph iscntrl grow maxsz mw p (called s 1)) as [s1|s1|] eqn:Es.
    + unfold K in Q. destruct (chars fuel nul maxsz mw rest s1) as [o|]; [|destruct Q]. exists o. split; [reflexivity|exact Q].
    + exists (PStop s1). split; [reflexivity|exact Q].
    + destruct Q.
  - inversion C as [|? ? Cb Cr]; subst. pose proof (Nneg _ _ _ _ R) as Ns. cbn [sum esc_item it_need] in R1.
    assert (U : chars (S fuel) nul maxsz mw (b :: rest) s =
      if dangerous_locale codeset then Some (PStop (set_ret (called s 2) (-1))) else
      match escape isgraph iscntrl grow maxsz mw [b] (called s 2) with PGo s' => chars fuel nul maxsz mw rest s' | other => Some other end).
    { cbn [UtfModel.chars]. unfold one_char. rewrite E. cbv zeta. destruct (dangerous_locale codeset); [reflexivity|].
      change (ztake 1 (b :: rest)) with [b]. change (zdrop 1 (b :: rest)) with rest. destruct (escape _ _ _ _ _ _ _); reflexivity. }
    rewrite U. destruct (dangerous_locale codeset).
    { exists (PStop (set_ret (called s 2) (-1))). split; [reflexivity|]. apply post_stop0; [exact I|split; reflexivity|reflexivity]. }
    pose (K := fun s1 => match chars fuel nul maxsz mw rest s1 with Some o => o | None => PUndef end).
    assert (HK : forall s1, inv s1 -> 0 <= p_ret s1 -> p_calls s1 = p_calls (called s 2) -> p_ret s1 <= p_ret (called s 2) + 4 * zlen [b] ->
      exists o, chars fuel nul maxsz mw rest s1 = Some o /\ post l s1 o).
    { intros s1 I1 R2 C1 R3. change (p_ret (called s 2)) with (p_ret s) in R3. change (4 * zlen [b]) with 4 in R3. apply IH; auto; try lia.
      cbn [length] in F. lia. }
    assert (Q : post (map esc_item [b] ++ l) (called s 2) (match escape isgraph iscntrl grow maxsz mw [b] (called s 2) with PGo s1 => K s1 | o => o end)).
    { apply escape_then; auto; [constructor; [exact Cb|constructor]|change (p_ret (called s 2)) with (p_ret s); change (4 * zlen [b]) with 4; lia|]. intros s1 I1 R2 C1 R3.
      destruct (HK s1 I1 R2 C1 R3) as (o & Eo & Po). unfold K. now rewrite Eo. }
    destruct (escape isgraph iscntrl grow maxsz mw [b] (called s 2)) as [s1|s1|] eqn:Es.
    + unfold K in Q. destruct (chars fuel nul maxsz mw rest s1) as [o|]; [|destruct Q]. exists o. split; [reflexivity|exact Q].
    + exists (PStop s1). split; [reflexivity|exact Q].
    + destruct Q.
Qed.
End P.
