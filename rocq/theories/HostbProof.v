(** Proofs for C81: files. *)
From Coq Require Import String.
From Verif Require Import Base Text SshbufModel SshbufSpec WireSpec MiscNumModel CertSpec ServProof KeyModel KeySpec SocksSpec SocksProof HostbModel HostbSpec.
Local Open Scope Z_scope.

(** ** Lines *)
Lemma pieces_sound : forall f room cur, 1 <= room <= 1023 -> zlen cur = 1023 - room -> ~ In 10 cur -> pieces (cur ++ f) (pieces_of room cur f).
Proof.
  induction f as [|c f IH]; intros room cur Hr Hc N; cbn [pieces_of].
  - rewrite app_nil_r. destruct (zlen cur =? 0) eqn:E.
    + assert (cur = []) as -> by (apply zlen_zero_nil; lia). constructor.
    + apply pieces_last; auto; [|lia]. intros ->. cbn in E. discriminate.
  - assert (J : pieces f (pieces_of 1023 [] f)) by (apply (IH 1023 []); [lia|reflexivity|intros []]).
    destruct (c =? 10) eqn:E; cbn [orb].
    + apply Z.eqb_eq in E. subst c. apply (pieces_line cur f); auto. lia.
    + assert (N' : ~ In 10 (cur ++ [c])) by (intros I; apply in_app_iff in I as [I|[I|[]]]; [contradiction|lia]).
      assert (L : zlen (cur ++ [c]) = zlen cur + 1) by (rewrite zlen_app; reflexivity).
      replace (cur ++ c :: f) with ((cur ++ [c]) ++ f) by now rewrite <- app_assoc.
      destruct (room =? 1) eqn:R.
      * apply pieces_full; auto. lia.
      * apply IH; auto; lia.
Qed.
Lemma nl_cut : forall a b r t, ~ In 10 a -> ~ In 10 b -> a ++ 10 :: r = b ++ 10 :: t -> a = b /\ r = t.
Proof.
  induction a as [|x a IH]; intros [|y b] r t Na Nb E; cbn [app] in E.
  - injection E as ->. auto.
  - injection E as <- _. exfalso. apply Nb. now left.
  - injection E as -> _. exfalso. apply Na. now left.
  - injection E as -> E. apply IH in E as (-> & ->); [auto| |]; intros I; [apply Na|apply Nb]; now right.
Qed.
Lemma len_cut : forall (a b r t : list Z), zlen a = zlen b -> a ++ r = b ++ t -> a = b /\ r = t.
Proof.
  induction a as [|x a IH]; intros [|y b] r t L E; cbn [app] in E; auto.
  - unfold zlen in L. cbn in L. lia. - unfold zlen in L. cbn in L. lia.
  - injection E as -> E. apply IH in E as (-> & ->); auto. rewrite !zlen_cons in L. lia.
Qed.
(** A piece without newline that is longer than a line contains its newline *)
Lemma nl_in : forall (a b r t : list Z), zlen a < zlen b -> a ++ 10 :: r = b ++ t -> In 10 b.
Proof.
  induction a as [|x a IH]; intros [|y b] r t L E; cbn [app] in E.
  - cbn in L. lia. - injection E as <- _. now left.
  - unfold zlen in L. cbn in L. lia.
  - injection E as -> E. right. apply (IH b r t); auto. rewrite !zlen_cons in L. lia.
Qed.
Lemma pieces_fun : forall f l, pieces f l -> forall l', pieces f l' -> l = l'.
Proof.
  induction 1 as [|a r l N L P IH|a r l N L P IH|a N E L]; intros l' P'.
  - inversion P' as [|a' r' l1 N' L' P1 E1|a' r' l1 N' L' P1 E1|a' N' E' L' E1]; auto.
    + destruct a'; discriminate. + destruct a'; [cbn in L'; lia|discriminate]. + congruence.
  - cbn [app] in P'. remember (a ++ 10 :: r) as f eqn:F. destruct P' as [|a' r' l1 N' L' P1|a' r' l1 N' L' P1|a' N' E' L'].
    + destruct a; discriminate.
    + symmetry in F. apply nl_cut in F as (-> & ->); auto. f_equal. now apply IH.
    + exfalso. apply N'. symmetry in F. apply (nl_in a a' r r'); [lia|assumption].
    + exfalso. apply N'. rewrite F. apply in_app_iff. right. now left.
  - remember (a ++ r) as f eqn:F. destruct P' as [|a' r' l1 N' L' P1|a' r' l1 N' L' P1|a' N' E' L'].
    + destruct a; [cbn in L; lia|discriminate].
    + exfalso. apply N. apply (nl_in a' a r' r); [lia|]. exact F.
    + apply len_cut in F as (-> & ->); [|congruence]. f_equal. now apply IH.
    + rewrite F, zlen_app in L'. pose proof (zlen_nonneg _ r). lia.
  - destruct P' as [|a' r' l1 N' L' P1|a' r' l1 N' L' P1|a' N' E' L'].
    + congruence.
    + exfalso. apply N. apply in_app_iff. right. now left.
    + rewrite zlen_app in L. pose proof (zlen_nonneg _ r'). lia.
    + reflexivity.
Qed.
Lemma pieces_iff : forall f l, pieces f l <-> pieces_of 1023 [] f = l.
Proof.
  intros f l. pose proof (pieces_sound f 1023 [] ltac:(lia) eq_refl ltac:(intros [])) as P. split; [intros H; exact (pieces_fun _ _ P _ H)|intros <-; exact P].
Qed.

(** ** Words *)
Lemma isspace_iff : forall c, MiscNumModel.isspace c = true <-> space c.
Proof. intros c. unfold MiscNumModel.isspace, space. split; lia. Qed.
Lemma isspace_false : forall c, MiscNumModel.isspace c = false <-> ~ space c.
Proof. intros c. rewrite <- isspace_iff. destruct (MiscNumModel.isspace c); split; intuition congruence. Qed.
Lemma words_sound : forall s cur, Forall (fun c => ~ space c) cur ->
  (cur = [] -> words_are s (words_of [] s)) /\ (cur <> [] -> words_are (cur ++ s) (words_of cur s)).
Proof.
  induction s as [|c s IH]; intros cur Fc; cbn [words_of]; split; intros H.
  - apply wa_end. constructor.
  - replace (zlen cur =? 0) with false by (symmetry; apply Z.eqb_neq; intros E; apply H, zlen_zero_nil, E). change (cur ++ []) with ([] ++ cur ++ []).
    apply wa_word; auto. apply wa_end. constructor.
  - cbn [zlen length Z.of_nat Z.eqb]. destruct (MiscNumModel.isspace c) eqn:E.
    + apply isspace_iff in E. destruct (IH []) as [J _]; [constructor|]. specialize (J eq_refl). revert J. generalize (words_of [] s). intros l J. destruct J as [g Fg|g w r ws Fg Nw Fw Hr J].
      * apply wa_end. now constructor.
      * change (c :: g ++ w ++ r) with ((c :: g) ++ w ++ r). apply wa_word; auto.
    + apply isspace_false in E. destruct (IH [c]) as [_ J]; [now constructor|]. cbn [app] in *. apply J. discriminate.
  - destruct (MiscNumModel.isspace c) eqn:E.
    + replace (zlen cur =? 0) with false by (symmetry; apply Z.eqb_neq; intros K; apply H, zlen_zero_nil, K). apply isspace_iff in E.
      change (cur ++ c :: s) with ([] ++ cur ++ c :: s). apply wa_word; auto.
      destruct (IH []) as [J _]; [constructor|]. specialize (J eq_refl). revert J. generalize (words_of [] s). intros l J. destruct J as [g Fg|g w r ws Fg Nw Fw Hr J].
      * apply wa_end. now constructor.
      * change (c :: g ++ w ++ r) with ((c :: g) ++ w ++ r). apply wa_word; auto.
    + apply isspace_false in E. destruct (IH (cur ++ [c])) as [_ J]; [apply Forall_app; auto|]. replace (cur ++ c :: s) with ((cur ++ [c]) ++ s) by now rewrite <- app_assoc.
      apply J. destruct cur; discriminate.
Qed.
Lemma gap_cut : forall g g' x y, Forall space g -> Forall space g' -> match x with [] => True | c :: _ => ~ space c end -> match y with [] => True | c :: _ => ~ space c end ->
  g ++ x = g' ++ y -> g = g' /\ x = y.
Proof.
  induction g as [|a g IH]; intros [|b g'] x y F F' Hx Hy E; cbn [app] in E; auto.
  - subst x. inversion_clear F' as [|? ? S _]. contradiction.
  - subst y. inversion_clear F as [|? ? S _]. contradiction.
  - injection E as -> E. inversion_clear F. inversion_clear F'. destruct (IH g' x y) as (-> & ->); auto.
Qed.
Lemma word_cut : forall w w' x y, Forall (fun c => ~ space c) w -> Forall (fun c => ~ space c) w' -> match x with [] => True | c :: _ => space c end -> match y with [] => True | c :: _ => space c end ->
  w ++ x = w' ++ y -> w = w' /\ x = y.
Proof.
  induction w as [|a g IH]; intros [|b g'] x y F F' Hx Hy E; cbn [app] in E; auto.
  - subst x. inversion_clear F' as [|? ? S _]. contradiction.
  - subst y. inversion_clear F as [|? ? S _]. contradiction.
  - injection E as -> E. inversion_clear F. inversion_clear F'. destruct (IH g' x y) as (-> & ->); auto.
Qed.
Lemma words_fun : forall s ws, words_are s ws -> forall ws', words_are s ws' -> ws = ws'.
Proof.
  assert (H1 : forall w r, w <> [] -> Forall (fun c => ~ space c) w -> match w ++ r with [] => True | c :: _ => ~ space c end).
  { intros [|c w] r N F; [congruence|]. now inversion_clear F. }
  induction 1 as [g Fg|g w r ws Fg Nw Fw Hr P IH]; intros ws' P'.
  - remember g as s eqn:E. destruct P' as [g' Fg'|g' w' r' ws' Fg' Nw' Fw' Hr' P']; auto.
    exfalso. destruct w' as [|c w']; [congruence|]. subst g. apply Forall_app in Fg as (_ & Fg). inversion_clear Fg. inversion_clear Fw'. contradiction.
  - remember (g ++ w ++ r) as s eqn:E. destruct P' as [g' Fg'|g' w' r' ws' Fg' Nw' Fw' Hr' P'].
    + exfalso. destruct w as [|c w]; [congruence|]. subst g'. apply Forall_app in Fg' as (_ & Fg'). inversion_clear Fg'. inversion_clear Fw. contradiction.
    + pose proof (H1 w r Nw Fw) as A. pose proof (H1 w' r' Nw' Fw') as A'. apply gap_cut in E as (_ & E); [|assumption..]. apply word_cut in E as (-> & ->); auto. f_equal. now apply IH.
Qed.
Lemma words_iff : forall s ws, words_are s ws <-> words_of [] s = ws.
Proof.
  intros s ws. destruct (words_sound s []) as [P _]; [constructor|]. specialize (P eq_refl). split; [intros H; exact (words_fun _ _ P _ H)|intros <-; exact P].
Qed.

(** ** Remarks *)
Lemma begins_iff : forall p s, begins p s = true <-> exists t, s = p ++ t.
Proof.
  induction p as [|a p IH]; intros s; cbn [begins].
  - split; [intros _; exists s; reflexivity|auto].
  - destruct s as [|b s]; [split; [discriminate|intros (t & E); discriminate]|]. rewrite andb_true_iff, IH. split.
    + intros (E & t & ->). exists t. cbn. f_equal. lia.
    + intros (t & E). cbn in E. injection E as -> ->. split; [lia|eauto].
Qed.
Definition dull (s : list Z) : bool :=
  match skip_blank s with c :: _ => (c =? 35) || (c =? 10) | [] => true end || begins (bs "NO_PLUS") (skip_blank s).
Lemma remark_iff : forall s, remark s <-> dull s = true.
Proof.
  assert (B : forall s, exists g, s = g ++ skip_blank s /\ Forall (fun c => c = 32 \/ c = 9) g /\ match skip_blank s with c :: _ => c <> 32 /\ c <> 9 | [] => True end).
  { induction s as [|c s IHs]; [exists []; cbn [skip_blank]; splits; auto|]. destruct IHs as (g & E & F & H). cbn [skip_blank]. destruct ((c =? 32) || (c =? 9)) eqn:Q.
    - exists (c :: g). cbn [app]. rewrite <- E. splits; auto. constructor; [lia|assumption].
    - exists []. split; [reflexivity|]. split; [constructor|]. split; lia. }
  assert (K : forall g r, Forall (fun c => c = 32 \/ c = 9) g -> match r with c :: _ => c <> 32 /\ c <> 9 | [] => True end -> skip_blank (g ++ r) = r).
  { induction g as [|c g IH]; intros r F H; cbn [app skip_blank].
    - destruct r as [|c r]; [reflexivity|]. cbn [skip_blank]. now replace ((c =? 32) || (c =? 9)) with false by lia.
    - inversion_clear F as [|? ? Fc Fg]. replace ((c =? 32) || (c =? 9)) with true by lia. now apply IH. }
  intros s. unfold dull. rewrite orb_true_iff, begins_iff. split.
  - intros (g & r & -> & F & C).
    assert (H : match r with c :: _ => c <> 32 /\ c <> 9 | [] => True end).
    { destruct C as [-> |[(t & ->)|[(t & ->)|(t & ->)]]]; cbn; auto; lia. }
    rewrite K by assumption. destruct C as [-> |[(t & ->)|[(t & ->)|(t & ->)]]]; [now left|now left|now left|right; eauto].
  - intros H. destruct (B s) as (g & E & F & _). exists g, (skip_blank s). splits; auto. destruct H as [H|H]; [|auto].
    destruct (skip_blank s) as [|c r]; [auto|]. apply orb_true_iff in H as [H|H]; apply Z.eqb_eq in H; subst c; eauto.
Qed.

(** ** Entries *)
Lemma marked_iff : forall w n name, marked w n name <-> signed w = (n, name).
Proof.
  intros w n name. unfold marked, signed. destruct w as [|c r].
  - cbn [hd]. split; [intros [[E _]|[[E _]|(<- & -> & _)]]; [discriminate|discriminate|reflexivity]|]. intros E. injection E as <- <-. right. right. splits; auto; lia.
  - cbn [hd]. destruct (c =? 45) eqn:E1; [|destruct (c =? 43) eqn:E2]; split.
    + intros [[E ->]|[[E _]|(_ & _ & N & _)]]; [injection E as _ ->; reflexivity|injection E as -> _; discriminate|lia].
    + intros E. injection E as <- <-. left. split; [f_equal; lia|reflexivity].
    + intros [[E ->]|[[E ->]|(_ & _ & _ & N)]]; [injection E as -> _; discriminate|injection E as _ ->; reflexivity|lia].
    + intros E. injection E as <- <-. right. left. split; [f_equal; lia|reflexivity].
    + intros [[E ->]|[[E ->]|(<- & -> & _ & _)]]; [injection E as -> _; discriminate|injection E as -> _; discriminate|reflexivity].
    + intros E. injection E as <- <-. right. right. splits; auto; lia.
Qed.

Section F.
Variable netgr : list Z -> option (list Z) -> option (list Z) -> bool.
Lemma host_iff : forall h hostname ip, h <> [] ->
  ((if hd 0 h =? 64 then netgr (tl h) (Some hostname) None || netgr (tl h) (Some ip) None else strcaseeq h hostname || beqb h ip) = true <-> names_host netgr h hostname ip).
Proof.
  intros [|c h] hostname ip N; [congruence|]. cbn [hd tl]. unfold names_host, same_name. cbn [hd]. destruct (c =? 64) eqn:E.
  - apply Z.eqb_eq in E. subst c. rewrite orb_true_iff. split; [intros H; left; eauto|]. intros [(g & Q & H)|[Q _]]; [injection Q as <-; assumption|lia].
  - rewrite orb_true_iff, strcaseeq_iff, beqb_eq. split; [intros H; right; split; [lia|assumption]|]. intros [(g & Q & H)|[_ H]]; [injection Q as -> _; discriminate|assumption].
Qed.
Lemma user_iff : forall u cuser, u <> [] ->
  ((if hd 0 u =? 64 then netgr (tl u) None (Some cuser) else beqb u cuser) = true <-> names_user netgr u cuser).
Proof.
  intros [|c u] cuser N; [congruence|]. cbn [hd tl]. unfold names_user. cbn [hd]. destruct (c =? 64) eqn:E.
  - apply Z.eqb_eq in E. subst c. split; [intros H; left; eauto|]. intros [(g & Q & H)|[Q _]]; [injection Q as <-; assumption|lia].
  - rewrite beqb_eq. split; [intros H; right; split; [lia|assumption]|]. intros [(g & Q & H)|[_ H]]; [injection Q as -> _; discriminate|assumption].
Qed.
Lemma line_iff : forall hostname ip cuser suser line neg,
  check_line netgr hostname ip cuser suser line = Some (negb neg) <-> concerns netgr suser hostname ip cuser line neg.
Proof.
  intros hostname ip cuser suser line neg. unfold check_line. cbv zeta. set (s := MiscNumModel.cstr line).
  assert (U : up_to_nul line s) by now apply cstr_up.
  assert (Ud : forall t, up_to_nul line t -> t = s) by (intros t T; symmetry; now apply cstr_up in T).
  assert (D : forall X : option bool, (if match skip_blank s with c :: _ => (c =? 35) || (c =? 10) | [] => true end then None else if begins (bs "NO_PLUS") (skip_blank s) then None else X) = if dull s then None else X).
  { intros X. unfold dull. destruct (match skip_blank s with c :: _ => _ | [] => _ end); [reflexivity|]. now destruct (begins _ _). }
  rewrite D. clear D. destruct (dull s) eqn:Du.
  { split; [discriminate|]. intros (h & u & (s' & ws & hw & uw & n1 & n2 & T & NR & _) & _). apply Ud in T as ->. exfalso. apply NR. now apply remark_iff. }
  assert (NR : ~ remark s) by (rewrite remark_iff; congruence).
  set (pr := match words_of [] s with [h] => Some (h, ztake 1023 suser) | [h; u] => Some (h, u) | _ => None end).
  assert (PR : forall hw uw, pr = Some (hw, uw) <-> exists ws, words_are s ws /\ (ws = [hw] /\ uw = ztake 1023 suser \/ ws = [hw; uw])).
  { intros hw uw. unfold pr. split.
    - intros E. exists (words_of [] s). split; [now apply words_iff|]. destruct (words_of [] s) as [|a [|b [|c l]]]; try discriminate; injection E as <- <-; auto.
    - intros (ws & W & C). apply words_iff in W. rewrite W. destruct C as [[-> ->]| ->]; reflexivity. }
  clearbody pr. destruct pr as [[hw uw]|].
  - destruct (proj1 (PR hw uw) eq_refl) as (ws & W & C). destruct (signed hw) as [n1 h] eqn:S1. destruct (signed uw) as [n2 u] eqn:S2. apply marked_iff in S1, S2.
    assert (X : concerns netgr suser hostname ip cuser line neg <-> h <> [] /\ u <> [] /\ names_host netgr h hostname ip /\ names_user netgr u cuser /\ neg = n1 || n2).
    { split.
      - intros (h' & u' & (s' & ws' & hw' & uw' & m1 & m2 & T & _ & W' & C' & M1 & M2 & Nh & Nu & ->) & Hh & Hu). apply Ud in T as ->.
        pose proof (proj2 (PR hw' uw') (ex_intro _ ws' (conj W' C'))) as Q. injection Q as <- <-. apply marked_iff in S1, S2, M1, M2. rewrite M1 in S1. rewrite M2 in S2. injection S1 as <- <-. injection S2 as <- <-. splits; auto.
      - intros (Nh & Nu & Hh & Hu & ->). exists h, u. splits; auto. exists s, ws, hw, uw, n1, n2. splits; auto. }
    rewrite X. clear X.
    destruct (zlen h =? 0) eqn:Zh. { apply Z.eqb_eq, zlen_zero_nil in Zh. cbn [orb]. split; [discriminate|intros (A & _); contradiction]. }
    destruct (zlen u =? 0) eqn:Zu. { apply Z.eqb_eq, zlen_zero_nil in Zu. cbn [orb]. split; [discriminate|intros (_ & A & _); contradiction]. }
    assert (Nh : h <> []) by (intros ->; discriminate). assert (Nu : u <> []) by (intros ->; discriminate). cbn [orb].
    rewrite <- (host_iff h hostname ip Nh), <- (user_iff u cuser Nu).
    destruct (if hd 0 h =? 64 then _ else _); cbn [negb]; [|split; [discriminate|intros (_ & _ & A & _); discriminate]].
    destruct (if hd 0 u =? 64 then _ else _); cbn [negb]; [|split; [discriminate|intros (_ & _ & _ & A & _); discriminate]].
    split; [intros E; splits; auto; injection E as E; destruct neg, (n1 || n2); auto; discriminate|]. intros (_ & _ & _ & _ & ->). reflexivity.
  - split; [discriminate|]. intros (h & u & (s' & ws & hw & uw & n1 & n2 & T & _ & W & C & _) & _). apply Ud in T as ->. pose proof (proj2 (PR hw uw) (ex_intro _ ws (conj W C))). discriminate.
Qed.
Lemma lines_iff : forall hostname ip cuser suser ls, check_lines netgr hostname ip cuser suser ls = true <->
  exists l1 line l2, ls = l1 ++ line :: l2 /\ concerns netgr suser hostname ip cuser line false /\ forall l neg, In l l1 -> ~ concerns netgr suser hostname ip cuser l neg.
Proof.
  intros hostname ip cuser suser. induction ls as [|x ls IH]; cbn [check_lines].
  - split; [discriminate|]. intros ([|? l1] & line & l2 & E & _); discriminate.
  - destruct (check_line netgr hostname ip cuser suser x) as [b|] eqn:E.
    + assert (C : concerns netgr suser hostname ip cuser x (negb b)) by (apply line_iff; now rewrite negb_involutive). split.
      * intros ->. exists [], x, ls. splits; auto.
      * intros (l1 & line & l2 & Q & Cl & Nl). destruct l1 as [|y l1]; injection Q as -> ->.
        -- apply line_iff in Cl. rewrite E in Cl. now injection Cl.
        -- exfalso. apply (Nl y (negb b)); [now left|assumption].
    + assert (C : forall neg, ~ concerns netgr suser hostname ip cuser x neg) by (intros neg K; apply line_iff in K; congruence).
      rewrite IH. split; intros (l1 & line & l2 & Q & Cl & Nl).
      * exists (x :: l1), line, l2. splits; auto; [now rewrite Q|]. intros l neg [<-|I]; [apply C|now apply Nl].
      * destruct l1 as [|y l1]; injection Q as -> ->; [exfalso; now apply (C false)|]. exists l1, line, l2. splits; auto. intros l neg I. apply Nl. now right.
Qed.
Lemma file_iff : forall f hostname ip cuser suser, check_file netgr f hostname ip cuser suser = true <-> file_grants netgr suser hostname ip cuser f.
Proof.
  intros f hostname ip cuser suser. unfold check_file, file_grants. destruct f as [n|]; [|split; [discriminate|intros (n & t & E & _); discriminate]].
  destruct (n_text n) as [t|] eqn:T; [|split; [discriminate|intros (n' & t & E & T' & _); injection E as <-; congruence]].
  rewrite lines_iff. split.
  - intros (l1 & line & l2 & Q & H). exists n, t. splits; auto. exists l1, line, l2. split; [now apply pieces_iff|exact H].
  - intros (n' & t' & E & T' & l1 & line & l2 & P & H). injection E as <-. rewrite T in T'. injection T' as <-. apply pieces_iff in P. eauto.
Qed.
Lemma modes_iff : forall strict a n, bad_modes strict a n = false <-> (strict = true -> safe_node a n).
Proof.
  intros strict a n. unfold bad_modes, safe_node. destruct strict; cbn [andb]; [|split; [discriminate|reflexivity]].
  assert (M : Z.land (n_mode n) 18 = 0 <-> Z.testbit (n_mode n) 4 = false /\ Z.testbit (n_mode n) 1 = false).
  { split.
    - intros H. split; [assert (T : Z.testbit (Z.land (n_mode n) 18) 4 = false) by (rewrite H; apply Z.testbit_0_l)|assert (T : Z.testbit (Z.land (n_mode n) 18) 1 = false) by (rewrite H; apply Z.testbit_0_l)];
      rewrite Z.land_spec in T; cbn in T; now rewrite andb_true_r in T.
    - intros (A & B). apply Z.bits_inj'. intros i Hi. rewrite Z.land_spec, Z.testbit_0_l.
      destruct (Z.eq_dec i 4) as [->|N4]; [now rewrite A|]. destruct (Z.eq_dec i 1) as [->|N1]; [now rewrite B|].
      assert (T : Z.testbit 18 i = false); [|rewrite T; apply andb_false_r].
      destruct (Z_lt_dec i 5) as [L|L]; [assert (i = 0 \/ i = 2 \/ i = 3) as [-> |[-> | ->]] by lia; reflexivity|].
      apply Z.bits_above_log2; [lia|]. change (Z.log2 18) with 4. lia. }
  split.
  - intros H _. apply orb_false_iff in H as (H1 & H2). split; [lia|]. apply M. lia.
  - intros H. destruct (H eq_refl) as (H1 & H2). apply M in H2. rewrite H2. cbn. lia.
Qed.
Lemma home_iff : forall strict ig sh a hostname ip cuser f,
  home_file netgr strict ig sh a hostname ip cuser f = true <->
  (ig = IgNo \/ (sh = true /\ ig <> IgYes)) /\ safe_if strict a f /\ file_grants netgr (ac_name a) hostname ip cuser f.
Proof.
  intros strict ig sh a hostname ip cuser f. unfold home_file, safe_if. destruct f as [n|]; [|split; [discriminate|intros (_ & (n & E & _) & _); discriminate]].
  destruct (bad_modes strict a n) eqn:B.
  - split; [discriminate|]. intros (_ & (n' & E & H) & _). injection E as <-. apply modes_iff in H. congruence.
  - rewrite modes_iff in B. rewrite <- file_iff. destruct ig, sh; cbn [negb]; (split;
      [first [discriminate|intros H; split; [first [left; reflexivity|right; split; [reflexivity|discriminate]]|split; [exists n; auto|exact H]]]
      |intros (C & _ & H); first [exact H|exfalso; destruct C as [C|[C D]]; congruence]]).
Qed.
Theorem rhosts_iff : forall strict ig fs a cuser hostname ip,
  rhosts2 netgr strict ig fs a cuser hostname ip = true <-> rhosts_grant netgr strict ig fs a cuser hostname ip.
Proof.
  intros strict ig fs a cuser hostname ip. unfold rhosts2, rhosts_grant. cbv zeta.
  set (body := if negb (ac_uid a =? 0) && (check_file netgr (fs_equiv fs) hostname ip cuser (ac_name a) || check_file netgr (fs_sequiv fs) hostname ip cuser (ac_name a)) then true else _).
  assert (Bi : body = true <-> rhosts_grant netgr strict ig fs a cuser hostname ip).
  { unfold body, rhosts_grant. cbv zeta. rewrite <- !file_iff.
    destruct (check_file netgr (fs_equiv fs) hostname ip cuser (ac_name a)) eqn:F1, (check_file netgr (fs_sequiv fs) hostname ip cuser (ac_name a)) eqn:F2; destruct (ac_uid a =? 0) eqn:U; cbn [negb orb andb];
    try (split; [intros _; left; split; [lia|auto]|reflexivity]).
    all: assert (H0 : match fs_home fs with None => false | Some h => if bad_modes strict a h then false else home_file netgr strict ig true a hostname ip cuser (fs_shosts fs) || home_file netgr strict ig false a hostname ip cuser (fs_rhosts fs) end = true <->
       safe_if strict a (fs_home fs) /\ (ig <> IgYes /\ safe_if strict a (fs_shosts fs) /\ check_file netgr (fs_shosts fs) hostname ip cuser (ac_name a) = true \/ ig = IgNo /\ safe_if strict a (fs_rhosts fs) /\ check_file netgr (fs_rhosts fs) hostname ip cuser (ac_name a) = true));
     [|rewrite H0; split; [intros H; right; exact H|intros [[H1 H2]|H]; [lia + (destruct H2; discriminate)|exact H]]].
    all: clear; destruct (fs_home fs) as [h|]; [|split; [discriminate|intros ((n & E & _) & _); discriminate]]; destruct (bad_modes strict a h) eqn:B;
      [split; [discriminate|]; intros ((n & E & H) & _); injection E as <-; apply modes_iff in H; congruence|];
      rewrite modes_iff in B; rewrite orb_true_iff, !home_iff, <- !file_iff; split;
      [intros [(C & S1 & G)|(C & S1 & G)]; (split; [exists h; auto|]); [left; splits; auto; destruct C as [-> |[_ C]]; [discriminate|assumption]|right; splits; auto; destruct C as [C|[C _]]; [assumption|discriminate]]
      |intros (_ & [(C & S1 & G)|(C & S1 & G)]); [left; splits; auto|right; splits; auto]]. }
  fold (rhosts_grant netgr strict ig fs a cuser hostname ip). rewrite <- Bi. clearbody body.
  destruct (fs_shosts fs) as [|] eqn:E1; [reflexivity|]. destruct (fs_rhosts fs) as [|] eqn:E2; [reflexivity|]. destruct (fs_equiv fs) as [|] eqn:E3; [reflexivity|]. destruct (fs_sequiv fs) as [|] eqn:E4; [reflexivity|].
  split; [discriminate|]. intros H. exfalso. apply Bi in H. unfold rhosts_grant in H. cbv zeta in H. rewrite E1, E2, E3, E4 in H. unfold file_grants in H.
  destruct H as [(_ & [(n & t & E & _)|(n & t & E & _)])|(_ & [(_ & _ & n & t & E & _)|(_ & _ & n & t & E & _)])]; discriminate.
Qed.
End F.
