From Verif Require Import Base KrlModel.
Local Open Scope Z_scope.

(** Entries in order, separated by at least one serial, from [m] up. *)
Fixpoint chain (m : Z) (l : list (Z * Z)) : Prop :=
  match l with [] => True | e :: r => m <= fst e /\ fst e <= snd e /\ snd e < U64 /\ chain (snd e + 2) r end.
Definition inr (s : Z) (l : list (Z * Z)) : Prop := exists e, In e l /\ fst e <= s <= snd e.

Lemma inr_nil : forall s, ~ inr s [].
Proof. intros s (e & [] & _). Qed.
Lemma inr_cons : forall s e l, inr s (e :: l) <-> fst e <= s <= snd e \/ inr s l.
Proof.
  intros s e l. split.
  - intros (x & [-> |H] & B); [now left|right; now exists x].
  - intros [B|(x & H & B)]; [exists e; split; [now left|exact B]|exists x; split; [now right|exact B]].
Qed.
Lemma inr_app : forall s a b, inr s (a ++ b) <-> inr s a \/ inr s b.
Proof.
  intros s a b. unfold inr. split.
  - intros (e & H & B). apply in_app_or in H. destruct H; [left|right]; now exists e.
  - intros [(e & H & B)|(e & H & B)]; exists e; (split; [apply in_or_app; auto|exact B]).
Qed.
Lemma inr_rev : forall s a, inr s (rev a) <-> inr s a.
Proof. intros s a. unfold inr. split; intros (e & H & B); exists e; (split; [|exact B]); [now apply in_rev|now apply in_rev in H]. Qed.
Lemma chain_weaken : forall l m m', m' <= m -> chain m l -> chain m' l.
Proof. intros [|e l] m m' H C; [exact I|]. cbn [chain] in *. destruct C as (A & B). split; [lia|exact B]. Qed.
Lemma chain_bound : forall l m e, chain m l -> In e l -> m <= fst e /\ fst e <= snd e < U64.
Proof.
  induction l as [|x l IH]; intros m e C H; [destruct H|]. cbn [chain] in C. destruct C as (A & B & D & E). destruct H as [-> |H]; [lia|].
  destruct (IH _ _ E H). lia.
Qed.
Fixpoint top_of (m : Z) (l : list (Z * Z)) : Z := match l with [] => m | e :: r => top_of (snd e + 2) r end.
Lemma chain_app : forall a m b, chain m (a ++ b) <-> chain m a /\ chain (top_of m a) b.
Proof. induction a as [|e a IH]; intros m b; cbn [app chain top_of]; [tauto|]. rewrite IH. tauto. Qed.
Lemma top_of_le : forall a m, chain m a -> m <= top_of m a /\ (forall e, In e a -> snd e + 2 <= top_of m a).
Proof.
  induction a as [|x a IH]; intros m C; cbn [top_of]; [split; [lia|intros e []]|]. cbn [chain] in C. destruct C as (A & B & D & E).
  destruct (IH _ E) as [L M]. split; [lia|]. intros e [<- |H]; [lia|now apply M].
Qed.
Lemma chain_snoc : forall a m e, chain m a -> m <= fst e -> fst e <= snd e < U64 -> (forall x, In x a -> snd x + 1 < fst e) -> chain m (a ++ [e]).
Proof.
  induction a as [|x a IH]; intros m e C M B H; cbn [app chain].
  - repeat split; lia.
  - cbn [chain] in C. destruct C as (C1 & C2 & C3 & C4). repeat split; try lia. apply IH; [exact C4| |exact B|].
    + specialize (H x (or_introl eq_refl)). lia.
    + intros y Hy. apply H. now right.
Qed.

(** Two separated chains with the same members are the same list. *)
Lemma chain_unique : forall a b m m', chain m a -> chain m' b -> (forall s, inr s a <-> inr s b) -> a = b.
Proof.
  induction a as [|x a IH]; intros b m m' Ca Cb E.
  - destruct b as [|y b]; [reflexivity|]. exfalso. cbn [chain] in Cb. apply (inr_nil (fst y)). apply E. apply inr_cons. left. lia.
  - destruct b as [|y b].
    + exfalso. cbn [chain] in Ca. apply (inr_nil (fst x)). apply E. apply inr_cons. left. lia.
    + cbn [chain] in Ca, Cb. destruct Ca as (A1 & A2 & A3 & A4). destruct Cb as (B1 & B2 & B3 & B4).
      assert (Ga : forall s, inr s a -> snd x + 2 <= s). { intros s (e & He & Hb). destruct (chain_bound _ _ _ A4 He). lia. }
      assert (Gb : forall s, inr s b -> snd y + 2 <= s). { intros s (e & He & Hb). destruct (chain_bound _ _ _ B4 He). lia. }
      assert (L1 : fst y <= fst x). { destruct (proj1 (E (fst x)) ltac:(apply inr_cons; left; lia)) as (e & [<- |He] & Hb); [lia|]. assert (snd y + 2 <= fst x) by (apply Gb; now exists e). lia. }
      assert (L2 : fst x <= fst y). { destruct (proj2 (E (fst y)) ltac:(apply inr_cons; left; lia)) as (e & [<- |He] & Hb); [lia|]. assert (snd x + 2 <= fst y) by (apply Ga; now exists e). lia. }
      assert (H1 : snd x <= snd y).
      { destruct (Z_le_gt_dec (snd x) (snd y)) as [|G]; [assumption|exfalso]. pose proof (proj1 (E (snd y + 1)) ltac:(apply inr_cons; left; lia)) as Q.
        apply inr_cons in Q. destruct Q as [Q|Q]; [lia|]. apply Gb in Q. lia. }
      assert (H2 : snd y <= snd x).
      { destruct (Z_le_gt_dec (snd y) (snd x)) as [|G]; [assumption|exfalso]. pose proof (proj2 (E (snd x + 1)) ltac:(apply inr_cons; left; lia)) as Q.
        apply inr_cons in Q. destruct Q as [Q|Q]; [lia|]. apply Ga in Q. lia. }
      assert (XY : x = y) by (destruct x, y; cbn [fst snd] in *; f_equal; lia). subst y. f_equal. apply (IH b _ _ A4 B4).
      intros s. split; intros Q.
      * pose proof (proj1 (E s) ltac:(apply inr_cons; right; exact Q)) as R. apply inr_cons in R. destruct R as [R|R]; [|exact R]. apply Ga in Q. lia.
      * pose proof (proj2 (E s) ltac:(apply inr_cons; right; exact Q)) as R. apply inr_cons in R. destruct R as [R|R]; [|exact R]. apply Gb in Q. lia.
Qed.

Lemma pred_spec : forall pre m e, chain m (rev pre) -> (forall x, In x pre -> snd x <= snd e) -> 0 <= m <= fst e -> fst e <= snd e < U64 ->
  exists pre' e', coalesce_pred pre e = (pre', e') /\ chain m (rev pre' ++ [e']) /\ fst e' <= fst e /\ snd e' = snd e /\
  (forall s, inr s (rev pre' ++ [e']) <-> inr s pre \/ fst e <= s <= snd e).
Proof.
  induction pre as [|c pre IH]; intros m e C H M B; cbn [coalesce_pred].
  - exists [], e. split; [reflexivity|]. cbn [rev app chain]. split; [repeat split; lia|]. split; [lia|]. split; [reflexivity|].
    intros s. rewrite inr_cons. pose proof (inr_nil s). tauto.
  - cbn [rev] in C. pose proof (proj1 (chain_app _ _ _) C) as [C1 C2]. cbn [chain] in C2. destruct C2 as (D1 & D2 & D3 & _). pose proof (top_of_le _ _ C1) as [T1 T2].
    destruct (negb (fst e =? 0) && (snd c <? fst e - 1)) eqn:Q.
    + exists (c :: pre), e. split; [reflexivity|]. split; [|split; [lia|split; [reflexivity|]]].
      * apply chain_snoc; [exact C|lia|exact B|]. intros x Hx. apply in_rev in Hx. destruct Hx as [<- |Hx]; [lia|]. apply in_rev, T2 in Hx. lia.
      * intros s. rewrite inr_app, inr_rev, inr_cons, (inr_cons s e). pose proof (inr_nil s). tauto.
    + set (e1 := ((if fst c <? fst e then fst c else fst e), snd e)). assert (Hc : snd c <= snd e) by (apply H; now left).
      destruct (IH m e1) as (pre' & e' & E & C' & F & S & R).
      * exact C1.
      * intros x Hx. unfold e1; cbn [snd]. apply H. now right.
      * unfold e1; cbn [fst]. destruct (fst c <? fst e); lia.
      * unfold e1; cbn [fst snd]. destruct (fst c <? fst e) eqn:?; lia.
      * exists pre', e'. split; [exact E|]. split; [exact C'|]. unfold e1 in F, S, R; cbn [fst snd] in F, S, R. split; [destruct (fst c <? fst e) eqn:?; lia|]. split; [exact S|].
        intros s. rewrite R, inr_cons.
        assert (X : (if fst c <? fst e then fst c else fst e) <= s <= snd e <-> fst c <= s <= snd c \/ fst e <= s <= snd e).
        { destruct (Z.eqb_spec (fst e) 0); cbn [negb andb] in Q; destruct (fst c <? fst e) eqn:?; lia. }
        rewrite X. tauto.
Qed.
Lemma succ_spec : forall post k e, chain k post -> (forall x, In x post -> fst e <= fst x) -> fst e <= snd e < U64 ->
  exists post' e', coalesce_succ post e = (post', e') /\ chain (snd e' + 2) post' /\ fst e' = fst e /\ snd e <= snd e' < U64 /\
  (forall s, inr s (e' :: post') <-> fst e <= s <= snd e \/ inr s post).
Proof.
  induction post as [|c post IH]; intros k e C H B; cbn [coalesce_succ].
  - exists [], e. split; [reflexivity|]. cbn [chain]. split; [exact I|]. split; [reflexivity|]. split; [lia|]. intros s. apply inr_cons.
  - cbn [chain] in C. destruct C as (C1 & C2 & C3 & C4). assert (Hc : fst e <= fst c) by (apply H; now left).
    destruct (negb (snd e =? U64 - 1) && (snd e + 1 <? fst c)) eqn:Q.
    + exists (c :: post), e. split; [reflexivity|]. cbn [chain]. split; [repeat split; try lia; exact C4|]. split; [reflexivity|]. split; [lia|]. intros s. apply inr_cons.
    + set (e1 := (fst e, (if snd e <? snd c then snd c else snd e))).
      destruct (IH _ e1 C4) as (post' & e' & E & C' & F & S & R).
      * intros x Hx. unfold e1; cbn [fst]. apply H. now right.
      * unfold e1; cbn [fst snd]. destruct (snd e <? snd c) eqn:?; lia.
      * exists post', e'. split; [exact E|]. split; [exact C'|]. unfold e1 in F, S, R; cbn [fst snd] in F, S, R. split; [exact F|]. split; [destruct (snd e <? snd c) eqn:?; lia|].
        intros s. rewrite R, inr_cons.
        assert (X : fst e <= s <= (if snd e <? snd c then snd c else snd e) <-> fst c <= s <= snd c \/ fst e <= s <= snd e).
        { destruct (Z.eqb_spec (snd e) (U64 - 1)); cbn [negb andb] in Q; destruct (snd e <? snd c) eqn:?; lia. }
        rewrite X. tauto.
Qed.

Lemma span_app : forall {A} (p : A -> bool) l, fst (span p l) ++ snd (span p l) = l.
Proof. intros A p. induction l as [|x l IH]; cbn [span]; [reflexivity|]. destruct (p x); cbn [fst snd app]; [now rewrite IH|reflexivity]. Qed.
Lemma span_in : forall {A} (p : A -> bool) l x, In x (fst (span p l)) -> p x = true.
Proof. intros A p. induction l as [|y l IH]; cbn [span]; intros x H; [destruct H|]. destruct (p y) eqn:E; cbn [fst In] in H; [|destruct H]. destruct H as [<- |H]; [exact E|now apply IH]. Qed.
Lemma span_hd : forall {A} (p : A -> bool) l x r, snd (span p l) = x :: r -> p x = false.
Proof. intros A p. induction l as [|y l IH]; cbn [span]; intros x r H; [discriminate|]. destruct (p y) eqn:E; cbn [snd] in H; [now apply (IH x r)|]. injection H as <- <-. exact E. Qed.

Lemma insert_spec : forall pick rt m lo hi, chain m rt -> 0 <= m <= lo -> lo <= hi < U64 ->
  chain m (insert_serial_range pick rt lo hi) /\
  (forall s, inr s (insert_serial_range pick rt lo hi) <-> inr s rt \/ lo <= s <= hi).
Proof.
  intros pick rt m lo hi C M B. unfold insert_serial_range. cbv zeta.
  set (bef := fst (span (fun e => serial_cmp (lo, hi) e =? 1) rt)). set (r1 := snd (span (fun e => serial_cmp (lo, hi) e =? 1) rt)).
  set (mid := fst (span (fun e => serial_cmp (lo, hi) e =? 0) r1)). set (aft := snd (span (fun e => serial_cmp (lo, hi) e =? 0) r1)).
  assert (E1 : bef ++ r1 = rt) by apply span_app. assert (E2 : mid ++ aft = r1) by apply span_app.
  assert (C0 : chain m (bef ++ mid ++ aft)) by (rewrite E2, E1; exact C).
  assert (Hbef : forall x, In x bef -> snd x < lo).
  { intros x Hx. pose proof (span_in _ _ _ Hx) as Q. cbv beta in Q. assert (Ix : In x rt) by (rewrite <- E1; apply in_or_app; now left).
    destruct (chain_bound _ _ _ C Ix). unfold serial_cmp in Q. cbn [fst snd] in Q.
    destruct ((fst x <=? hi) && (lo <=? snd x)) eqn:Q1; [discriminate|]. destruct (lo <? fst x) eqn:Q2; [discriminate|]. lia. }
  assert (Hmid : forall x, In x mid -> fst x <= hi /\ lo <= snd x).
  { intros x Hx. pose proof (span_in _ _ _ Hx) as Q. cbv beta in Q. unfold serial_cmp in Q. cbn [fst snd] in Q.
    destruct ((fst x <=? hi) && (lo <=? snd x)) eqn:Q1; [lia|]. destruct (lo <? fst x); discriminate. }
  pose proof (proj1 (chain_app _ _ _) C0) as [Cb Cm]. pose proof (proj1 (chain_app _ _ _) Cm) as [Cmid Caft].
  pose proof (top_of_le _ _ Cb) as [Tb _]. pose proof (top_of_le _ _ Cmid) as [Tm _].
  assert (Haft : forall x, In x aft -> hi < fst x).
  { destruct aft as [|a ar] eqn:Ea; [intros x []|].
    assert (Q0 : serial_cmp (lo, hi) a <> 0). { pose proof (span_hd (fun e => serial_cmp (lo, hi) e =? 0) r1 a ar) as K. cbv beta in K. intros Z0. rewrite Z0 in K. discriminate K. exact Ea. }
    cbn [chain] in Caft. destruct Caft as (A1 & A2 & A3 & A4).
    assert (L : lo <= snd a).
    { destruct mid as [|m0 mr] eqn:Em.
      - cbn [app] in E2. assert (K : (serial_cmp (lo, hi) a =? 1) = false) by (apply (span_hd (fun e => serial_cmp (lo, hi) e =? 1) rt a ar); fold r1; now rewrite <- E2).
        unfold serial_cmp in K. cbn [fst snd] in K. destruct ((fst a <=? hi) && (lo <=? snd a)) eqn:?; [lia|]. destruct (lo <? fst a) eqn:?; [lia|discriminate].
      - destruct (Hmid m0 (or_introl eq_refl)). pose proof (top_of_le _ _ Cmid) as [_ T2]. specialize (T2 m0 (or_introl eq_refl)). lia. }
    assert (G : hi < fst a). { unfold serial_cmp in Q0. cbn [fst snd] in Q0. destruct ((fst a <=? hi) && (lo <=? snd a)) eqn:?; [congruence|]. lia. }
    intros x [<- |Hx]; [exact G|]. destruct (chain_bound _ _ _ A4 Hx). lia. }
  (* whatever the entry found, we continue from a state of this form *)
  assert (K : forall pre e post k, chain m pre -> (forall x, In x pre -> snd x <= snd e) -> chain k post -> (forall x, In x post -> fst e <= fst x) ->
    m <= fst e -> fst e <= snd e < U64 -> (forall s, inr s pre \/ (fst e <= s <= snd e) \/ inr s post <-> inr s rt \/ lo <= s <= hi) ->
    let '(pre', ers1) := coalesce_pred (rev pre) e in let '(post', ers2) := coalesce_succ post ers1 in
    chain m (rev pre' ++ ers2 :: post') /\ (forall s, inr s (rev pre' ++ ers2 :: post') <-> inr s rt \/ lo <= s <= hi)).
  { intros pre e post k Cp Hp Cq Hq Me Be Hs.
    destruct (pred_spec (rev pre) m e) as (pre' & e' & -> & C' & F & S & R).
    - now rewrite rev_involutive.
    - intros x Hx. apply Hp. now apply in_rev.
    - lia.
    - lia.
    - destruct (succ_spec post k e' Cq) as (post' & e2 & -> & C2 & F2 & S2 & R2).
      + intros x Hx. specialize (Hq x Hx). lia.
      + lia.
      + pose proof (proj1 (chain_app _ _ _) C') as [D1 D2]. cbn [chain] in D2. split.
        * apply chain_app. split; [exact D1|]. cbn [chain]. split; [lia|]. split; [lia|]. split; [lia|exact C2].
        * intros s. rewrite inr_app, R2. rewrite <- Hs. specialize (R s). rewrite inr_app, inr_cons, inr_rev in R. pose proof (inr_nil s).
          clear - R H. rewrite inr_rev in *. tauto. }
  assert (Hrt : forall s, inr s rt <-> inr s bef \/ inr s mid \/ inr s aft) by (intros s; rewrite <- E1, <- E2, !inr_app; tauto).
  destruct mid as [|m0 mr] eqn:Em.
  - specialize (K bef (lo, hi) aft (top_of (top_of m bef) []) Cb). cbn [fst snd] in K. specialize (K ltac:(intros x Hx; specialize (Hbef x Hx); lia) Caft).
    specialize (K ltac:(intros x Hx; specialize (Haft x Hx); lia)).
    specialize (K ltac:(lia) ltac:(lia)).
    specialize (K ltac:(intros s; rewrite Hrt; pose proof (inr_nil s); tauto)).
    destruct (coalesce_pred (rev bef) (lo, hi)) as [pre' e1]. destruct (coalesce_succ aft e1) as [post' e2]. exact K.
  - rewrite <- Em in *. set (i := Nat.modulo pick (length mid)). assert (Li : (i < length mid)%nat) by (apply Nat.mod_upper_bound; rewrite Em; discriminate).
    destruct (nth_split mid (lo, hi) Li) as (a & b & Ea & La). set (e := nth i mid (lo, hi)) in *.
    assert (F1 : firstn i mid = a) by (rewrite Ea, firstn_app, <- La, Nat.sub_diag, firstn_all, firstn_O, app_nil_r; reflexivity).
    assert (F2 : skipn (S i) mid = b). { rewrite Ea, skipn_app, skipn_all2 by lia. replace (S i - length a)%nat with 1%nat by lia. reflexivity. }
    rewrite F1, F2. rewrite Ea in Cmid, Hmid, Caft. pose proof (proj1 (chain_app _ _ _) Cmid) as [Ca Ce]. cbn [chain] in Ce. destruct Ce as (G1 & G2 & G3 & G4).
    pose proof (top_of_le _ _ Ca) as [Ta Ta2]. destruct (Hmid e ltac:(apply in_or_app; right; now left)) as [He1 He2].
    assert (Cpre : chain m (bef ++ a)) by (apply chain_app; split; [exact Cb|exact Ca]).
    assert (Cpost : chain (snd e + 2) (b ++ aft)).
    { apply chain_app. split; [exact G4|]. assert (Tq : top_of (top_of m bef) (a ++ e :: b) = top_of (snd e + 2) b).
      { clear. generalize (top_of m bef) as z. induction a as [|x a IH]; intros z; cbn [app top_of]; [reflexivity|apply IH]. }
      rewrite Tq in Caft. exact Caft. }
    specialize (K (bef ++ a) ((if lo <? fst e then lo else fst e), (if snd e <? hi then hi else snd e)) (b ++ aft) (snd e + 2) Cpre). cbn [fst snd] in K.
    specialize (K ltac:(intros x Hx; apply in_app_or in Hx; destruct Hx as [Hx|Hx]; [specialize (Hbef x Hx); destruct (snd e <? hi) eqn:?; lia|specialize (Ta2 x Hx); destruct (snd e <? hi) eqn:?; lia]) Cpost).
    specialize (K ltac:(intros x Hx; destruct (chain_bound _ _ _ Cpost Hx); destruct (lo <? fst e) eqn:?; lia)).
    specialize (K ltac:(destruct (lo <? fst e) eqn:?; lia) ltac:(destruct (lo <? fst e) eqn:?, (snd e <? hi) eqn:?; lia)).
    assert (Un : forall s, inr s (bef ++ a) \/ (if lo <? fst e then lo else fst e) <= s <= (if snd e <? hi then hi else snd e) \/ inr s (b ++ aft) <-> inr s rt \/ lo <= s <= hi).
    { intros s. rewrite Hrt, Ea, !inr_app, inr_cons.
      assert (X : (if lo <? fst e then lo else fst e) <= s <= (if snd e <? hi then hi else snd e) <-> fst e <= s <= snd e \/ lo <= s <= hi) by (destruct (lo <? fst e) eqn:?, (snd e <? hi) eqn:?; lia).
      rewrite X. tauto. }
    specialize (K Un). destruct (coalesce_pred (rev (bef ++ a)) _) as [pre' e1]. destruct (coalesce_succ (b ++ aft) e1) as [post' e2]. exact K.
Qed.
Lemma insert_any_pick : forall p1 p2 rt m lo hi, chain m rt -> 0 <= m <= lo -> lo <= hi < U64 ->
  insert_serial_range p1 rt lo hi = insert_serial_range p2 rt lo hi.
Proof.
  intros p1 p2 rt m lo hi C M B. destruct (insert_spec p1 rt m lo hi C M B) as [C1 R1]. destruct (insert_spec p2 rt m lo hi C M B) as [C2 R2].
  apply (chain_unique _ _ m m C1 C2). intros s. rewrite R1, R2. tauto.
Qed.
Lemma cmp_point : forall s l, existsb (fun e => serial_cmp (s, s) e =? 0) l = true <-> inr s l.
Proof.
  intros s l. rewrite existsb_exists. unfold inr, serial_cmp. cbn [fst snd]. split; intros (e & H & Q); exists e; (split; [exact H|]).
  - destruct ((fst e <=? s) && (s <=? snd e)) eqn:E; [lia|]. destruct (s <? fst e); discriminate.
  - replace ((fst e <=? s) && (s <=? snd e)) with true by lia. reflexivity.
Qed.
