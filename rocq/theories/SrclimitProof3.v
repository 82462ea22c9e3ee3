From Coq Require Import String Permutation Sorting.Sorted.
From Verif Require Import Base Bits AddrModel AddrSpec AddrProof SrclimitModel SrclimitSpec SrclimitProof SrclimitProof2.
Local Open Scope Z_scope.

Lemma live_live : forall t t' p, t <= t' -> live t' (live t p) = live t' p.
Proof. intros t t' [[e a]|] H; [|reflexivity]. cbn [live]. destruct (e <? t) eqn:E; [cbn [live]; now replace (e <? t') with true by lia|reflexivity]. Qed.
Lemma pigeon : forall (X : list penalty) (L : list xaddr) (rel : penalty -> xaddr -> Prop), NoDup X ->
  (forall p, In p X -> exists b, In b L /\ rel p b) -> (forall p q b, In p X -> In q X -> rel p b -> rel q b -> p = q) -> zlen X <= zlen L.
Proof.
  induction X as [|p X IH]; intros L rel N H J; [rewrite zlen_nil; apply zlen_nonneg|]. apply NoDup_cons_iff in N. destruct N as [N1 N2]. destruct (H p) as (b & Hb & Rb); [now left|].
  apply in_split in Hb. destruct Hb as (L1 & L2 & ->). rewrite zlen_cons, zlen_app, zlen_cons.
  assert (A : zlen X <= zlen (L1 ++ L2)); [|rewrite zlen_app in A; lia]. apply (IH (L1 ++ L2) rel N2).
  - intros q Hq. destruct (H q) as (b' & Hb' & Rq); [now right|]. exists b'. split; [|exact Rq]. apply in_app_iff in Hb'. apply in_app_iff. destruct Hb' as [Hb'|[<-|Hb']]; auto.
    exfalso. apply N1. rewrite (J p q b); auto; [now left|now right].
  - intros q q' b' Hq Hq'. apply J; now right.
Qed.

Section Env.
Variable ntop : xaddr -> option (list Z).
Variable pton : list Z -> option xaddr.
Variable c : config.
Hypothesis Hc : cfg_ok c.
Notation owed := (owed ntop pton c).
Notation offence := (offence ntop pton c).

Lemma owed_snoc : forall h k a, owed (h ++ [k]) a = match offence a k with Some (t, secs) => bump c t secs (owed h a) | None => owed h a end.
Proof. intros. unfold SrclimitSpec.owed. rewrite fold_left_app. reflexivity. Qed.
Definition lk (s : state) (a : xaddr) : option penalty :=
  match srclimit_mask_addr a (bits_for c (x_af a)) with Some m => rb_find penalty_addr_cmp (mkP m 0 false 0) (by_addr (tab s (x_af a))) | None => None end.
Definition pair_of (p : penalty) : Z * bool := (p_expiry p, p_active p).
Definition own (a : xaddr) (p : penalty) : Prop := exists m, srclimit_mask_addr a (bits_for c (x_af a)) = Some m /\ addr_cmp m (p_addr p) = 0.
Lemma own_fun : forall a f p q, wf a -> x_af a = f -> vld f p -> vld f q -> own a p -> own a q -> penalty_addr_cmp p q = 0.
Proof.
  intros a f p q Wa Fa Vp Vq (m & Em & Cp) (m' & Em' & Cq). assert (m' = m) as -> by congruence. destruct (mask_spec c a Hc Wa) as (m1 & E1 & W1 & F1 & _). assert (m1 = m) as -> by congruence.
  apply (p_trans f p (mkP m 0 false 0) q); auto; [split; [exact W1|cbn [p_addr]; congruence]|]. apply (p_sym f); auto. split; [exact W1|cbn [p_addr]; congruence].
Qed.
Lemma own_cmp : forall a f p q, wf a -> x_af a = f -> vld f p -> vld f q -> penalty_addr_cmp p q = 0 -> own a p -> own a q.
Proof.
  intros a f p q Wa Fa Vp Vq C (m & Em & Cp). exists m. split; [exact Em|]. destruct (mask_spec c a Hc Wa) as (m1 & E1 & W1 & F1 & _). assert (m1 = m) as -> by congruence.
  apply (p_trans f (mkP m 0 false 0) p q); auto. split; [exact W1|cbn [p_addr]; congruence].
Qed.
Lemma lk_iff : forall s a p, sinv c s -> wf a -> (lk s a = Some p <-> In p (by_addr (tab s (x_af a))) /\ own a p).
Proof.
  intros s a p I Wa. unfold lk. destruct (mask_spec c a Hc Wa) as (m & Em & Wm & Fm & _). rewrite Em. pose proof (rb_find_spec penalty_addr_cmp (by_addr (tab s (x_af a))) (mkP m 0 false 0)) as F.
  destruct (I (x_af a)) as [If _]. pose proof (ti_v _ _ If) as V. rewrite Forall_forall in V. destruct (rb_find _ _ _) as [q|].
  - destruct F as [Hq Cq]. split.
    + intros H. injection H as <-. split; [exact Hq|]. exists m. split; [exact Em|exact Cq].
    + intros [Hp Op]. f_equal. apply (unique (x_af a) _ q p If Hq Hp). apply (own_fun a (x_af a)); auto. exists m. split; [exact Em|exact Cq].
  - split; [discriminate|]. intros [Hp (m' & Em' & Cp)]. assert (m' = m) as -> by congruence. exfalso. exact (F p Hp Cp).
Qed.
Lemma lk_none : forall s a, sinv c s -> wf a -> (forall p, In p (by_addr (tab s (x_af a))) -> ~ own a p) -> lk s a = None.
Proof. intros s a I Wa H. destruct (lk s a) as [p|] eqn:E; [|reflexivity]. apply lk_iff in E; auto. exfalso. exact (H p (proj1 E) (proj2 E)). Qed.
Lemma lk_perm : forall s s' a, sinv c s -> sinv c s' -> wf a -> (forall p, In p (by_addr (tab s (x_af a))) <-> In p (by_addr (tab s' (x_af a)))) -> lk s a = lk s' a.
Proof.
  intros s s' a I I' Wa H. destruct (lk s a) as [p|] eqn:E.
  - apply lk_iff in E; auto. symmetry. apply lk_iff; auto. rewrite <- H. exact E.
  - symmetry. apply lk_none; auto. intros p Hp O. rewrite <- H in Hp. assert (lk s a = Some p) by (apply lk_iff; auto). congruence.
Qed.
Lemma lk_expire : forall s s1 now a, sinv c s -> wf a -> expire_penalties now s = Some s1 -> sinv c s1 /\ kids s1 = kids s /\
  lk s1 a = match lk s a with Some p => if p_expiry p <? now then None else Some p | None => None end.
Proof.
  intros s s1 now a I Wa E. destruct (expire_all c s now I) as (s' & E' & I1 & K & P). assert (s' = s1) as -> by congruence. split; [exact I1|]. split; [exact K|].
  assert (Q : forall p, In p (by_addr (tab s1 (x_af a))) <-> In p (by_addr (tab s (x_af a))) /\ now <= p_expiry p).
  { intros p. split; intros H; [apply (Permutation_in _ (P (x_af a))) in H; apply filter_In in H; split; [apply H|lia]|apply (Permutation_in _ (Permutation_sym (P (x_af a)))); apply filter_In; split; [apply H|lia]]. }
  destruct (lk s a) as [p|] eqn:L.
  - apply lk_iff in L; auto. destruct (p_expiry p <? now) eqn:Ep; [|apply lk_iff; auto; rewrite Q; intuition lia].
    apply lk_none; auto. intros q Hq Oq. apply Q in Hq. assert (q = p); [|subst; lia]. destruct (I (x_af a)) as [If _]. pose proof (ti_v _ _ If) as V. rewrite Forall_forall in V. destruct L as [Lp Lo]. apply (unique _ _ _ _ If); [apply Hq|exact Lp|]. apply (own_fun a (x_af a)); auto. apply V, Hq.
  - apply lk_none; auto. intros q Hq Oq. apply Q in Hq. assert (lk s a = Some q) by (apply lk_iff; auto; split; [apply Hq|exact Oq]). congruence.
Qed.

(** Entries come from masked addresses. *)
Definition masked (s : state) : Prop := forall f p, In p (by_addr (tab s f)) -> exists a, wf a /\ x_af a = f /\ own a p.
Lemma own_same : forall a b p, wf a -> wf b -> x_af a = x_af b -> vld (x_af a) p -> own a p -> own b p -> same_source c a b.
Proof.
  intros a b p Wa Wb E Vp (m & Em & Cm) (m' & Em' & Cm'). apply (mask_same c a b m m' Hc Wa Wb E Em Em'). destruct (mask_spec c a Hc Wa) as (m1 & E1 & W1 & F1 & _). assert (m1 = m) as -> by congruence. destruct (mask_spec c b Hc Wb) as (m2 & E2 & W2 & F2 & _). assert (m2 = m') as -> by congruence.
  assert (A : penalty_addr_cmp (mkP m 0 false 0) (mkP m' 0 false 0) = 0); [|exact A]. apply (p_trans (x_af a) _ p); auto; try (split; [assumption|cbn [p_addr]; congruence]). apply (p_sym (x_af a)); auto. split; [assumption|cbn [p_addr]; congruence].
Qed.
Lemma same_own : forall a b p, wf a -> wf b -> vld (x_af a) p -> same_source c a b -> own b p -> own a p.
Proof.
  intros a b p Wa Wb Vp S (m & Em & Cm). destruct S as [E S]. destruct (mask_spec c a Hc Wa) as (m1 & E1 & W1 & F1 & _). destruct (mask_spec c b Hc Wb) as (m2 & E2 & W2 & F2 & _). assert (m2 = m) as -> by congruence. exists m1. split; [exact E1|].
  assert (A : addr_cmp m1 m = 0) by (apply (mask_same c a b m1 m Hc Wa Wb E E1 Em); split; assumption).
  apply (p_trans (x_af a) (mkP m1 0 false 0) (mkP m 0 false 0) p); auto; split; (assumption || (cbn [p_addr]; congruence)).
Qed.
Lemma same_sym : forall a b, same_source c a b -> same_source c b a.
Proof. intros a b (A & B & C). split; [congruence|]. split; [congruence|]. unfold same_scope in *. intros H. rewrite C; [reflexivity|congruence]. Qed.
Lemma same_trans : forall a b d, same_source c a b -> same_source c b d -> same_source c a d.
Proof. intros a b d (A & B & C) (A' & B' & C'). split; [congruence|]. split; [congruence|]. unfold same_scope in *. intros H. rewrite C, C' by congruence. reflexivity. Qed.

(** A set of entries, all owing, is no larger than the number of sources. *)
Lemma few_bound : forall h t f X, few_sources ntop pton c h t -> NoDup X -> Forall (vld f) X -> (forall p q, In p X -> In q X -> penalty_addr_cmp p q = 0 -> p = q) ->
  (forall p, In p X -> exists a, wf a /\ x_af a = f /\ own a p /\ live t (owed h a) <> None) -> zlen X <= limit c f.
Proof.
  intros h t f X F N V U O. destruct (F f) as (L & HL & HF). enough (zlen X <= zlen L) by lia. rewrite Forall_forall in V.
  apply (pigeon X L (fun p b => exists a, wf a /\ x_af a = f /\ own a p /\ wf b /\ same_source c a b) N).
  - intros p Hp. destruct (O p Hp) as (a & Wa & Fa & Oa & La). destruct (HF a Wa Fa La) as (b & Hb & Wb & Sb). exists b. split; [exact Hb|]. exists a. auto 10.
  - intros p q b Hp Hq (a & Wa & Fa & Oa & Wb & Sa) (a' & Wa' & Fa' & Oa' & _ & Sa'). apply U; auto. apply (own_fun a f); auto. apply (same_own a a'); auto; [subst f; apply V; exact Hq|]. apply (same_trans _ b); [exact Sa|now apply same_sym].
Qed.

(** * What one call to penalise does to every address *)
Definition fits (s1 : state) (f : family) : Prop := if over_for c f =? DENY_ALL then npen (tab s1 f) < max_for c f else True.
Lemma offence_pen : forall a b ty now, offence a (Penalise b ty now) = if counts ntop pton c b ty && same_sourceb c a b then Some (now, charge c ty) else None.
Proof. reflexivity. Qed.
Definition after (s1 : state) (b : xaddr) (ty now : Z) (a : xaddr) : option (Z * bool) :=
  if same_sourceb c a b then
    match lk s1 a with
    | None => Some (now + charge c ty, charge c ty >? c_min c)
    | Some p => Some (pair_of (pen_more c p ty now))
    end
  else option_map pair_of (lk s1 a).
Lemma penalise_lk : forall s b ty now, sinv c s -> masked s -> wf b -> 0 <= ty <= 5 -> counts ntop pton c b ty = true ->
  exists s' s1, srclimit_penalise ntop pton c s b ty now = Some s' /\ sinv c s' /\ masked s' /\ kids s' = kids s /\ expire_penalties now s = Some s1 /\
  (s' = s1 /\ over_for c (x_af b) = DENY_ALL /\ npen (tab s1 (x_af b)) = max_for c (x_af b) \/
   (forall a, wf a -> option_map pair_of (lk s' a) = after s1 b ty now a) \/
   over_for c (x_af b) <> DENY_ALL /\ npen (tab s1 (x_af b)) = max_for c (x_af b) /\ lk s1 b = None /\
   exists v, vld (x_af b) v /\ (forall a, wf a -> own a v -> x_af a = x_af b -> lk s' a = None) /\ (forall a, wf a -> ~ (x_af a = x_af b /\ own a v) -> option_map pair_of (lk s' a) = after s1 b ty now a)).
Proof.
  intros s b ty now I M Wb Ht Cb. destruct (penalise_spec ntop pton c s b ty now Hc I Wb Ht) as (s' & E & I' & K & [[Q _]|[_ (s1 & m & Ee & Em & Oth & Cases)]]); [congruence|]. cbv zeta in Cases.
  destruct (expire_all c s now I) as (s1' & Ee' & I1 & K1 & P1). assert (s1' = s1) as -> by congruence. clear Ee'.
  assert (M1 : masked s1). { intros f p Hp. apply M. apply (Permutation_in _ (P1 f)) in Hp. apply filter_In in Hp. apply Hp. }
  destruct (mask_spec c b Hc Wb) as (m0 & Em0 & Wm & Fm & _). assert (m0 = m) as -> by congruence. clear Em0. set (f := x_af b) in *.
  assert (Vnew : vld f (pen_new c m ty now)) by (split; assumption). assert (Onew : own b (pen_new c m ty now)). { exists m. split; [exact Em|]. apply (p_refl f _ Vnew). }
  destruct (I1 f) as [If Nf]. pose proof (ti_v _ _ If) as Vf. rewrite Forall_forall in Vf. destruct (I' f) as [If' Nf']. pose proof (ti_v _ _ If') as Vf'. rewrite Forall_forall in Vf'.
  assert (Oth' : forall a, wf a -> x_af a <> f -> option_map pair_of (lk s' a) = after s1 b ty now a).
  { intros a Wa Fa. unfold after. destruct (same_sourceb c a b) eqn:S; [apply same_sourceb_iff in S; destruct S as [S _]; contradiction|]. f_equal. apply lk_perm; auto. intros p. split; intros H; [apply (Permutation_in _ (Oth _ Fa))|apply (Permutation_in _ (Permutation_sym (Oth _ Fa)))]; exact H. }
  assert (Mg : forall g p, g <> f -> In p (by_addr (tab s' g)) -> exists a, wf a /\ x_af a = g /\ own a p). { intros g p Hg Hp. apply M1. exact (Permutation_in _ (Oth g Hg) Hp). }
  assert (Fd : forall g : family, {g = f} + {g <> f}) by (intros g; destruct g, f; (left; reflexivity) || (right; discriminate)).
  exists s', s1. destruct Cases as [(-> & D & N)|[(No & [(N & P)|(D & N & v & P & Mv)])|(old & Ho & Co & Eo)]].
  - split; [exact E|]. split; [exact I'|]. split; [exact M1|]. split; [exact K|]. split; [exact Ee|]. left. auto.
  - (* new entry *)
    split; [exact E|]. split; [exact I'|]. split. { intros g p Hp. destruct (Fd g) as [-> |Hg]; [|now apply Mg]. apply (Permutation_in _ P) in Hp. destruct Hp as [<-|Hp]; [exists b; auto|now apply M1]. }
    split; [exact K|]. split; [exact Ee|]. right. left. intros a Wa. destruct (Fd (x_af a)) as [Fa|Fa]; [|now apply Oth']. unfold after.
    assert (Iff : forall p, In p (by_addr (tab s' (x_af a))) <-> p = pen_new c m ty now \/ In p (by_addr (tab s1 (x_af a)))). { intros p. rewrite Fa. split; intros H; [apply (Permutation_in _ P) in H; destruct H; auto|apply (Permutation_in _ (Permutation_sym P)); destruct H; [left; auto|now right]]. }
    destruct (same_sourceb c a b) eqn:S.
    + apply same_sourceb_iff in S. assert (Oa : own a (pen_new c m ty now)) by (apply (same_own a b); auto; now rewrite Fa). rewrite (proj2 (lk_iff s' a (pen_new c m ty now) I' Wa)) by (split; [apply Iff; now left|exact Oa]).
      rewrite lk_none; auto. intros p Hp Op. rewrite Fa in Hp. apply (No p Hp). apply (own_fun a f (pen_new c m ty now) p); auto.
    + f_equal. destruct (lk s1 a) as [p|] eqn:L.
      * apply lk_iff in L; auto. apply lk_iff; auto. rewrite Iff. intuition.
      * apply lk_none; auto. intros p Hp Op. apply Iff in Hp. destruct Hp as [-> |Hp].
        -- assert (same_source c a b) as Ss by (apply (own_same a b (pen_new c m ty now)); auto; rewrite Fa; exact Vnew). apply same_sourceb_iff in Ss. congruence.
        -- assert (lk s1 a = Some p) by (apply lk_iff; auto). congruence.
  - (* overflow *)
    assert (Iff : forall p, In p (v :: by_addr (tab s' f)) <-> p = pen_new c m ty now \/ In p (by_addr (tab s1 f))). { intros p. split; intros H; [apply (Permutation_in _ (Permutation_sym P)) in H; destruct H; auto|apply (Permutation_in _ P); destruct H; [left; auto|now right]]. }
    assert (Vv : vld f v). { destruct (proj1 (Iff v) (or_introl eq_refl)) as [-> |Hv]; auto. }
    assert (Un : forall p q, (p = pen_new c m ty now \/ In p (by_addr (tab s1 f))) -> (q = pen_new c m ty now \/ In q (by_addr (tab s1 f))) -> penalty_addr_cmp p q = 0 -> p = q).
    { intros p q [-> |Hp] [-> |Hq] C; [reflexivity|exfalso; exact (No q Hq C)| |now apply (unique f (tab s1 f))]. exfalso. apply (No p Hp). apply (p_sym f) in C; auto. }
    assert (Nd : NoDup (v :: by_addr (tab s' f))). { apply (Permutation_NoDup P). constructor; [|apply sorted_nodup, If]. intros H. apply (No _ H). exact (p_refl f _ Vnew). }
    apply NoDup_cons_iff in Nd. destruct Nd as [Nd _].
    split; [exact E|]. split; [exact I'|]. split. { intros g p Hp. destruct (Fd g) as [-> |Hg]; [|now apply Mg]. destruct (proj1 (Iff p) (or_intror Hp)) as [-> |Hp']; [exists b; auto|now apply M1]. }
    split; [exact K|]. split; [exact Ee|]. right. right. split; [exact D|]. split; [exact N|].
    split. { apply lk_none; auto. intros p Hp Op. apply (No p Hp). apply (own_fun b f (pen_new c m ty now) p); auto. }
    exists v. split; [exact Vv|]. split.
    { intros a Wa Ov Fa. apply lk_none; auto. intros p Hp Op. apply Nd. rewrite Fa in Hp. assert (p = v) as <-; [|exact Hp]. apply Un; [apply Iff; now right|apply Iff; now left|]. apply (own_fun a f); auto. }
    intros a Wa Na. destruct (Fd (x_af a)) as [Fa|Fa]; [|now apply Oth']. unfold after. assert (Nv : ~ own a v) by tauto.
    destruct (same_sourceb c a b) eqn:S.
    + apply same_sourceb_iff in S. assert (Oa : own a (pen_new c m ty now)) by (apply (same_own a b); auto; now rewrite Fa).
      rewrite (proj2 (lk_iff s' a (pen_new c m ty now) I' Wa)). { rewrite lk_none; auto. intros p Hp Op. rewrite Fa in Hp. apply (No p Hp). apply (own_fun a f (pen_new c m ty now) p); auto. }
      split; [|exact Oa]. rewrite Fa. destruct (proj2 (Iff (pen_new c m ty now)) (or_introl eq_refl)) as [H|H]; [rewrite H in Nv; contradiction|exact H].
    + f_equal. destruct (lk s1 a) as [p|] eqn:L.
      * apply lk_iff in L; auto. destruct L as [L1 L2]. apply lk_iff; auto. split; [|exact L2]. rewrite Fa in *. destruct (proj2 (Iff p) (or_intror L1)) as [-> |H]; [contradiction|exact H].
      * apply lk_none; auto. intros p Hp Op. rewrite Fa in Hp. destruct (proj1 (Iff p) (or_intror Hp)) as [-> |Hp'].
        -- assert (same_source c a b) as Ss by (apply (own_same a b (pen_new c m ty now)); auto; rewrite Fa; exact Vnew). apply same_sourceb_iff in Ss. congruence.
        -- assert (lk s1 a = Some p) by (apply lk_iff; auto; split; [now rewrite Fa|exact Op]). congruence.
  - (* existing entry *)
    set (new := pen_more c old ty now) in *. assert (Vo : vld f old) by auto. assert (Vn : vld f new) by exact Vo. assert (Oo : own b old) by (exists m; auto).
    assert (On : forall a, own a old <-> own a new) by (intros a; reflexivity).
    assert (Iff : forall p, In p (by_addr (tab s' f)) <-> p = new \/ (p <> old /\ In p (by_addr (tab s1 f)))).
    { intros p. rewrite Eo, in_map_iff. split.
      - intros (q & <- & Hq). unfold upd. destruct (penalty_addr_cmp old q =? 0) eqn:C; [now left|]. right. split; [|exact Hq]. intros ->. rewrite (p_refl f old Vo) in C. discriminate.
      - intros [-> |[Np Hp]]; [exists old; unfold upd; rewrite (p_refl f old Vo); auto|]. exists p. split; [|exact Hp]. unfold upd. destruct (penalty_addr_cmp old p =? 0) eqn:C; [|reflexivity]. exfalso. apply Np. symmetry. apply (unique f (tab s1 f)); auto. lia. }
    split; [exact E|]. split; [exact I'|]. split. { intros g p Hp. destruct (Fd g) as [-> |Hg]; [|now apply Mg]. apply Iff in Hp. destruct Hp as [-> |[_ Hp]]; [exists b; split; [exact Wb|split; [reflexivity|now apply On]]|now apply M1]. }
    split; [exact K|]. split; [exact Ee|]. right. left. intros a Wa. destruct (Fd (x_af a)) as [Fa|Fa]; [|now apply Oth']. unfold after. destruct (same_sourceb c a b) eqn:S.
    + apply same_sourceb_iff in S. assert (Oa : own a old) by (apply (same_own a b); auto; now rewrite Fa).
      rewrite (proj2 (lk_iff s' a new I' Wa)) by (split; [rewrite Fa; apply Iff; now left|now apply On]). rewrite (proj2 (lk_iff s1 a old I1 Wa)) by (split; [now rewrite Fa|exact Oa]). reflexivity.
    + assert (No : ~ own a old). { intros Q. assert (same_source c a b) as Ss by (apply (own_same a b old); auto; now rewrite Fa). apply same_sourceb_iff in Ss. congruence. }
      f_equal. destruct (lk s1 a) as [p|] eqn:L.
      * apply lk_iff in L; auto. destruct L as [L1 L2]. apply lk_iff; auto. split; [|exact L2]. rewrite Fa in *. apply Iff. right. split; [intros ->; contradiction|exact L1].
      * apply lk_none; auto. intros p Hp Op. rewrite Fa in Hp. apply Iff in Hp. destruct Hp as [-> |[_ Hp]]; [apply No; now apply On|].
        assert (lk s1 a = Some p) by (apply lk_iff; auto; split; [now rewrite Fa|exact Op]). congruence.
Qed.
End Env.
