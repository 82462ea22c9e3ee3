From Coq Require Import String Permutation Sorting.Sorted.
From Verif Require Import Base Bits AddrModel AddrSpec AddrProof SrclimitModel SrclimitSpec SrclimitProof.
Local Open Scope Z_scope.

Lemma sorted_nodup : forall t, StronglySorted plt t -> NoDup t.
Proof.
  induction t as [|x t IH]; intros S; [constructor|]. apply StronglySorted_inv in S. destruct S as [S Sx]. constructor; [|auto]. intros H. rewrite Forall_forall in Sx. specialize (Sx x H). unfold plt, alt in Sx. lia.
Qed.
Lemma unique : forall f T x y, tinv f T -> In x (by_addr T) -> In y (by_addr T) -> penalty_addr_cmp x y = 0 -> x = y.
Proof. intros f T x y I. exact (sorted_unique penalty_addr_cmp plt (vld f) (p_lt f) (p_gt f) plt_trans (by_addr T) x y (ti_v f T I) (ti_a f T I)). Qed.

Definition sinv (c : config) (s : state) : Prop := forall f, tinv f (tab s f) /\ npen (tab s f) <= max_for c f.
Lemma tab_with : forall s f g t, tab (with_tab s f t) g = if fam_eqb f g then t else tab s g.
Proof. intros s [] [] t; reflexivity. Qed.
Lemma empty_inv : forall f, tinv f empty_table.
Proof. intros f. constructor; cbn; try constructor. Qed.

Lemma expire_all : forall c s now, sinv c s -> exists s1, expire_penalties now s = Some s1 /\ sinv c s1 /\ kids s1 = kids s /\
  forall f, Permutation (by_addr (tab s1 f)) (filter (fun p => now <=? p_expiry p) (by_addr (tab s f))).
Proof.
  intros c s now I. destruct (I INET) as [I4 N4]. destruct (I INET6) as [I6 N6]. unfold expire_penalties. cbn [tab] in *.
  destruct (expire_spec INET now (t4 s) I4) as (T4 & E4 & J4 & P4). destruct (expire_spec INET6 now (t6 s) I6) as (T6 & E6 & J6 & P6). rewrite E4, E6. eexists. split; [reflexivity|].
  assert (L : forall g (l : list penalty), zlen (filter g l) <= zlen l). { intros g l. unfold zlen. clear. induction l as [|x l IH]; cbn [filter length]; [lia|]. destruct (g x); cbn [length]; lia. }
  split; [|split; [reflexivity|intros []; assumption]]. intros []; cbn [tab t4 t6 max_for].
  - split; [exact J4|]. rewrite (ti_n _ _ J4), (perm_zlen _ _ _ P4). rewrite (ti_n _ _ I4) in N4. cbn [max_for] in N4. pose proof (L (fun p => now <=? p_expiry p) (by_addr (t4 s))). lia.
  - split; [exact J6|]. rewrite (ti_n _ _ J6), (perm_zlen _ _ _ P6). rewrite (ti_n _ _ I6) in N6. cbn [max_for] in N6. pose proof (L (fun p => now <=? p_expiry p) (by_addr (t6 s))). lia.
Qed.

Definition upd (old new q : penalty) : penalty := if penalty_addr_cmp old q =? 0 then new else q.
Lemma upd_other : forall old new l, (forall q, In q l -> penalty_addr_cmp old q <> 0) -> map (upd old new) l = l.
Proof. intros old new l H. rewrite <- (map_id l) at 2. apply map_ext_in. intros q Hq. unfold upd. specialize (H q Hq). now replace (penalty_addr_cmp old q =? 0) with false by lia. Qed.
Lemma upd_sorted : forall old new l, p_addr new = p_addr old -> (forall q, In q l -> penalty_addr_cmp old q = 0 -> q = old) -> StronglySorted plt l -> StronglySorted plt (map (upd old new) l).
Proof.
  intros old new l E. induction l as [|x l IH]; intros H S; [constructor|]. apply StronglySorted_inv in S. destruct S as [S Sx]. cbn [map].
  assert (A : forall q, In q (x :: l) -> p_addr (upd old new q) = p_addr q). { intros q Hq. unfold upd. destruct (penalty_addr_cmp old q =? 0) eqn:C; [|reflexivity]. rewrite (H q Hq) by lia. exact E. }
  constructor; [apply IH; [intros q Hq; apply H; now right|exact S]|]. rewrite Forall_forall in *. intros y Hy. apply in_map_iff in Hy. destruct Hy as (q & <- & Hq). unfold plt in *. rewrite (A x (or_introl eq_refl)), (A q (or_intror Hq)). exact (Sx q Hq).
Qed.

Lemma table_new : forall c f T p, cfg_ok c -> tinv f T -> npen T <= max_for c f -> vld f p -> (forall q, In q (by_addr T) -> penalty_addr_cmp p q <> 0) ->
  exists as' es', rb_insert penalty_addr_cmp p (by_addr T) = (None, as') /\ rb_insert penalty_expiry_cmp p (by_expiry T) = (None, es') /\
    tinv f (mkT as' es' (npen T + 1)) /\ Permutation as' (p :: by_addr T).
Proof.
  intros c f T p Hc I Hn Vp N. destruct (rb_insert_spec penalty_addr_cmp plt (vld f) (p_lt f) (p_gt f) plt_trans (by_addr T) p (ti_v _ _ I) Vp (ti_a _ _ I)) as [(y & _ & Hy & Cy)|(as' & Ea & Pa & Sa & _)]; [exfalso; exact (N y Hy Cy)|].
  destruct (rb_insert_spec penalty_expiry_cmp elt (vld f) (e_lt f) (e_gt f) elt_trans (by_expiry T) p (vld_e _ _ I) Vp (ti_e _ _ I)) as [(y & _ & Hy & Cy)|(es' & Ee & Pe & Se & _)].
  - exfalso. apply (N y); [exact (Permutation_in _ (Permutation_sym (ti_p _ _ I)) Hy)|]. unfold penalty_expiry_cmp in Cy. destruct (negb _); [destruct (_ <? _); discriminate|exact Cy].
  - exists as', es'. split; [exact Ea|]. split; [exact Ee|]. split; [|exact Pa]. constructor; cbn [by_addr by_expiry npen].
    + apply (Permutation_Forall (Permutation_sym Pa)). constructor; [exact Vp|apply I].
    + exact Sa.
    + exact Se.
    + rewrite Pa, Pe. constructor. apply I.
    + rewrite (perm_zlen _ _ _ Pa), zlen_cons, (ti_n _ _ I). lia.
Qed.
Lemma table_old : forall f T old e act ty, tinv f T -> In old (by_addr T) ->
  let new := mkP (p_addr old) e act ty in
  exists es1 es2, rb_remove penalty_expiry_cmp old (by_expiry T) = Some es1 /\ rb_insert penalty_expiry_cmp new es1 = (None, es2) /\
    tinv f (mkT (map (upd old new) (by_addr T)) es2 (npen T)).
Proof.
  intros f T old e act ty I Ho new. assert (Vo : vld f old) by (pose proof (ti_v _ _ I) as Q; rewrite Forall_forall in Q; auto). assert (Vn : vld f new) by exact Vo.
  destruct (rb_remove_spec penalty_expiry_cmp elt (vld f) (e_lt f) (e_gt f) elt_trans (by_expiry T) old (vld_e _ _ I) (ti_e _ _ I)) as (es1 & Er & Pr & Sr & Vr); [exact (Permutation_in _ (ti_p _ _ I) Ho)|exact (e_refl f)|].
  assert (Pa : Permutation (by_addr T) (old :: es1)) by (rewrite (ti_p _ _ I); exact Pr).
  assert (Nd : NoDup (old :: es1)) by (apply (Permutation_NoDup Pa), sorted_nodup, I). apply NoDup_cons_iff in Nd. destruct Nd as [Nd _].
  assert (No : forall q, In q es1 -> penalty_addr_cmp old q <> 0).
  { intros q Hq C. apply Nd. assert (q = old) as <-; [|exact Hq]. symmetry. apply (unique f T); auto. apply (Permutation_in _ (Permutation_sym Pa)). now right. }
  destruct (rb_insert_spec penalty_expiry_cmp elt (vld f) (e_lt f) (e_gt f) elt_trans es1 new Vr Vn Sr) as [(y & _ & Hy & Cy)|(es2 & Ee & Pe & Se & _)].
  - exfalso. apply (No y Hy). unfold penalty_expiry_cmp in Cy. destruct (negb _); [destruct (_ <? _); discriminate|exact Cy].
  - exists es1, es2. split; [exact Er|]. split; [exact Ee|]. constructor; cbn [by_addr by_expiry npen].
    + apply Forall_map. apply Forall_forall. intros q Hq. unfold upd. destruct (_ =? 0); [exact Vn|]. pose proof (ti_v _ _ I) as Q. rewrite Forall_forall in Q. auto.
    + apply upd_sorted; [reflexivity| |apply I]. intros q Hq C. symmetry. now apply (unique f T).
    + exact Se.
    + rewrite Pe. rewrite (Permutation_map (upd old new) Pa). cbn [map]. rewrite (upd_other old new es1 No). unfold upd. rewrite (p_refl f old Vo). reflexivity.
    + unfold zlen. rewrite map_length. exact (ti_n _ _ I).
Qed.

Section Env.
Variable ntop : xaddr -> option (list Z).
Variable pton : list Z -> option xaddr.
Lemma exempt_eq : forall c a, is_exempt ntop pton c a = exempt ntop pton c a.
Proof. intros. unfold is_exempt, exempt. destruct (c_exempt c), (ntop a); reflexivity. Qed.
Lemma secs_eq : forall c ty, 1 <= ty <= 5 -> penalty_secs c ty = Some (charge c ty).
Proof.
  intros c ty H. unfold penalty_secs, charge. assert (ty = 1 \/ ty = 2 \/ ty = 3 \/ ty = 4 \/ ty = 5) as [-> |[-> |[-> |[-> | ->]]]] by lia; reflexivity.
Qed.
Definition counts (c : config) (a : xaddr) (ty : Z) : bool := c_enabled c && negb (exempt ntop pton c a) && negb (ty =? 0).

Definition pen_new (c : config) (m : xaddr) (ty now : Z) : penalty := mkP m (now + charge c ty) (charge c ty >? c_min c) ty.
Definition pen_more (c : config) (old : penalty) (ty now : Z) : penalty :=
  let e := Z.min (p_expiry old + charge c ty) (now + c_max c) in mkP (p_addr old) e (p_active old || (e - now >? c_min c)) ty.
Lemma penalise_spec : forall c s a ty now, cfg_ok c -> sinv c s -> wf a -> 0 <= ty <= 5 ->
  exists s', srclimit_penalise ntop pton c s a ty now = Some s' /\ sinv c s' /\ kids s' = kids s /\
  (counts c a ty = false /\ s' = s \/
   counts c a ty = true /\ exists s1 m, expire_penalties now s = Some s1 /\ srclimit_mask_addr a (bits_for c (x_af a)) = Some m /\
     (forall g, g <> x_af a -> Permutation (by_addr (tab s' g)) (by_addr (tab s1 g))) /\
     let f := x_af a in let T := tab s1 f in let T' := tab s' f in
     (s' = s1 /\ over_for c f = DENY_ALL /\ npen T = max_for c f \/
      (forall q, In q (by_addr T) -> addr_cmp m (p_addr q) <> 0) /\
        (npen T + 1 <= max_for c f /\ Permutation (by_addr T') (pen_new c m ty now :: by_addr T) \/
         over_for c f <> DENY_ALL /\ npen T = max_for c f /\ exists v, Permutation (pen_new c m ty now :: by_addr T) (v :: by_addr T') /\ forall q, In q (by_addr T') -> p_expiry v <= p_expiry q) \/
      exists old, In old (by_addr T) /\ addr_cmp m (p_addr old) = 0 /\ by_addr T' = map (upd old (pen_more c old ty now)) (by_addr T))).
Proof.
  intros c s a ty now Hc Is Wa Ht. unfold srclimit_penalise, counts. rewrite exempt_eq. unfold NONE. destruct (c_enabled c); cbn [negb andb]; [|exists s; auto 10]. destruct (exempt ntop pton c a); cbn [negb andb]; [exists s; auto 10|].
  destruct (ty =? 0) eqn:E0; cbn [negb andb]; [exists s; auto 10|].  rewrite secs_eq by lia. destruct (mask_spec c a Hc Wa) as (m & Em & Wm & Fm & _). rewrite Em.
  destruct (expire_all c s now Is) as (s1 & Ee & I1 & K1 & _). rewrite Ee. set (f := x_af a) in *. destruct (I1 f) as [If Nf]. set (T := tab s1 f) in *.
  destruct ((npen T >=? max_for c f) && (over_for c f =? DENY_ALL)) eqn:Ed.
  { exists s1. split; [reflexivity|]. split; [exact I1|]. split; [exact K1|]. right. split; [reflexivity|]. exists s1, m. split; [reflexivity|]. split; [reflexivity|]. split; [reflexivity|]. left. apply andb_prop in Ed. destruct Ed as [Ed1 Ed2]. split; [reflexivity|]. change (tab s1 (x_af a)) with T. change (x_af a) with f. split; [now apply Z.eqb_eq|]. apply Z.geb_le in Ed1. change (npen T = max_for c f). lia. }
  fold (pen_new c m ty now). set (p := pen_new c m ty now). assert (Vp : vld f p) by (split; [exact Wm|exact Fm]).
  destruct (rb_insert_spec penalty_addr_cmp plt (vld f) (p_lt f) (p_gt f) plt_trans (by_addr T) p (ti_v _ _ If) Vp (ti_a _ _ If)) as [(old & Eo & Ho & Co)|(as0 & _ & _ & _ & No)].
  - rewrite Eo. set (e1 := p_expiry old + charge c ty). set (e2 := if e1 - now >? c_max c then now + c_max c else e1).
    set (act := if (e2 - now >? c_min c) && negb (p_active old) then true else p_active old). destruct (table_old f T old e2 act ty If Ho) as (es1 & es2 & E1 & E2 & I2). cbv zeta in E2, I2. rewrite E1, E2.
    eexists. split; [reflexivity|]. fold (upd old (mkP (p_addr old) e2 act ty)). change (fun q : penalty => if penalty_addr_cmp old q =? 0 then mkP (p_addr old) e2 act ty else q) with (upd old (mkP (p_addr old) e2 act ty)).
    split. { intros g. rewrite tab_with. destruct (fam_eqb f g) eqn:Ef; [|exact (I1 g)]. apply fam_eqb_eq in Ef. subst g. split; [exact I2|exact Nf]. }
    split; [destruct f; exact K1|]. right. split; [reflexivity|]. exists s1, m. split; [reflexivity|]. split; [reflexivity|].
    split. { intros g Hg. rewrite tab_with. destruct (fam_eqb f g) eqn:Ef; [apply fam_eqb_eq in Ef; congruence|reflexivity]. }
    right. right. exists old. split; [exact Ho|]. split; [exact Co|]. rewrite tab_with, fam_eqb_refl. cbn [by_addr]. f_equal. f_equal. unfold pen_more. fold e1.
    assert (e2 = Z.min e1 (now + c_max c)) as <- by (unfold e2; destruct (_ >? _) eqn:Q; lia). f_equal. unfold act. destruct (p_active old), (e2 - now >? c_min c); reflexivity.
  - destruct (table_new c f T p Hc If Nf Vp No) as (as' & es' & Ea & Es & I2 & Pa). rewrite Ea, Es. set (T2 := mkT as' es' (npen T + 1)) in *.
    assert (Tab : forall g, tinv g (tab (with_tab s1 f T2) g)). { intros g. rewrite tab_with. destruct (fam_eqb f g) eqn:Ef; [apply fam_eqb_eq in Ef; subst g; exact I2|apply I1]. }
    destruct (npen T + 1 >? max_for c f) eqn:Eo.
    + (* one too many *)
      unfold srclimit_early_expire_penalties. destruct Hc as (Hc1 & Hc2 & Hc3 & Hc4 & Hc5).
      destruct (early_spec INET (c_max4 c) (t4 (with_tab s1 f T2)) (Tab INET) Hc3) as (Ta & Xa & Ya & Za). destruct (early_spec INET6 (c_max6 c) (t6 (with_tab s1 f T2)) (Tab INET6) Hc4) as (Tb & Xb & Yb & Zb). rewrite Xa, Xb. clear Xa Xb.
      set (s2 := with_tab s1 f T2) in *. set (s' := mkS Ta Tb (kids s2)).
      assert (Z' : forall g, tinv g (tab s' g) /\ by_expiry (tab s' g) = skipn (Z.to_nat (npen (tab s2 g) - max_for c g)) (by_expiry (tab s2 g))) by (intros []; auto).
      assert (Same : forall g, g <> f -> Permutation (by_addr (tab s' g)) (by_addr (tab s1 g))).
      { intros g Hg. destruct (Z' g) as [Ig Eg]. destruct (I1 g) as [Jg Ng]. unfold s2 in Eg. rewrite tab_with in Eg. destruct (fam_eqb f g) eqn:Ef; [apply fam_eqb_eq in Ef; congruence|]. replace (Z.to_nat (npen (tab s1 g) - max_for c g)) with O in Eg by lia.
        rewrite (ti_p _ _ Ig), Eg. cbn [skipn]. symmetry. apply Jg. }
      assert (Ev : exists v r, by_expiry T2 = v :: r /\ by_expiry (tab s' f) = r).
      { destruct (Z' f) as [_ Eg]. unfold s2 in Eg. rewrite tab_with, fam_eqb_refl in Eg. change (npen T2) with (npen T + 1) in Eg. replace (Z.to_nat (npen T + 1 - max_for c f)) with 1%nat in Eg by lia. destruct (by_expiry T2) as [|v r] eqn:Eb; [|exists v, r; split; [reflexivity|exact Eg]].
        exfalso. pose proof (ti_p _ _ I2) as Q. rewrite Eb in Q. apply Permutation_sym, Permutation_nil in Q. pose proof (ti_n _ _ I2) as Qn. rewrite Q in Qn. cbn [npen T2] in Qn. rewrite zlen_nil in Qn. pose proof (ti_n _ _ If). pose proof (zlen_nonneg _ (by_addr T)). lia. }
      destruct Ev as (v & r & Ev & Er).
      assert (Pv : Permutation (p :: by_addr T) (v :: by_addr (tab s' f))). { rewrite (ti_p _ _ (proj1 (Z' f))), Er, <- Ev, <- (ti_p _ _ I2). symmetry. exact Pa. }
      exists s'. split; [reflexivity|]. split.
      { intros g. destruct (Z' g) as [Ig Eg]. split; [exact Ig|]. rewrite (ti_n _ _ Ig). destruct (fam_eqb f g) eqn:Ef.
        - apply fam_eqb_eq in Ef. subst g. pose proof (perm_zlen _ _ _ Pv) as L. rewrite !zlen_cons in L. pose proof (ti_n _ _ If). lia.
        - assert (g <> f) by (intros ->; now rewrite fam_eqb_refl in Ef). rewrite (perm_zlen _ _ _ (Same g H)). destruct (I1 g) as [Jg Ng]. now rewrite (ti_n _ _ Jg) in Ng. }
      split; [destruct f; exact K1|]. right. split; [reflexivity|]. exists s1, m. split; [reflexivity|]. split; [reflexivity|]. split; [exact Same|]. right. left. split; [intros q Hq; exact (No q Hq)|]. right. assert (Hov : over_for c f <> DENY_ALL) by (intros Q; rewrite Q, Z.eqb_refl, andb_true_r in Ed; lia). assert (Hn : npen T = max_for c f) by lia. split; [exact Hov|]. split; [exact Hn|]. exists v. split; [exact Pv|].
      intros q Hq. pose proof (ti_e _ _ I2) as Se. rewrite Ev in Se. apply StronglySorted_inv in Se. destruct Se as [_ Se]. rewrite Forall_forall in Se. assert (Hr : In q r) by (rewrite <- Er; exact (Permutation_in _ (ti_p _ _ (proj1 (Z' f))) Hq)). specialize (Se q Hr). unfold elt in Se. lia.
    + exists (with_tab s1 f T2). split; [reflexivity|]. split. { intros g. split; [apply Tab|]. rewrite tab_with. destruct (fam_eqb f g) eqn:Ef; [apply fam_eqb_eq in Ef; subst g; cbn [npen T2]; lia|apply I1]. }
      split; [destruct f; exact K1|]. right. split; [reflexivity|]. exists s1, m. split; [reflexivity|]. split; [reflexivity|].
      split. { intros g Hg. rewrite tab_with. destruct (fam_eqb f g) eqn:Ef; [apply fam_eqb_eq in Ef; congruence|reflexivity]. }
      right. left. split; [intros q Hq; exact (No q Hq)|]. left. assert (Hn : npen T + 1 <= max_for c f) by lia. split; [exact Hn|]. rewrite tab_with, fam_eqb_refl. exact Pa.
Qed.

(** The state-level meaning of the check. *)
Lemma check_spec : forall c s a now, cfg_ok c -> sinv c s -> wf a ->
  exists m ans s', srclimit_mask_addr a (bits_for c (x_af a)) = Some m /\ srclimit_penalty_check_allow ntop pton c s (Some a) now = Some (ans, s') /\ sinv c s' /\ kids s' = kids s /\
  (c_enabled c && negb (exempt ntop pton c a) = false /\ ans = true /\ s' = s \/
   c_enabled c && negb (exempt ntop pton c a) = true /\ expire_penalties now s = Some s' /\
   (ans = false <-> (over_for c (x_af a) = DENY_ALL /\ max_for c (x_af a) <= npen (tab s' (x_af a))) \/ exists p, In p (by_addr (tab s' (x_af a))) /\ addr_cmp m (p_addr p) = 0 /\ p_active p = true)).
Proof.
  intros c s a now Hc Is Wa. destruct (mask_spec c a Hc Wa) as (m & Em & Wm & Fm & _). exists m. unfold srclimit_penalty_check_allow. rewrite exempt_eq.
  destruct (c_enabled c); cbn [negb andb]; [|exists true, s; auto 10]. destruct (exempt ntop pton c a); cbn [negb andb]; [exists true, s; auto 10|].
  destruct (expire_all c s now Is) as (s1 & Ee & I1 & K1 & P1). rewrite Ee. destruct (I1 (x_af a)) as [If Nf]. set (T := tab s1 (x_af a)) in *.
  destruct ((npen T >=? max_for c (x_af a)) && (over_for c (x_af a) =? DENY_ALL)) eqn:Ed.
  { exists false, s1. split; [exact Em|]. split; [reflexivity|]. split; [exact I1|]. split; [exact K1|]. right. split; [reflexivity|]. split; [reflexivity|]. split; [intros _; left; apply andb_prop in Ed; destruct Ed as [Ed1 Ed2]; split; [now apply Z.eqb_eq|]; change (max_for c (x_af a) <= npen T); lia|reflexivity]. }
  rewrite Em. pose proof (rb_find_spec penalty_addr_cmp (by_addr T) (mkP m 0 false 0)) as F. destruct (rb_find _ _ _) as [p|].
  - destruct F as [Hp Cp]. assert (L : now <= p_expiry p). { apply (Permutation_in _ (P1 (x_af a))) in Hp. apply filter_In in Hp. lia. } replace (p_expiry p <? now) with false by lia.
    assert (U : forall q, In q (by_addr T) -> addr_cmp m (p_addr q) = 0 -> q = p).
    { intros q Hq Cq. apply (unique (x_af a) T); auto. pose proof (ti_v _ _ If) as V. rewrite Forall_forall in V. apply (p_trans (x_af a) q (mkP m 0 false 0) p); auto; [split; assumption|]. apply (p_sym (x_af a)); auto. split; assumption. }
    destruct (p_active p) eqn:Ea; cbn [negb].
    + exists false, s1. split; [reflexivity|]. split; [reflexivity|]. split; [exact I1|]. split; [exact K1|]. right. split; [reflexivity|]. split; [reflexivity|]. split; [intros _; right; exists p; auto|reflexivity].
    + exists true, s1. split; [reflexivity|]. split; [reflexivity|]. split; [exact I1|]. split; [exact K1|]. right. split; [reflexivity|]. split; [reflexivity|]. split; [discriminate|]. intros [[H1 H2]|(q & Hq & Cq & Aq)]; [rewrite H1, Z.eqb_refl, andb_true_r in Ed; change (max_for c (x_af a) <= npen T) in H2; lia|]. rewrite (U q Hq Cq) in Aq. congruence.
  - exists true, s1. split; [reflexivity|]. split; [reflexivity|]. split; [exact I1|]. split; [exact K1|]. right. split; [reflexivity|]. split; [reflexivity|]. split; [discriminate|]. intros [[H1 H2]|(q & Hq & Cq & Aq)]; [rewrite H1, Z.eqb_refl, andb_true_r in Ed; change (max_for c (x_af a) <= npen T) in H2; lia|]. exfalso. exact (F q Hq Cq).
Qed.
End Env.
