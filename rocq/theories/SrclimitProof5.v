From Coq Require Import String Permutation Sorting.Sorted.
From Verif Require Import Base Bits AddrModel AddrSpec AddrProof SrclimitModel SrclimitSpec SrclimitProof SrclimitProof2 SrclimitProof3 SrclimitProof4.
Local Open Scope Z_scope.

Definition usedk (k : Z * xaddr) : bool := negb (fst k =? -1).
Section Env.
Variable ntop : xaddr -> option (list Z).
Variable pton : list Z -> option xaddr.
Variable c : config.
Hypothesis Hc : cfg_ok c.

(** The children array against the list of counted connections. *)
Definition pairs_up (k : Z * xaddr) (x : Z * xaddr) : Prop := fst k = fst x /\ wf (snd x) /\ srclimit_mask_addr (snd x) (bits_for c (x_af (snd x))) = Some (snd k).
Definition krel (ks l : list (Z * xaddr)) : Prop :=
  (exists l', Permutation l l' /\ Forall2 pairs_up (filter usedk ks) l') /\ NoDup (map fst l) /\ (forall x, In x l -> 0 <= fst x).
Lemma cmp_same : forall a b ma mb, wf a -> wf b -> srclimit_mask_addr a (bits_for c (x_af a)) = Some ma -> srclimit_mask_addr b (bits_for c (x_af b)) = Some mb -> (addr_cmp mb ma =? 0) = same_sourceb c a b.
Proof.
  intros a b ma mb Wa Wb Ea Eb. destruct (mask_spec c a Hc Wa) as (m1 & E1 & _ & F1 & _). destruct (mask_spec c b Hc Wb) as (m2 & E2 & _ & F2 & _). assert (m1 = ma) as -> by congruence. assert (m2 = mb) as -> by congruence.
  destruct (fam_eqb (x_af a) (x_af b)) eqn:Ef.
  - apply fam_eqb_eq in Ef. pose proof (mask_same c b a mb ma Hc Wb Wa (eq_sym Ef) Eb Ea) as I. assert (S : same_source c a b <-> same_source c b a) by (split; apply same_sym; auto). rewrite <- S, <- same_sourceb_iff in I.
    destruct (same_sourceb c a b); [apply Z.eqb_eq; now apply I|]. apply Z.eqb_neq. intros Q. apply I in Q. discriminate.
  - unfold same_sourceb. rewrite Ef. cbn [andb]. unfold addr_cmp. rewrite F1, F2. destruct (x_af a), (x_af b); cbn in *; try discriminate; reflexivity.
Qed.
Lemma count_eq : forall ks l a xb, Forall2 pairs_up (filter usedk ks) l -> wf a -> srclimit_mask_addr a (bits_for c (x_af a)) = Some xb ->
  zlen (filter (fun k => negb (fst k =? -1) && (addr_cmp (snd k) xb =? 0)) ks) = zlen (filter (fun x => same_sourceb c a (snd x)) l).
Proof.
  induction ks as [|[id ad] ks IH]; intros l a xb F Wa Ea; cbn [filter usedk fst snd] in *; [inversion F; subst; reflexivity|]. unfold usedk in F at 1. cbn [fst] in F. destruct (id =? -1); cbn [negb andb] in *; [now apply IH|].
  destruct l as [|x l]; [exfalso; inversion F|]. assert (F1 : pairs_up (id, ad) x /\ Forall2 pairs_up (filter usedk ks) l) by (inversion F; auto). destruct F1 as [(F1 & Wx & Ex) F2]. cbn [fst snd] in *. cbn [filter]. rewrite (cmp_same a (snd x) xb ad Wa Wx Ea Ex). destruct (same_sourceb c a (snd x)); [rewrite !zlen_cons; f_equal|]; now apply IH.
Qed.
Lemma used_full : forall ks, Forall (fun k => fst k <> -1) ks -> filter usedk ks = ks.
Proof. induction 1 as [|[id a] ks H _ IH]; cbn [filter]; [reflexivity|]. unfold usedk at 1. cbn [fst] in *. replace (id =? -1) with false by lia. cbn [negb]. now rewrite IH. Qed.
Lemma used_le : forall ks, zlen (filter usedk ks) <= zlen ks.
Proof. induction ks as [|k ks IH]; cbn [filter]; [lia|]. destruct (usedk k); rewrite !zlen_cons; lia. Qed.
Lemma perm_filt : forall (A : Type) (g : A -> bool) l l', Permutation l l' -> Permutation (filter g l) (filter g l').
Proof. intros. now apply perm_filter. Qed.
Lemma F2_len : forall ks l, Forall2 pairs_up ks l -> zlen ks = zlen l.
Proof. induction 1; rewrite ?zlen_cons; congruence. Qed.

Lemma allow_rel : forall s l peer id, kinv c s -> c_max_persource c <> INT_MAX -> krel (kids s) l -> match peer with Some a => wf a | None => True end -> 0 <= id -> ~ In id (map fst l) ->
  exists s', srclimit_check_allow ntop c s peer id = Some (match snd (conns_step ntop c l (CheckAllow peer id)) with Some b => b | None => false end, s') /\ krel (kids s') (fst (conns_step ntop c l (CheckAllow peer id))).
Proof.
  intros s l peer id K Np R Wp Hid Hnew. destruct K as [K|K]; [contradiction|]. unfold srclimit_check_allow, conns_step. replace (c_max_persource c =? INT_MAX) with false by lia. cbn [orb].
  destruct peer as [a|]; [|exists s; auto]. destruct (mask_spec c a Hc Wp) as (xb & Em & _). rewrite Em. destruct R as ((l' & Pl & F2) & Nd & Pos).
  pose proof (scan_count (kids s) 0 xb (c_max_children c) 0) as Sc. rewrite (count_eq (kids s) l' a xb F2 Wp Em) in Sc. pose proof (perm_filt _ (fun x => same_sourceb c a (snd x)) l l' Pl) as Pf. rewrite <- (perm_zlen _ _ _ Pf) in Sc. pose proof (F2_len _ _ F2) as Lu. rewrite <- (perm_zlen _ _ _ Pl) in Lu.
  destruct (scan_first (kids s) 0 xb (c_max_children c) 0) as [[Fa S]|(l1 & a0 & l2 & El & Fa & S)]; [lia| |]; destruct (scan _ _ _ _ _) as [first count]; cbn [fst snd] in *; (destruct (ntop a); [|exists s; split; [reflexivity|]; split; [exists l'; auto|auto]]).
  - rewrite (used_full _ Fa) in Lu. replace (first =? c_max_children c) with true by lia. replace (zlen l <? c_max_children c) with false by lia. rewrite andb_false_r. exists s. split; [reflexivity|]. split; [exists l'; auto|auto].
  - pose proof (zlen_nonneg _ l1). pose proof (zlen_nonneg _ l2). assert (Hf : first < c_max_children c) by (rewrite <- K, El, zlen_app, zlen_cons; lia). replace (first =? c_max_children c) with false by lia. replace (first <? 0) with false by lia. replace (first >=? c_max_children c) with false by lia. cbn [orb].
    assert (Hl : zlen l < c_max_children c). { rewrite <- Lu, <- K, El, filter_app, !zlen_app, zlen_cons. cbn [filter usedk fst]. pose proof (used_le l1). pose proof (used_le l2). unfold usedk at 2. cbn [fst]. replace (-1 =? -1) with true by reflexivity. cbn [negb]. lia. }
    replace (zlen l <? c_max_children c) with true by lia. rewrite andb_true_r. replace (count >=? c_max_persource c) with (negb (zlen (filter (fun x => same_sourceb c a (snd x)) l) <? c_max_persource c)) by (rewrite Sc; rewrite Z.geb_leb; destruct (_ <? _) eqn:Q; cbn [negb]; symmetry; [apply Z.leb_gt|apply Z.leb_le]; lia).
    destruct (zlen _ <? c_max_persource c); cbn [negb snd fst]; [|exists s; split; [reflexivity|]; split; [exists l'; auto|auto]]. eexists. split; [reflexivity|]. cbn [kids]. replace (Z.to_nat first) with (length l1) by (unfold zlen in S; lia). rewrite El, set_at_mid.
    split; [|split; [constructor; assumption|intros x [<-|Hx]; [exact Hid|now apply Pos]]].
    rewrite El, filter_app in F2. cbn [filter] in F2. unfold usedk at 2 in F2. cbn [fst negb] in F2. replace (-1 =? -1) with true in F2 by reflexivity. cbn [negb] in F2. apply Forall2_app_inv_l in F2. destruct F2 as (m1 & m2 & F1 & F2 & ->).
    exists (m1 ++ (id, a) :: m2). split; [apply Permutation_cons_app; exact Pl|]. rewrite filter_app. cbn [filter]. unfold usedk at 2. cbn [fst]. replace (id =? -1) with false by lia. cbn [negb]. apply Forall2_app; [exact F1|]. constructor; [|exact F2]. repeat split; cbn [fst snd]; auto; apply Wp.
Qed.
Lemma clear_none : forall id ks, ~ In id (map fst ks) -> clear_id id ks = ks.
Proof. induction ks as [|[i a] ks IH]; intros H; cbn [clear_id map fst] in *; [reflexivity|]. destruct (i =? id) eqn:E; [exfalso; apply H; left; lia|]. rewrite IH; [reflexivity|]. intros Q. apply H. now right. Qed.
Lemma clear_rel : forall id ks l, 0 <= id -> NoDup (map fst l) -> Forall2 pairs_up (filter usedk ks) l -> Forall2 pairs_up (filter usedk (clear_id id ks)) (filter (fun x => negb (fst x =? id)) l).
Proof.
  intros id. induction ks as [|[i a] ks IH]; intros l Hid N F; cbn [clear_id filter] in *; [inversion F; subst; constructor|]. unfold usedk in F at 1. cbn [fst] in F.
  assert (Same : forall l0, ~ In id (map fst l0) -> filter (fun x : Z * xaddr => negb (fst x =? id)) l0 = l0). { induction l0 as [|[j b] l0 IH0]; intros H; cbn [filter fst map] in *; [reflexivity|]. replace (j =? id) with false by (symmetry; apply Z.eqb_neq; intros ->; apply H; now left). cbn [negb]. rewrite IH0; [reflexivity|]. intros Q. apply H. now right. }
  destruct (i =? -1) eqn:E1; cbn [negb] in F.
  - replace (i =? id) with false by lia. cbn [filter]. unfold usedk at 1. cbn [fst]. rewrite E1. cbn [negb]. now apply IH.
  - destruct l as [|x l]; [exfalso; inversion F|]. assert (F1 : pairs_up (i, a) x /\ Forall2 pairs_up (filter usedk ks) l) by (inversion F; auto). clear F. destruct F1 as [Hp F]. pose proof Hp as (Hp1 & _). cbn [fst map] in *. apply NoDup_cons_iff in N. destruct N as [N1 N2]. cbn [filter]. rewrite <- Hp1. destruct (i =? id) eqn:E2; cbn [negb filter].
    + unfold usedk at 1. cbn [fst]. replace (-1 =? -1) with true by reflexivity. cbn [negb]. rewrite Same; [exact F|]. apply Z.eqb_eq in E2. rewrite <- E2, Hp1. exact N1.
    + unfold usedk at 1. cbn [fst]. rewrite E1. cbn [negb]. constructor; [exact Hp|]. now apply IH.
Qed.
Lemma done_rel : forall s l id, c_max_persource c <> INT_MAX -> 0 <= id -> krel (kids s) l -> krel (kids (srclimit_done c s id)) (filter (fun x => negb (fst x =? id)) l).
Proof.
  intros s l id Np Hid ((l' & P & F) & N & Pos). unfold srclimit_done. replace (_ =? INT_MAX) with false by lia. cbn [kids]. split; [|split].
  - exists (filter (fun x => negb (fst x =? id)) l'). split; [now apply perm_filt|]. apply clear_rel; auto. apply (Permutation_NoDup (l := map fst l)); [now apply Permutation_map|exact N].
  - clear - N. induction l as [|x l IH]; cbn [filter map] in *; [constructor|]. apply NoDup_cons_iff in N. destruct N as [N1 N2]. destruct (negb _); cbn [map]; [|now apply IH]. constructor; [|now apply IH]. intros H. apply N1. apply in_map_iff in H. destruct H as (y & E & Hy). apply filter_In in Hy. rewrite <- E. apply in_map, Hy.
  - intros x Hx. apply filter_In in Hx. now apply Pos.
Qed.
Lemma conns_rel : forall h s l, good c s -> c_max_persource c <> INT_MAX -> krel (kids s) l -> Forall call_ok h -> fresh_ids ntop c l h ->
  exists os s', play ntop pton c s h = Some (os, s') /\ allow_answers h os = snd (conns ntop c l h) /\ krel (kids s') (fst (conns ntop c l h)).
Proof.
  induction h as [|k h IH]; intros s l G Np R F Fr; cbn [play conns]; [exists [], s; auto|]. apply Forall_cons_iff in F. destruct F as [Fk F]. cbn [fresh_ids] in Fr. destruct Fr as [Fi Fr]. destruct (step_good ntop pton c Hc s k G Fk) as (o & s1 & Es & G1). rewrite Es.
  assert (S : krel (kids s1) (fst (conns_step ntop c l k)) /\ (if chk k then o else None) = snd (conns_step ntop c l k)).
  { destruct k as [a ty now|peer now|peer id|id]; cbn [step chk call_ok] in *.
    - cbn [conns_step fst snd]. split; [|reflexivity]. destruct Fk as [Wa Ht]. destruct (penalise_spec ntop pton c s a ty now Hc (proj1 G) Wa Ht) as (s2 & E2 & _ & Kk & _). rewrite E2 in Es. injection Es as _ <-. now rewrite Kk.
    - cbn [conns_step fst snd]. split; [|reflexivity]. destruct peer as [a|]; [|unfold srclimit_penalty_check_allow in Es; destruct (negb _); injection Es as _ <-; exact R]. destruct (check_spec ntop pton c s a now Hc (proj1 G) Fk) as (m & ans & s2 & _ & E2 & _ & Kk & _). rewrite E2 in Es. injection Es as _ <-. now rewrite Kk.
    - destruct (allow_rel s l peer id (proj2 (proj2 G)) Np R) as (s2 & E2 & R2); [destruct peer; exact Fk|apply Fi|apply Fi|]. rewrite E2 in Es. injection Es as <- <-. split; [exact R2|]. destruct (conns_step ntop c l (CheckAllow peer id)) as [l2 o2] eqn:Ec. cbn [fst snd]. unfold conns_step in Ec. destruct peer as [a|]; [|injection Ec as _ <-; reflexivity]. destruct (_ || _); [injection Ec as _ <-; reflexivity|]. destruct (_ && _); injection Ec as _ <-; reflexivity.
    - injection Es as <- <-. cbn [conns_step fst snd]. split; [|reflexivity]. now apply done_rel. }
  destruct S as [R1 Eo]. destruct (conns_step ntop c l k) as [l1 o1] eqn:Ec. cbn [fst snd] in *. destruct (IH s1 l1 G1 Np R1 F Fr) as (os & s2 & Ep & Ea & R2). rewrite Ep. destruct (conns ntop c l1 h) as [l2 os2] eqn:Ecs. cbn [fst snd] in *. exists (o :: os), s2. split; [reflexivity|]. split; [cbn [allow_answers]; now rewrite Ea, Eo|exact R2].
Qed.
Lemma empty_krel : forall s, srclimit_init c = Some s -> c_max_persource c <> INT_MAX -> krel (kids s) [].
Proof.
  intros s E Np. unfold srclimit_init in E. destruct (_ || _); [discriminate|]. replace (_ =? INT_MAX) with false in E by lia. destruct (_ <=? 0); [discriminate|]. injection E as <-. cbn [kids]. split; [|split; [constructor|intros x []]]. exists []. split; [constructor|].
  induction (Z.to_nat (c_max_children c)) as [|n IH]; cbn [repeat filter]; [constructor|]. exact IH.
Qed.
(** The counted connections themselves stay within both limits. *)
Lemma conns_bound : forall h l, c_max_persource c <> INT_MAX -> 0 <= c_max_persource c -> 0 <= c_max_children c -> zlen l <= c_max_children c -> (forall a, zlen (filter (fun x => same_sourceb c a (snd x)) l) <= c_max_persource c) ->
  zlen (fst (conns ntop c l h)) <= c_max_children c /\ forall a, zlen (filter (fun x => same_sourceb c a (snd x)) (fst (conns ntop c l h))) <= c_max_persource c.
Proof.
  induction h as [|k h IH]; intros l Np P0 M0 Hl Hs; cbn [conns]; [cbn [fst]; auto|]. destruct (conns_step ntop c l k) as [l1 o] eqn:E. destruct (conns ntop c l1 h) as [l2 os] eqn:E2. cbn [fst]. replace l2 with (fst (conns ntop c l1 h)) by (rewrite E2; reflexivity).
  assert (S : zlen l1 <= c_max_children c /\ forall a, zlen (filter (fun x => same_sourceb c a (snd x)) l1) <= c_max_persource c); [|destruct S; now apply IH].
  unfold conns_step in E. destruct k as [a ty now|peer now|peer id|id]; try (injection E as <- <-; auto; fail).
  - destruct peer as [b|]; [|injection E as <- <-; auto]. destruct (_ || _); [injection E as <- <-; auto|]. destruct (_ && _) eqn:C; [|injection E as <- <-; auto]. injection E as <- <-. apply andb_prop in C. destruct C as [C1 C2]. split; [rewrite zlen_cons; lia|]. intros a. cbn [filter snd]. destruct (same_sourceb c a b) eqn:S; [|apply Hs]. rewrite zlen_cons.
    replace (filter (fun x => same_sourceb c a (snd x)) l) with (filter (fun x => same_sourceb c b (snd x)) l); [lia|]. apply same_sourceb_iff in S. apply filter_ext. intros x. apply eq_true_iff_eq. rewrite !same_sourceb_iff. split; intros Q; [apply (same_trans c a b)|apply (same_trans c b a)]; auto; now apply same_sym.
  - injection E as <- <-. split.
    + assert (zlen (filter (fun x => negb (fst x =? id)) l) <= zlen l); [|lia]. clear. induction l as [|x l IH]; cbn [filter]; [lia|]. destruct (negb _); rewrite !zlen_cons; lia.
    + intros a. eapply Z.le_trans; [|apply (Hs a)]. clear. induction l as [|x l IH]; cbn [filter]; [lia|]. destruct (negb _); cbn [filter]; destruct (same_sourceb c a (snd x)); rewrite ?zlen_cons; lia.
Qed.
End Env.
