From Coq Require Import String Permutation Sorting.Sorted.
From Verif Require Import Base Bits AddrModel AddrSpec AddrProof SrclimitModel SrclimitSpec.
Local Open Scope Z_scope.

(** * Order of addresses *)
Definition alt (a b : xaddr) : Prop := value a < value b \/ (value a = value b /\ cmp_scope a < cmp_scope b).
Lemma cmp_lt : forall a b, wf a -> wf b -> x_af a = x_af b -> (addr_cmp a b < 0 <-> alt a b).
Proof.
  intros a b Ha Hb E. pose proof (cmp_sign a b Ha Hb E) as S. rewrite <- Z.sgn_neg_iff, S. unfold alt. destruct (value a =? value b) eqn:V; rewrite Z.sgn_neg_iff; lia.
Qed.
Lemma cmp_gt : forall a b, wf a -> wf b -> x_af a = x_af b -> (addr_cmp a b > 0 <-> alt b a).
Proof.
  intros a b Ha Hb E. pose proof (cmp_sign a b Ha Hb E) as S. rewrite Z.gt_lt_iff, <- Z.sgn_pos_iff, S. unfold alt. destruct (value a =? value b) eqn:V; rewrite Z.sgn_pos_iff; lia.
Qed.
Lemma cmp_eq : forall a b, wf a -> wf b -> x_af a = x_af b -> (addr_cmp a b = 0 <-> value a = value b /\ cmp_scope a = cmp_scope b).
Proof.
  intros a b Ha Hb E. pose proof (cmp_sign a b Ha Hb E) as S. rewrite <- Z.sgn_null_iff, S. destruct (value a =? value b) eqn:V; rewrite Z.sgn_null_iff; lia.
Qed.

(** * Trees *)
Section Rb.
Variable cmp : penalty -> penalty -> Z.
Variable lt : penalty -> penalty -> Prop.
Variable V : penalty -> Prop.
Hypothesis Hlt : forall x y, V x -> V y -> (cmp x y < 0 <-> lt x y).
Hypothesis Hgt : forall x y, V x -> V y -> (cmp x y > 0 <-> lt y x).
Hypothesis Htr : forall x y z, lt x y -> lt y z -> lt x z.
Lemma rb_insert_spec : forall t x, Forall V t -> V x -> StronglySorted lt t ->
  (exists y, rb_insert cmp x t = (Some y, t) /\ In y t /\ cmp x y = 0) \/
  (exists t', rb_insert cmp x t = (None, t') /\ Permutation t' (x :: t) /\ StronglySorted lt t' /\ forall y, In y t -> cmp x y <> 0).
Proof.
  induction t as [|y t IH]; intros x Ft Vx S; cbn [rb_insert].
  - right. exists [x]. split; [reflexivity|]. split; [reflexivity|]. split; [repeat constructor|]. intros y [].
  - apply StronglySorted_inv in S. destruct S as [S Sy]. apply Forall_cons_iff in Ft. destruct Ft as [Vy Ft]. destruct (cmp x y <? 0) eqn:E1.
    + right. exists (x :: y :: t). split; [reflexivity|]. split; [reflexivity|]. assert (L : lt x y) by (apply Hlt; [assumption..|lia]).
      assert (A : Forall (lt x) (y :: t)). { constructor; [exact L|]. rewrite Forall_forall in *. intros z Hz. exact (Htr x y z L (Sy z Hz)). }
      split; [constructor; [constructor; assumption|exact A]|]. intros z Hz. rewrite Forall_forall in A. specialize (A z Hz). assert (V z) by (rewrite Forall_forall in Ft; destruct Hz as [<-|Hz]; auto). apply Hlt in A; [lia|assumption..].
    + destruct (cmp x y =? 0) eqn:E2; [left; exists y; split; [reflexivity|split; [now left|lia]]|].
      assert (L : lt y x) by (apply Hgt; [assumption..|lia]). destruct (IH x Ft Vx S) as [(z & E & Hz & Cz)|(t' & E & P & S' & N)]; rewrite E.
      * left. exists z. split; [reflexivity|]. split; [now right|exact Cz].
      * right. exists (y :: t'). split; [reflexivity|]. split; [rewrite P; apply perm_swap|]. split.
        -- constructor; [exact S'|]. rewrite Forall_forall in *. intros z Hz. apply (Permutation_in _ P) in Hz. destruct Hz as [<-|Hz]; auto.
        -- intros z [<-|Hz]; [lia|auto].
Qed.
Lemma cmp_refl0 : forall x, V x -> cmp x x = 0 -> True.
Proof. auto. Qed.
Lemma sorted_unique : forall t x y, Forall V t -> StronglySorted lt t -> In x t -> In y t -> cmp x y = 0 -> x = y.
Proof.
  induction t as [|z t IH]; intros x y Ft S Hx Hy E; [contradiction|]. apply StronglySorted_inv in S. destruct S as [S Sz]. apply Forall_cons_iff in Ft. destruct Ft as [Vz Ft]. rewrite Forall_forall in *.
  destruct Hx as [->|Hx], Hy as [->|Hy]; [reflexivity| | |apply IH; auto; now rewrite Forall_forall].
  - pose proof (Sz y Hy) as L. apply Hlt in L; auto. lia.
  - pose proof (Sz x Hx) as L. apply Hgt in L; auto. lia.
Qed.
Lemma rb_remove_spec : forall t x, Forall V t -> StronglySorted lt t -> In x t -> (forall y, V y -> cmp y y = 0) ->
  exists t', rb_remove cmp x t = Some t' /\ Permutation t (x :: t') /\ StronglySorted lt t' /\ Forall V t'.
Proof.
  induction t as [|y t IH]; intros x Ft S Hx R; [contradiction|]. cbn [rb_remove]. pose proof Ft as Ft0. pose proof S as S0. apply StronglySorted_inv in S. destruct S as [S Sy]. apply Forall_cons_iff in Ft. destruct Ft as [Vy Ft].
  destruct (cmp x y =? 0) eqn:E.
  - assert (x = y) as ->. { apply (sorted_unique (y :: t)); auto; [now left|lia]. } exists t. split; [reflexivity|]. split; [reflexivity|]. split; assumption.
  - destruct Hx as [->|Hx]; [rewrite R in E by assumption; discriminate|]. destruct (IH x Ft S Hx R) as (t' & E' & P & S' & F'). rewrite E'. exists (y :: t'). split; [reflexivity|]. split; [rewrite P; apply perm_swap|]. split; [|now constructor].
    constructor; [exact S'|]. rewrite Forall_forall in *. intros z Hz. apply Sy. rewrite P. now right.
Qed.
Lemma rb_find_spec : forall t x,
  match rb_find cmp x t with Some y => In y t /\ cmp x y = 0 | None => forall y, In y t -> cmp x y <> 0 end.
Proof.
  clear. induction t as [|y t IH]; intros x; cbn [rb_find]; [intros y []|]. destruct (cmp x y =? 0) eqn:E; [split; [now left|lia]|]. specialize (IH x). destruct (rb_find cmp x t); [destruct IH; split; [now right|assumption]|].
  intros z [<-|Hz]; [lia|auto].
Qed.
End Rb.

(** * Tables *)
Definition vld (f : family) (p : penalty) : Prop := wf (p_addr p) /\ x_af (p_addr p) = f.
Definition plt (p q : penalty) : Prop := alt (p_addr p) (p_addr q).
Definition elt (p q : penalty) : Prop := p_expiry p < p_expiry q \/ (p_expiry p = p_expiry q /\ plt p q).
Lemma plt_trans : forall x y z, plt x y -> plt y z -> plt x z.
Proof. unfold plt, alt. intros. lia. Qed.
Lemma elt_trans : forall x y z, elt x y -> elt y z -> elt x z.
Proof. unfold elt, plt, alt. intros. lia. Qed.
Lemma p_lt : forall f x y, vld f x -> vld f y -> (penalty_addr_cmp x y < 0 <-> plt x y).
Proof. intros f x y [Wx Fx] [Wy Fy]. apply cmp_lt; congruence. Qed.
Lemma p_gt : forall f x y, vld f x -> vld f y -> (penalty_addr_cmp x y > 0 <-> plt y x).
Proof. intros f x y [Wx Fx] [Wy Fy]. apply cmp_gt; congruence. Qed.
Lemma p_eq : forall f x y, vld f x -> vld f y -> (penalty_addr_cmp x y = 0 <-> value (p_addr x) = value (p_addr y) /\ cmp_scope (p_addr x) = cmp_scope (p_addr y)).
Proof. intros f x y [Wx Fx] [Wy Fy]. apply cmp_eq; congruence. Qed.
Lemma e_lt : forall f x y, vld f x -> vld f y -> (penalty_expiry_cmp x y < 0 <-> elt x y).
Proof.
  intros f x y Hx Hy. pose proof (p_lt f x y Hx Hy) as H. unfold penalty_expiry_cmp, elt in *. unfold penalty_addr_cmp in H. destruct (p_expiry x =? p_expiry y) eqn:E; cbn [negb]; [rewrite H; intuition lia|].
  destruct (p_expiry x <? p_expiry y) eqn:E1; intuition lia.
Qed.
Lemma e_gt : forall f x y, vld f x -> vld f y -> (penalty_expiry_cmp x y > 0 <-> elt y x).
Proof.
  intros f x y Hx Hy. pose proof (p_gt f x y Hx Hy) as H. unfold penalty_expiry_cmp, elt in *. unfold penalty_addr_cmp in H. destruct (p_expiry x =? p_expiry y) eqn:E; cbn [negb]; [rewrite H; intuition lia|].
  destruct (p_expiry x <? p_expiry y) eqn:E1; intuition lia.
Qed.
Lemma p_refl : forall f y, vld f y -> penalty_addr_cmp y y = 0.
Proof. intros f y H. apply (p_eq f); auto. Qed.
Lemma e_refl : forall f y, vld f y -> penalty_expiry_cmp y y = 0.
Proof. intros f y H. unfold penalty_expiry_cmp. rewrite Z.eqb_refl. cbn [negb]. exact (p_refl f y H). Qed.
Lemma p_sym : forall f x y, vld f x -> vld f y -> penalty_addr_cmp x y = 0 -> penalty_addr_cmp y x = 0.
Proof. intros f x y Hx Hy H. apply (p_eq f) in H; auto. apply (p_eq f); auto. split; symmetry; apply H. Qed.
Lemma p_trans : forall f x y z, vld f x -> vld f y -> vld f z -> penalty_addr_cmp x y = 0 -> penalty_addr_cmp y z = 0 -> penalty_addr_cmp x z = 0.
Proof. intros f x y z Hx Hy Hz A B. apply (p_eq f) in A; auto. apply (p_eq f) in B; auto. apply (p_eq f); auto. intuition congruence. Qed.

Record tinv (f : family) (T : table) : Prop := mkTinv {
  ti_v : Forall (vld f) (by_addr T);
  ti_a : StronglySorted plt (by_addr T);
  ti_e : StronglySorted elt (by_expiry T);
  ti_p : Permutation (by_addr T) (by_expiry T);
  ti_n : npen T = zlen (by_addr T) }.
Lemma vld_e : forall f T, tinv f T -> Forall (vld f) (by_expiry T).
Proof. intros f T I. apply (Permutation_Forall (ti_p f T I)), (ti_v f T I). Qed.
Lemma perm_zlen : forall A (a b : list A), Permutation a b -> zlen a = zlen b.
Proof. intros A a b P. unfold zlen. now rewrite (Permutation_length P). Qed.
Lemma perm_filter : forall A (g : A -> bool) (a b : list A), Permutation a b -> Permutation (filter g a) (filter g b).
Proof.
  intros A g a b P. induction P; cbn [filter].
  - constructor.
  - destruct (g x); [now constructor|assumption].
  - destruct (g x), (g y); try reflexivity. apply perm_swap.
  - now rewrite IHP1.
Qed.

Lemma expire_spec : forall f now T, tinv f T ->
  exists T', expire_penalties_from_tree now T = Some T' /\ tinv f T' /\ Permutation (by_addr T') (filter (fun p => now <=? p_expiry p) (by_addr T)).
Proof.
  intros f now [as_ es n] I. unfold expire_penalties_from_tree. destruct I as [Iv Ia Ie Ip In_]. cbn [by_addr by_expiry npen] in *.
  revert as_ n Iv Ia Ie Ip In_. induction es as [|p es IH]; intros as_ n Iv Ia Ie Ip In_; cbn [expire_loop].
  - exists (mkT as_ [] n). split; [reflexivity|]. split; [now constructor|]. apply Permutation_sym, Permutation_nil in Ip. subst. reflexivity.
  - assert (Fe : Forall (vld f) (p :: es)) by exact (Permutation_Forall Ip Iv). destruct (p_expiry p >=? now) eqn:E.
    + exists (mkT as_ (p :: es) n). split; [reflexivity|]. split; [now constructor|]. cbn [by_addr]. apply StronglySorted_inv in Ie. destruct Ie as [_ Ie].
      assert (A : forall q, In q as_ -> (now <=? p_expiry q) = true). { intros q Hq. apply (Permutation_in _ Ip) in Hq. destruct Hq as [<-|Hq]; [lia|]. rewrite Forall_forall in Ie. specialize (Ie q Hq). unfold elt in Ie. lia. }
      assert (B : filter (fun q => now <=? p_expiry q) as_ = as_). { clear - A. induction as_ as [|q as_ IH]; [reflexivity|]. cbn [filter]. rewrite (A q) by now left. f_equal. apply IH. intros; apply A; now right. }
      now rewrite B.
    + destruct (rb_remove_spec penalty_addr_cmp plt (vld f) (p_lt f) (p_gt f) plt_trans as_ p Iv Ia) as (as' & Er & Pr & Sr & Vr); [apply (Permutation_in _ (Permutation_sym Ip)); now left|exact (p_refl f)|].
      rewrite Er. assert (n <> 0) by (rewrite In_, (perm_zlen _ _ _ Pr), zlen_cons; pose proof (zlen_nonneg _ as'); lia). replace (n =? 0) with false by lia.
      assert (P' : Permutation as' es) by (apply (Permutation_cons_inv (a := p)); rewrite <- Pr; exact Ip). apply StronglySorted_inv in Ie. destruct Ie as [Ie _].
      destruct (IH as' (n - 1) Vr Sr Ie P') as (T' & ET & IT & PT); [rewrite In_, (perm_zlen _ _ _ Pr), zlen_cons; lia|]. exists T'. split; [exact ET|]. split; [exact IT|]. rewrite PT, (perm_filter _ _ _ _ Pr). cbn [filter]. replace (now <=? p_expiry p) with false by lia. reflexivity.
Qed.
Lemma early_spec : forall f max T, tinv f T -> 0 <= max ->
  exists T', early_from_tree max T = Some T' /\ tinv f T' /\ by_expiry T' = skipn (Z.to_nat (npen T - max)) (by_expiry T).
Proof.
  intros f max [as_ es n] I Hm. unfold early_from_tree. destruct I as [Iv Ia Ie Ip In_]. cbn [by_addr by_expiry npen] in *.
  revert as_ n Iv Ia Ie Ip In_. induction es as [|p es IH]; intros as_ n Iv Ia Ie Ip In_; cbn [early_loop].
  - assert (as_ = []) as -> by (apply Permutation_sym, Permutation_nil in Ip; exact Ip). rewrite zlen_nil in In_. replace (n >? max) with false by lia. exists (mkT [] [] n). split; [reflexivity|]. split; [now constructor|]. cbn [by_expiry]. now rewrite skipn_nil.
  - destruct (n >? max) eqn:E.
    + destruct (rb_remove_spec penalty_addr_cmp plt (vld f) (p_lt f) (p_gt f) plt_trans as_ p Iv Ia) as (as' & Er & Pr & Sr & Vr); [apply (Permutation_in _ (Permutation_sym Ip)); now left|exact (p_refl f)|].
      rewrite Er. assert (P' : Permutation as' es) by (apply (Permutation_cons_inv (a := p)); rewrite <- Pr; exact Ip). apply StronglySorted_inv in Ie. destruct Ie as [Ie _].
      destruct (IH as' (n - 1) Vr Sr Ie P') as (T' & ET & IT & PT); [rewrite In_, (perm_zlen _ _ _ Pr), zlen_cons; lia|]. exists T'. split; [exact ET|]. split; [exact IT|]. rewrite PT. replace (Z.to_nat (n - max)) with (S (Z.to_nat (n - 1 - max))) by lia. reflexivity.
    + exists (mkT as_ (p :: es) n). split; [reflexivity|]. split; [now constructor|]. replace (Z.to_nat (n - max)) with O by lia. reflexivity.
Qed.

(** * Masks *)
Lemma bits_net : forall c a, bits_for c (x_af a) = net_bits c a.
Proof. reflexivity. Qed.
Lemma net_bits_ok : forall c a, cfg_ok c -> 0 <= net_bits c a <= width (x_af a).
Proof. intros c a (H1 & H2 & _). unfold net_bits, width. destruct (x_af a); lia. Qed.
Lemma same_sourceb_iff : forall c a b, same_sourceb c a b = true <-> same_source c a b.
Proof.
  intros c a b. unfold same_sourceb, same_source, same_scope. rewrite !andb_true_iff, fam_eqb_eq, Z.eqb_eq. destruct (x_af a); [|rewrite Z.eqb_eq]; split; intuition (try discriminate).
Qed.
Lemma mask_spec : forall c a, cfg_ok c -> wf a ->
  exists m, srclimit_mask_addr a (bits_for c (x_af a)) = Some m /\ wf m /\ x_af m = x_af a /\ cmp_scope m = cmp_scope a /\
    value m = leading a (net_bits c a) * 2 ^ (width (x_af a) - net_bits c a).
Proof.
  intros c a Hc Wa. rewrite bits_net. pose proof (net_bits_ok c a Hc) as Hb. unfold srclimit_mask_addr. destruct (netmask_value (x_af a) (net_bits c a) Hb) as (m & Em & Ea & Hm & Hv). rewrite Em.
  destruct (and_value a m Wa Hm) as (r & Er & Ra & Rs & Rw & Rv); [congruence|]. exists r. split; [exact Er|]. split; [exact Rw|]. split; [exact Ra|]. split; [unfold cmp_scope; now rewrite Ra, Rs|].
  rewrite Rv, Hv. pose proof (value_bound a Wa). rewrite land_high by lia. reflexivity.
Qed.
Lemma mask_same : forall c a b ma mb, cfg_ok c -> wf a -> wf b -> x_af a = x_af b ->
  srclimit_mask_addr a (bits_for c (x_af a)) = Some ma -> srclimit_mask_addr b (bits_for c (x_af b)) = Some mb ->
  (addr_cmp ma mb = 0 <-> same_source c a b).
Proof.
  intros c a b ma mb Hc Wa Wb E Ea Eb. destruct (mask_spec c a Hc Wa) as (m1 & E1 & W1 & F1 & S1 & V1). destruct (mask_spec c b Hc Wb) as (m2 & E2 & W2 & F2 & S2 & V2).
  assert (ma = m1) as -> by congruence. assert (mb = m2) as -> by congruence. rewrite cmp_eq by congruence. rewrite V1, V2, S1, S2. unfold same_source, same_scope, cmp_scope.
  assert (Hw : net_bits c a = net_bits c b) by (unfold net_bits; now rewrite E). rewrite Hw, E. pose proof (net_bits_ok c b Hc). assert (0 < 2 ^ (width (x_af b) - net_bits c b)) by (apply Z.pow_pos_nonneg; lia).
  destruct (x_af b); split; intros; intuition (try discriminate); nia.
Qed.
