(** Facts about bits of integers, used by several areas. *)
From Verif Require Import Base.

Lemma cat_bits : forall a b k i, 0 <= k -> 0 <= b < 2 ^ k -> 0 <= i ->
  Z.testbit (a * 2 ^ k + b) i = if i <? k then Z.testbit b i else Z.testbit a (i - k).
Proof.
  intros a b k i Hk Hb Hi. assert (P : 0 < 2 ^ k) by (apply Z.pow_pos_nonneg; lia). destruct (i <? k) eqn:E.
  - rewrite <- (Z.mod_pow2_bits_low (a * 2 ^ k + b) k i) by lia.
    rewrite Z.add_comm, Z.mod_add by lia. now rewrite Z.mod_small by lia.
  - replace i with ((i - k) + k) at 1 by lia. rewrite <- Z.div_pow2_bits by lia.
    rewrite Z.div_add_l by lia. now rewrite Z.div_small, Z.add_0_r by lia.
Qed.
Lemma small_bits : forall x k i, 0 <= x < 2 ^ k -> k <= i -> Z.testbit x i = false.
Proof.
  intros x k i Hx Hi. destruct (Z.eq_dec x 0) as [->|]; [apply Z.bits_0|].
  assert (0 <= k) by (destruct (Z_lt_le_dec k 0); [rewrite Z.pow_neg_r in Hx; lia|lia]).
  apply Z.bits_above_log2; [lia|]. apply Z.log2_lt_pow2; [lia|].
  assert (2 ^ k <= 2 ^ i) by (apply Z.pow_le_mono_r; lia). lia.
Qed.
Lemma bits_small : forall x k, 0 <= k -> 0 <= x -> (forall i, k <= i -> Z.testbit x i = false) -> 0 <= x < 2 ^ k.
Proof.
  intros x k Hk Hx H. assert (x mod 2 ^ k = x) as <-.
  { apply Z.bits_inj'. intros i Hi. destruct (Z_lt_le_dec i k).
    - now apply Z.mod_pow2_bits_low.
    - rewrite Z.mod_pow2_bits_high by lia. symmetry. now apply H. }
  apply Z.mod_pos_bound. apply Z.pow_pos_nonneg; lia.
Qed.
Lemma land_small : forall a b k, 0 <= k -> 0 <= a < 2 ^ k -> 0 <= b -> 0 <= Z.land a b < 2 ^ k.
Proof.
  intros a b k Hk Ha Hb. apply bits_small; [assumption|apply Z.land_nonneg; lia|]. intros i Hi.
  rewrite Z.land_spec. now rewrite (small_bits a k i) by assumption.
Qed.
Lemma lor_small : forall a b k, 0 <= k -> 0 <= a < 2 ^ k -> 0 <= b < 2 ^ k -> 0 <= Z.lor a b < 2 ^ k.
Proof.
  intros a b k Hk Ha Hb. apply bits_small; [assumption|apply Z.lor_nonneg; lia|]. intros i Hi.
  rewrite Z.lor_spec. now rewrite (small_bits a k i), (small_bits b k i) by assumption.
Qed.
Lemma lxor_small : forall a b k, 0 <= k -> 0 <= a < 2 ^ k -> 0 <= b < 2 ^ k -> 0 <= Z.lxor a b < 2 ^ k.
Proof.
  intros a b k Hk Ha Hb. apply bits_small; [assumption|apply Z.lxor_nonneg; lia|]. intros i Hi.
  rewrite Z.lxor_spec. now rewrite (small_bits a k i), (small_bits b k i) by assumption.
Qed.
Lemma land_cat : forall a b c d k, 0 <= k -> 0 <= b < 2 ^ k -> 0 <= d < 2 ^ k ->
  Z.land (a * 2 ^ k + b) (c * 2 ^ k + d) = Z.land a c * 2 ^ k + Z.land b d.
Proof.
  intros a b c d k Hk Hb Hd. apply Z.bits_inj'. intros i Hi. rewrite Z.land_spec, !cat_bits; try assumption; [|apply land_small; lia].
  destruct (i <? k); now rewrite Z.land_spec.
Qed.
Lemma lor_cat : forall a b c d k, 0 <= k -> 0 <= b < 2 ^ k -> 0 <= d < 2 ^ k ->
  Z.lor (a * 2 ^ k + b) (c * 2 ^ k + d) = Z.lor a c * 2 ^ k + Z.lor b d.
Proof.
  intros a b c d k Hk Hb Hd. apply Z.bits_inj'. intros i Hi. rewrite Z.lor_spec, !cat_bits; try assumption; [|now apply lor_small].
  destruct (i <? k); now rewrite Z.lor_spec.
Qed.
(** Masks: the upper bits, and the lower bits. *)
Lemma land_high : forall x w k, 0 <= k <= w -> 0 <= x < 2 ^ w -> Z.land x (2 ^ w - 2 ^ k) = x / 2 ^ k * 2 ^ k.
Proof.
  intros x w k Hk Hx. assert (P : 0 < 2 ^ k) by (apply Z.pow_pos_nonneg; lia).
  assert (E : 2 ^ w - 2 ^ k = (2 ^ (w - k) - 1) * 2 ^ k + 0).
  { rewrite Z.mul_sub_distr_r, <- Z.pow_add_r by lia. replace (w - k + k) with w by lia. lia. }
  rewrite E. rewrite (Z.div_mod x (2 ^ k)) at 1 by lia. rewrite (Z.mul_comm (2 ^ k) (x / 2 ^ k)).
  pose proof (Z.mod_pos_bound x (2 ^ k) P). rewrite land_cat by lia. rewrite Z.land_0_r, Z.add_0_r. f_equal.
  replace (2 ^ (w - k) - 1) with (Z.ones (w - k)) by (rewrite Z.ones_equiv; lia).
  rewrite Z.land_ones by lia. apply Z.mod_small. split; [apply Z.div_pos; lia|]. apply Z.div_lt_upper_bound; [lia|].
  rewrite <- Z.pow_add_r by lia. replace (k + (w - k)) with w by lia. lia.
Qed.
Lemma land_low : forall x k, 0 <= k -> Z.land x (2 ^ k - 1) = x mod 2 ^ k.
Proof. intros x k Hk. replace (2 ^ k - 1) with (Z.ones k) by (rewrite Z.ones_equiv; lia). now apply Z.land_ones. Qed.
Lemma lor_low : forall x k, 0 <= k -> Z.lor x (2 ^ k - 1) = x / 2 ^ k * 2 ^ k + (2 ^ k - 1).
Proof.
  intros x k Hk. assert (P : 0 < 2 ^ k) by (apply Z.pow_pos_nonneg; lia). pose proof (Z.mod_pos_bound x (2 ^ k) P).
  apply Z.bits_inj'. intros i Hi. rewrite Z.lor_spec, cat_bits by lia.
  replace (2 ^ k - 1) with (Z.ones k) by (rewrite Z.ones_equiv; lia). rewrite Z.testbit_ones by lia.
  rewrite (Z.div_mod x (2 ^ k)) at 1 by lia. rewrite (Z.mul_comm (2 ^ k) (x / 2 ^ k)). rewrite cat_bits by lia.
  destruct (i <? k) eqn:E.
  - rewrite (proj2 (Z.leb_le 0 i)) by lia. cbn [andb]. now rewrite Bool.orb_true_r.
  - now rewrite Bool.andb_false_r, Bool.orb_false_r.
Qed.
Lemma lor_disjoint : forall a b k, 0 <= k -> 0 <= b < 2 ^ k -> Z.lor (a * 2 ^ k) b = a * 2 ^ k + b.
Proof.
  intros a b k Hk Hb. pose proof (lor_cat a 0 0 b k Hk ltac:(lia) Hb) as E.
  rewrite Z.lor_0_r, Z.lor_0_l, Z.add_0_r, Z.mul_0_l, Z.add_0_l in E. exact E.
Qed.
