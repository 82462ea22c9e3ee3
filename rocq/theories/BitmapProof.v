From Verif Require Import Base Bits BitmapModel BitmapSpec.
Local Open Scope Z_scope.

Definition word (w : Z) : Prop := 0 <= w < U32.
Definition words (a : list Z) : Prop := Forall word a.
(** The number an array of words spells, least significant word first. *)
Fixpoint val (a : list Z) : Z := match a with [] => 0 | w :: r => val r * 2 ^ 32 + w end.
Definition at_ (a : list Z) (i : Z) : Z := nth (Z.to_nat i) a 0.

Lemma val_nonneg : forall a, words a -> 0 <= val a.
Proof. induction 1 as [|w a Hw Ha IH]; cbn [val]; [lia|]. unfold word in Hw. nia. Qed.
Lemma at_word : forall a i, words a -> word (at_ a i).
Proof.
  intros a i H. unfold at_. destruct (Nat.lt_ge_cases (Z.to_nat i) (length a)) as [L|L].
  - unfold words in H. rewrite Forall_forall in H. apply H. now apply nth_In.
  - rewrite nth_overflow by lia. unfold word, U32. lia.
Qed.
Lemma at_above : forall a i, zlen a <= i -> at_ a i = 0.
Proof. intros a i H. unfold at_. apply nth_overflow. unfold zlen in H. lia. Qed.
Lemma val_bits : forall a n, words a -> 0 <= n -> Z.testbit (val a) n = Z.testbit (at_ a (n / 32)) (n mod 32).
Proof.
  induction a as [|w a IH]; intros n H Hn; cbn [val].
  - unfold at_. destruct (Z.to_nat (n / 32)); cbn [nth]; now rewrite !Z.bits_0.
  - inversion H as [|? ? Hw Ha]; subst. rewrite cat_bits; [|lia|exact Hw|exact Hn]. destruct (n <? 32) eqn:E.
    + rewrite Z.div_small, Z.mod_small by lia. reflexivity.
    + rewrite IH by (assumption || lia). assert (D : n / 32 = (n - 32) / 32 + 1) by (rewrite <- Z.div_add by lia; f_equal; lia).
      assert (M : n mod 32 = (n - 32) mod 32) by (rewrite <- (Z.mod_add (n - 32) 1) by lia; f_equal; lia).
      rewrite D, M. unfold at_. assert (0 <= (n - 32) / 32) by (apply Z.div_pos; lia).
      replace (Z.to_nat ((n - 32) / 32 + 1)) with (S (Z.to_nat ((n - 32) / 32))) by lia. reflexivity.
Qed.
Lemma val_ext : forall a N, words a -> 0 <= N -> (forall n, 0 <= n -> Z.testbit N n = Z.testbit (at_ a (n / 32)) (n mod 32)) -> val a = N.
Proof. intros a N H HN K. apply Z.bits_inj'. intros n Hn. rewrite val_bits by assumption. symmetry. now apply K. Qed.
Lemma at_zero : forall a i, words a -> 0 <= i -> (forall n, 32 * i <= n -> Z.testbit (val a) n = false) -> at_ a i = 0.
Proof.
  intros a i H Hi K. apply Z.bits_inj'. intros k Hk. rewrite Z.bits_0. destruct (Z_lt_le_dec k 32) as [L|L].
  - specialize (K (32 * i + k) ltac:(lia)). rewrite val_bits in K by (assumption || lia).
    rewrite (Z.mul_comm 32 i), Z.div_add_l, Z.div_small, Z.add_0_r in K by lia.
    rewrite Z.add_comm, Z.mod_add, Z.mod_small in K by lia. exact K.
  - pose proof (at_word a i H) as W. now apply (small_bits _ 32 k).
Qed.

Lemma rd_some : forall a i, 0 <= i < zlen a -> rd a i = Some (at_ a i).
Proof. intros a i H. unfold rd, at_. replace (0 <=? i) with true by lia. replace (i <? zlen a) with true by lia. reflexivity. Qed.
Lemma wr_some : forall a i v, 0 <= i < zlen a -> exists a', wr a i v = Some a' /\ zlen a' = zlen a /\
  (forall j, 0 <= j -> at_ a' j = if j =? i then v else at_ a j) /\ (words a -> word v -> words a').
Proof.
  intros a i v H. unfold wr. replace (0 <=? i) with true by lia. replace (i <? zlen a) with true by lia. cbn [andb].
  eexists. split; [reflexivity|]. assert (Z1 : zlen (ztake i a) = i) by (apply zlen_ztake; lia).
  split; [rewrite zlen_app, zlen_cons, Z1, zlen_zdrop; lia|]. split.
  - intros j Hj. unfold at_. destruct (j =? i) eqn:E.
    + apply Z.eqb_eq in E; subst j. rewrite app_nth2 by (unfold zlen in Z1; lia).
      replace (Z.to_nat i - length (ztake i a))%nat with O by (unfold zlen in Z1; lia). reflexivity.
    + rewrite <- (ztake_zdrop Z i a) at 3. destruct (Z_lt_le_dec j i) as [L|L].
      * rewrite !app_nth1 by (unfold zlen in Z1; lia). reflexivity.
      * rewrite !app_nth2 by (unfold zlen in Z1; lia). replace (length (ztake i a)) with (Z.to_nat i) by (unfold zlen in Z1; lia).
        assert (D : zdrop i a = nth (Z.to_nat i) a 0 :: zdrop (i + 1) a).
        { unfold zdrop. replace (Z.to_nat (i + 1)) with (S (Z.to_nat i)) by lia. unfold zlen in H.
          clear - H. assert (L : (Z.to_nat i < length a)%nat) by lia. revert L. generalize (Z.to_nat i) as k. clear.
          induction a as [|x a IH]; intros k L; cbn [length] in L; [lia|]. destruct k as [|k]; [reflexivity|]. cbn [skipn nth]. rewrite IH by lia. reflexivity. }
        rewrite D. replace (Z.to_nat j - Z.to_nat i)%nat with (S (Z.to_nat j - Z.to_nat i - 1)) by lia. reflexivity.
  - intros Ha Hv. unfold words in *. rewrite Forall_forall in *. intros x Hx. apply in_app_or in Hx. destruct Hx as [Hx|[<-|Hx]]; [| exact Hv |].
    + apply Ha. rewrite <- (ztake_zdrop Z i a). apply in_or_app. now left.
    + apply Ha. rewrite <- (ztake_zdrop Z (i + 1) a). apply in_or_app. now right.
Qed.

(** The representation invariant: the words up to [top] hold everything. *)
Definition LIM : Z := 16777216.
Definition inv (b : bitmap) (N : Z) : Prop :=
  0 <= top b < len b /\ words (d b) /\ val (d b) = N /\ (forall i, top b < i -> at_ (d b) i = 0) /\
  (forall n, LIM < n -> Z.testbit N n = false).

Lemma inv_new : inv bitmap_new 0.
Proof.
  unfold inv, bitmap_new, len; cbn [d top]. split; [unfold zlen; cbn; lia|]. split; [constructor; [unfold word, U32; lia|constructor]|].
  split; [reflexivity|]. split; [|intros; apply Z.bits_0]. intros i Hi. apply at_above. unfold zlen; cbn; lia.
Qed.
Lemma zeros_words : forall n, words (repeat 0 n).
Proof. induction n; cbn; constructor; [unfold word, U32; lia|assumption]. Qed.
Lemma zeros_at : forall n i, at_ (repeat 0 n) i = 0.
Proof. intros n i. unfold at_. generalize (Z.to_nat i) as k. induction n as [|n IH]; intros [|k]; cbn; auto. Qed.
Lemma zeros_val : forall n, val (repeat 0 n) = 0.
Proof. induction n; cbn [repeat val]; lia. Qed.
Lemma inv_zero : forall b N, inv b N -> inv (bitmap_zero b) 0 /\ len (bitmap_zero b) = len b.
Proof.
  intros b N (T & W & _). unfold inv, bitmap_zero, len; cbn [d top]. assert (zlen (repeat 0 (length (d b))) = zlen (d b)) as E by (rewrite zlen_repeat; reflexivity).
  split; [|exact E]. rewrite E. unfold len in T. split; [lia|]. split; [apply zeros_words|]. split; [apply zeros_val|]. split; [|intros; apply Z.bits_0].
  intros. apply zeros_at.
Qed.
Lemma at_app_zeros : forall a k i, 0 <= i -> at_ (a ++ repeat 0 k) i = at_ a i.
Proof.
  intros a k i Hi. unfold at_. destruct (Nat.lt_ge_cases (Z.to_nat i) (length a)) as [L|L]; [now rewrite app_nth1|].
  rewrite app_nth2, (nth_overflow a) by lia. pose proof (zeros_at k (Z.of_nat (Z.to_nat i - length a))) as E. unfold at_ in E. now rewrite Nat2Z.id in E.
Qed.
Lemma reserve_spec : forall aok b N n, inv b N -> 0 <= n ->
  match reserve aok b n with
  | None => LIM < n \/ aok = false
  | Some b' => n <= LIM /\ inv b' N /\ top b' = top b /\ n / 32 < len b' /\ len b <= len b'
  end.
Proof.
  intros aok b N n (T & W & V & Z0 & M) Hn. unfold reserve. replace (len b <=? top b) with false by lia. cbn [orb].
  change BITMAP_MAX with LIM. destruct (LIM <? n) eqn:E1; [left; lia|]. change BITMAP_BITS with 32. destruct (len b <? n / 32 + 1) eqn:E2.
  - destruct aok; [|now right]. split; [lia|]. set (k := Z.to_nat (n / 32 + 1 - len b)).
    assert (L : zlen (d b ++ repeat 0 k) = n / 32 + 1) by (rewrite zlen_app, zlen_repeat; unfold k, len in *; lia).
    split; [|cbn [top]; unfold len; cbn [d]; rewrite L; unfold len in E2; lia].
    unfold inv, len; cbn [d top]. rewrite L. split; [lia|].
    assert (WW : words (d b ++ repeat 0 k)) by (unfold words; rewrite Forall_app; split; [exact W|apply zeros_words]). split; [exact WW|].
    split; [|split; [intros i Hi; rewrite at_app_zeros by lia; now apply Z0|exact M]].
    apply val_ext; [exact WW|rewrite <- V; now apply val_nonneg|]. intros m Hm. rewrite at_app_zeros by (apply Z.div_pos; lia).
    rewrite <- V. now apply val_bits.
  - split; [lia|]. split; [repeat (split; [assumption|]); assumption|]. split; [reflexivity|lia].
Qed.

Lemma land31 : forall n, Z.land n (BITMAP_BITS - 1) = n mod 32.
Proof. intros n. change (BITMAP_BITS - 1) with (2 ^ 5 - 1). rewrite land_low by lia. reflexivity. Qed.
Lemma bit32 : forall k, 0 <= k < 32 -> u32 (Z.shiftl 1 k) = 2 ^ k /\ word (2 ^ k).
Proof.
  intros k H. rewrite Z.shiftl_1_l. assert (0 < 2 ^ k) by (apply Z.pow_pos_nonneg; lia).
  assert (2 ^ k < 2 ^ 32) by (apply Z.pow_lt_mono_r; lia). unfold word. change U32 with (2 ^ 32). split; [|lia]. apply u32_id. change U32 with (2 ^ 32). lia.
Qed.

Lemma test_spec : forall b N n, inv b N -> 0 <= n -> bitmap_test_bit b n = Some (Z.testbit N n).
Proof.
  intros b N n (T & W & V & Z0 & M) Hn. unfold bitmap_test_bit. replace (len b <=? top b) with false by lia. replace (len b =? 0) with false by lia.
  cbn [orb]. change BITMAP_BITS with 32 at 1 2. rewrite <- V, val_bits by assumption. assert (0 <= n / 32) by (apply Z.div_pos; lia).
  destruct (top b <? n / 32) eqn:E.
  - rewrite Z0 by lia. now rewrite Z.bits_0.
  - rewrite rd_some by (unfold len in T; lia). f_equal. rewrite land31.
    change 1 with (Z.ones 1) at 1. rewrite Z.land_ones by lia. rewrite <- (Z.add_0_l (n mod 32)) at 2.
    assert (0 <= n mod 32) by (apply Z.mod_pos_bound; lia). rewrite <- Z.shiftr_spec by lia. rewrite Z.bit0_odd. rewrite Zmod_odd. now destruct (Z.odd _).
Qed.

Lemma div_mod_eqb : forall n m, 0 <= n -> 0 <= m -> (n =? m) = ((m / 32 =? n / 32) && (m mod 32 =? n mod 32)).
Proof. intros n m Hn Hm. pose proof (Z.div_mod n 32). pose proof (Z.div_mod m 32). destruct (n =? m) eqn:E; lia. Qed.

Lemma set_spec : forall aok b N n, inv b N -> 0 <= n < U32 -> exists ok b', bitmap_set_bit aok b n = Some (ok, b') /\
  if ok then n <= LIM /\ inv b' (Z.setbit N n) else (LIM < n \/ aok = false) /\ b' = b.
Proof.
  intros aok b N n H Hn. unfold bitmap_set_bit. pose proof (reserve_spec aok b N n H ltac:(lia)) as R. destruct (reserve aok b n) as [b1|].
  2:{ exists false, b. split; [reflexivity|]. split; [exact R|reflexivity]. }
  destruct R as (L & (T & W & V & Z0 & M) & _ & B & _). change BITMAP_BITS with 32 at 1 2 3 4. assert (D0 : 0 <= n / 32) by (apply Z.div_pos; lia).
  assert (M0 : 0 <= n mod 32 < 32) by (apply Z.mod_pos_bound; lia). unfold len in *.
  rewrite rd_some by lia. rewrite land31. destruct (bit32 (n mod 32) M0) as [-> Wb].
  assert (Ww : word (Z.lor (at_ (d b1) (n / 32)) (2 ^ (n mod 32)))) by (apply (lor_small _ _ 32); [lia|now apply at_word|exact Wb]).
  destruct (wr_some (d b1) (n / 32) (Z.lor (at_ (d b1) (n / 32)) (2 ^ (n mod 32))) ltac:(lia)) as (d' & -> & Ld & A & WW). specialize (WW W Ww).
  exists true, (mkB d' (if top b1 <? n / 32 then n / 32 else top b1)). split; [reflexivity|]. split; [exact L|]. unfold inv, len; cbn [d top].
  rewrite Ld. split; [destruct (top b1 <? n / 32) eqn:E; lia|]. split; [exact WW|]. split; [|split].
  - apply val_ext; [exact WW|unfold Z.setbit; apply Z.lor_nonneg; split; [rewrite <- V; now apply val_nonneg|rewrite Z.shiftl_1_l; apply Z.pow_nonneg; lia]|].
    intros m Hm. rewrite Z.setbit_eqb by lia. rewrite A by (apply Z.div_pos; lia). rewrite <- V, val_bits by assumption.
    rewrite div_mod_eqb by lia. destruct (m / 32 =? n / 32) eqn:E; cbn [andb orb]; [|reflexivity].
    apply Z.eqb_eq in E. rewrite E, Z.lor_spec. rewrite Z.pow2_bits_eqb by lia. rewrite Z.eqb_sym. apply Bool.orb_comm.
  - intros i Hi. rewrite A by (destruct (top b1 <? n / 32) eqn:E in Hi; lia). destruct (top b1 <? n / 32) eqn:E; replace (i =? n / 32) with false by lia; apply Z0; lia.
  - intros m Hm. rewrite Z.setbit_eqb by lia. replace (n =? m) with false by lia. cbn [orb]. now apply M.
Qed.

Lemma retop_loop_spec : forall fuel a t, (Z.to_nat t < fuel)%nat -> 0 <= t < zlen a ->
  exists t', retop_loop fuel a t = Some t' /\ 0 <= t' <= t /\ (forall i, t' < i <= t -> at_ a i = 0) /\ (t' = 0 \/ at_ a t' <> 0).
Proof.
  induction fuel as [|f IH]; intros a t Hf Ht; [lia|]. cbn [retop_loop]. destruct (0 <? t) eqn:E.
  - rewrite rd_some by lia. destruct (at_ a t =? 0) eqn:E0.
    + destruct (IH a (t - 1) ltac:(lia) ltac:(lia)) as (t' & -> & B & Zr & Q). exists t'. split; [reflexivity|]. split; [lia|]. split; [|exact Q].
      intros i Hi. destruct (Z.eq_dec i t) as [->|]; [lia|]. apply Zr. lia.
    + exists t. split; [reflexivity|]. split; [lia|]. split; [intros; lia|]. right. lia.
  - exists t. split; [reflexivity|]. split; [lia|]. split; [intros; lia|]. left. lia.
Qed.
Lemma retop_spec : forall b N, inv b N -> exists b', retop b = Some b' /\ inv b' N /\ d b' = d b /\ (top b' = 0 \/ at_ (d b') (top b') <> 0).
Proof.
  intros b N (T & W & V & Z0 & M). unfold retop. replace (len b <=? top b) with false by lia. unfold len in T.
  destruct (retop_loop_spec (S (length (d b))) (d b) (top b) ltac:(unfold zlen in T; lia) T) as (t' & -> & B & Zr & Q).
  exists (mkB (d b) t'). split; [reflexivity|]. cbn [d top]. split; [|split; [reflexivity|exact Q]]. unfold inv, len; cbn [d top].
  split; [lia|]. split; [exact W|]. split; [exact V|]. split; [|exact M]. intros i Hi. destruct (Z_lt_le_dec (top b) i); [now apply Z0|]. apply Zr. lia.
Qed.

Lemma clear_spec : forall b N n, inv b N -> 0 <= n -> exists b', bitmap_clear_bit b n = Some b' /\ inv b' (Z.clearbit N n).
Proof.
  intros b N n I Hn. destruct I as (T & W & V & Z0 & M) eqn:HI. clear HI. unfold bitmap_clear_bit. replace (len b <=? top b) with false by lia. cbn [orb].
  assert (Noop : Z.testbit N n = false -> inv b (Z.clearbit N n)).
  { intros K. replace (Z.clearbit N n) with N; [exact I|]. apply Z.bits_inj'. intros m Hm. rewrite Z.clearbit_eqb.
    destruct (n =? m) eqn:E; [apply Z.eqb_eq in E; subst m; now rewrite K|]. cbn [negb]. now rewrite Bool.andb_true_r. }
  change BITMAP_MAX with LIM. destruct (LIM <? n) eqn:E1; [exists b; split; [reflexivity|]; apply Noop, M; lia|].
  change BITMAP_BITS with 32. assert (D0 : 0 <= n / 32) by (apply Z.div_pos; lia). assert (M0 : 0 <= n mod 32 < 32) by (apply Z.mod_pos_bound; lia).
  destruct (top b <? n / 32) eqn:E2.
  { exists b. split; [reflexivity|]. apply Noop. rewrite <- V, val_bits, Z0 by (assumption || lia). apply Z.bits_0. }
  unfold len in T. rewrite rd_some by lia. change (32 - 1) with (BITMAP_BITS - 1). rewrite land31. destruct (bit32 (n mod 32) M0) as [-> Wb].
  set (v := Z.land (at_ (d b) (n / 32)) (U32 - 1 - 2 ^ (n mod 32))).
  assert (Wv : word v) by (apply (land_small _ _ 32); [lia|now apply at_word|unfold word in Wb; lia]).
  destruct (wr_some (d b) (n / 32) v ltac:(lia)) as (d' & -> & Ld & A & WW). specialize (WW W Wv).
  assert (J : inv (mkB d' (top b)) (Z.clearbit N n)).
  { unfold inv, len; cbn [d top]. rewrite Ld. split; [exact T|]. split; [exact WW|]. split; [|split].
    - apply val_ext; [exact WW| |].
      + unfold Z.clearbit. apply Z.ldiff_nonneg. left. rewrite <- V. now apply val_nonneg.
      + intros m Hm. rewrite Z.clearbit_eqb. rewrite A by (apply Z.div_pos; lia). rewrite <- V, val_bits by assumption. rewrite div_mod_eqb by lia.
        destruct (m / 32 =? n / 32) eqn:E; cbn [andb]; [|cbn [negb]; now rewrite Bool.andb_true_r]. apply Z.eqb_eq in E. rewrite E. unfold v.
        rewrite Z.land_spec. f_equal. assert (Hm32 : 0 <= m mod 32 < 32) by (apply Z.mod_pos_bound; lia).
        replace (U32 - 1 - 2 ^ (n mod 32)) with (Z.ldiff (Z.ones 32) (2 ^ (n mod 32))).
        2:{ rewrite <- Z.sub_nocarry_ldiff; [rewrite Z.ones_equiv; change U32 with (2 ^ 32); lia|]. apply Z.bits_inj'. intros i Hi. rewrite Z.ldiff_spec, Z.bits_0, Z.pow2_bits_eqb by lia.
            destruct (n mod 32 =? i) eqn:Ei; [|reflexivity]. rewrite Z.testbit_ones by lia. replace (0 <=? i) with true by lia. replace (i <? 32) with true by lia. reflexivity. }
        rewrite Z.ldiff_spec, Z.pow2_bits_eqb, Z.testbit_ones by lia. replace (0 <=? m mod 32) with true by lia. replace (m mod 32 <? 32) with true by lia. cbn [andb].
        now rewrite Z.eqb_sym.
    - intros i Hi. rewrite A by lia. replace (i =? n / 32) with false by lia. now apply Z0.
    - intros m Hm. rewrite Z.clearbit_eqb, M by assumption. reflexivity. }
  destruct (retop_spec _ _ J) as (b' & -> & J' & _). now exists b'.
Qed.

Lemma log2_char : forall N k, 0 <= N -> 0 <= k -> Z.testbit N k = true -> (forall i, k < i -> Z.testbit N i = false) -> N <> 0 /\ Z.log2 N = k.
Proof.
  intros N k HN Hk B A. assert (N <> 0) by (intros ->; now rewrite Z.bits_0 in B). split; [assumption|].
  destruct (Z.lt_trichotomy (Z.log2 N) k) as [L|[E|L]]; [|exact E|].
  - rewrite Z.bits_above_log2 in B by assumption. discriminate.
  - specialize (A _ L). rewrite Z.bit_log2 in A by lia. discriminate.
Qed.
Lemma msb_loop_spec : forall fuel w bits, 0 < w < U32 -> (Z.to_nat (31 - Z.log2 w) < fuel)%nat -> msb_loop fuel w bits = Some (bits - (31 - Z.log2 w)).
Proof.
  induction fuel as [|f IH]; intros w bits Hw Hf; [lia|]. cbn [msb_loop]. change (Z.shiftl 1 (BITMAP_BITS - 1)) with (2 ^ 31).
  assert (L : 0 <= Z.log2 w < 32) by (split; [apply Z.log2_nonneg|apply Z.log2_lt_pow2; [lia|exact (proj2 Hw)]]).
  assert (LT : Z.land w (2 ^ 31) = if Z.testbit w 31 then 2 ^ 31 else 0).
  { apply Z.bits_inj'. intros i Hi. rewrite Z.land_spec, Z.pow2_bits_eqb by lia. destruct (31 =? i) eqn:E.
    - apply Z.eqb_eq in E; subst i. destruct (Z.testbit w 31); [now rewrite Z.pow2_bits_true|reflexivity].
    - rewrite Bool.andb_false_r. destruct (Z.testbit w 31); [|now rewrite Z.bits_0]. rewrite Z.pow2_bits_eqb, E by lia. reflexivity. }
  rewrite LT. destruct (Z.testbit w 31) eqn:B.
  - replace (2 ^ 31 =? 0) with false by reflexivity. assert (Z.log2 w = 31). { destruct (Z.eq_dec (Z.log2 w) 31) as [E|E]; [exact E|]. rewrite Z.bits_above_log2 in B by lia. discriminate. }
    f_equal. lia.
  - rewrite Z.eqb_refl. assert (Z.log2 w <> 31). { intros E. rewrite <- E in B. rewrite Z.bit_log2 in B by lia. discriminate. }
    assert (W31 : w < 2 ^ 31). { apply Z.log2_lt_cancel. change (Z.log2 (2 ^ 31)) with 31. lia. }
    assert (E2 : u32 (Z.shiftl w 1) = 2 * w) by (rewrite Z.shiftl_mul_pow2 by lia; change (2 ^ 1) with 2; rewrite u32_id; [lia|unfold U32; lia]).
    rewrite E2. assert (Z.log2 (2 * w) = Z.log2 w + 1) by (rewrite Z.log2_double by lia; lia). rewrite IH; [f_equal; lia|unfold U32; lia|lia].
Qed.
Lemma nbits_spec : forall b N, inv b N -> exists b', bitmap_nbits b = Some (size_of N, b') /\ inv b' N /\ (N <> 0 -> 32 * top b' <= Z.log2 N < 32 * (top b' + 1)) /\ d b' = d b.
Proof.
  intros b N I. unfold bitmap_nbits. destruct (retop_spec b N I) as (b' & -> & I' & Dd & Q). pose proof I' as (T & W & V & Z0 & M).
  replace (len b' <=? top b') with false by lia. replace (len b' =? 0) with false by lia. unfold len in T. rewrite rd_some by lia.
  destruct ((top b' =? 0) && (at_ (d b') 0 =? 0)) eqn:E.
  - exists b'. apply andb_prop in E. destruct E as [E1 E2]. assert (N = 0).
    { apply Z.bits_inj'. intros n Hn. rewrite <- V, val_bits, Z.bits_0 by assumption. assert (0 <= n / 32) by (apply Z.div_pos; lia).
      destruct (Z.eq_dec (n / 32) 0) as [Q0|]; [rewrite Q0; replace (at_ (d b') 0) with 0 by lia; apply Z.bits_0|]. rewrite Z0 by lia. apply Z.bits_0. }
    unfold size_of. replace (N =? 0) with true by lia. split; [reflexivity|]. split; [exact I'|]. split; [congruence|exact Dd].
  - rewrite rd_some by lia. pose proof (at_word (d b') (top b') W) as Hw. unfold word in Hw.
    assert (Nz : at_ (d b') (top b') <> 0). { destruct Q as [Q|Q]; [|exact Q]. rewrite Q in *. cbn [Z.eqb andb] in E. lia. }
    assert (Hl : 0 <= Z.log2 (at_ (d b') (top b')) < 32) by (split; [apply Z.log2_nonneg|apply Z.log2_lt_pow2; [lia|exact (proj2 Hw)]]).
    destruct (log2_char N (32 * top b' + Z.log2 (at_ (d b') (top b')))) as [Nn Ln].
    + rewrite <- V. now apply val_nonneg.
    + lia.
    + rewrite <- V, val_bits by (assumption || lia). rewrite (Z.mul_comm 32), Z.div_add_l, Z.div_small, Z.add_0_r by lia.
      rewrite Z.add_comm, Z.mod_add, Z.mod_small by lia. apply Z.bit_log2. lia.
    + intros i Hi. rewrite <- V, val_bits by (assumption || lia). destruct (Z.eq_dec (i / 32) (top b')) as [Ei|Ei].
      * rewrite Ei. pose proof (Z.div_mod i 32). apply Z.bits_above_log2; lia.
      * rewrite Z0; [apply Z.bits_0|]. assert (top b' <= i / 32) by (apply Z.div_le_lower_bound; lia). lia.
    + rewrite msb_loop_spec by (lia || (change (Z.to_nat BITMAP_BITS) with 32%nat; lia)).
      exists b'. unfold size_of. replace (N =? 0) with false by lia. split; [do 2 f_equal; change BITMAP_BITS with 32; lia|]. split; [exact I'|]. split; [intros _; lia|exact Dd].
Qed.
Lemma nbytes_spec : forall b N, inv b N -> exists b', bitmap_nbytes b = Some (bytes_of N, b') /\ inv b' N /\ bytes_of N <= 4 * (top b' + 1) /\ 0 <= bytes_of N /\ d b' = d b.
Proof.
  intros b N I. unfold bitmap_nbytes. destruct (nbits_spec b N I) as (b' & -> & I' & L & Dd). exists b'. split; [reflexivity|]. split; [exact I'|].
  pose proof I' as (T & _). unfold bytes_of, size_of. destruct (N =? 0) eqn:E; [change ((0 + 7) / 8) with 0; split; [lia|]; split; [lia|exact Dd]|].
  specialize (L ltac:(lia)). pose proof (Z.log2_nonneg N). split; [apply Z.lt_succ_r, Z.div_lt_upper_bound; lia|]. split; [apply Z.div_pos; lia|exact Dd].
Qed.

Lemma be_enc_head : forall n v, be_enc (S n) v = (v / 256 ^ Z.of_nat n) mod 256 :: be_enc n v.
Proof.
  induction n as [|n IH]; intros v.
  - cbn. now rewrite Z.div_1_r.
  - change (be_enc (S (S n)) v) with (be_enc (S n) (v / 256) ++ [v mod 256]). rewrite IH. cbn [app].
    change (be_enc (S n) v) with (be_enc n (v / 256) ++ [v mod 256]). f_equal. f_equal.
    rewrite Z.div_div by (lia || (apply Z.pow_pos_nonneg; lia)). f_equal. rewrite Nat2Z.inj_succ, Z.pow_succ_r by lia. reflexivity.
Qed.
Lemma byte_of_val : forall a k, words a -> 0 <= k -> Z.land (Z.shiftr (at_ a (k / 4)) (k mod 4 * 8)) 255 = (val a / 256 ^ k) mod 256.
Proof.
  intros a k W Hk. change 255 with (Z.ones 8).
  assert (R : (val a / 256 ^ k) mod 256 = Z.land (Z.shiftr (val a) (8 * k)) (Z.ones 8)).
  { rewrite Z.land_ones, Z.shiftr_div_pow2 by lia. rewrite (Z.pow_mul_r 2 8 k) by lia. reflexivity. }
  rewrite R.
  apply Z.bits_inj'. intros i Hi. rewrite !Z.land_spec. destruct (Z_lt_le_dec i 8) as [L|L].
  2:{ rewrite (Z.testbit_ones 8 i) by lia. replace (i <? 8) with false by lia. now rewrite Bool.andb_false_r, !Bool.andb_false_r. }
  f_equal. rewrite !Z.shiftr_spec by lia. assert (0 <= k mod 4 < 4) by (apply Z.mod_pos_bound; lia). rewrite val_bits by (assumption || lia).
  pose proof (Z.div_mod k 4). replace (i + 8 * k) with ((i + k mod 4 * 8) + k / 4 * 32) by lia.
  rewrite Z.div_add, Z.mod_add by lia. rewrite (Z.div_small (i + _)), (Z.mod_small (i + _)) by lia. reflexivity.
Qed.
Lemma to_string_loop_spec : forall fuel a need l k p, words a -> 0 <= k <= need -> l = need -> need <= zlen p -> need <= 4 * zlen a -> (Z.to_nat (need - k) <= fuel)%nat ->
  p = ztake (need - k) p ++ be_enc (Z.to_nat k) (val a) ++ zdrop need p ->
  to_string_loop fuel a need l k p = Some (be_enc (Z.to_nat need) (val a) ++ zdrop need p).
Proof.
  induction fuel as [|f IH]; intros a need l k p W Hk -> Hp Ha Hf E; cbn [to_string_loop].
  - assert (k = need) by lia. subst k. rewrite Z.sub_diag, ztake_0 in E. f_equal. exact E.
  - destruct (need <=? k) eqn:Ek.
    + assert (k = need) by lia. subst k. rewrite Z.sub_diag, ztake_0 in E. f_equal. exact E.
    + change BITMAP_BYTES with 4. assert (0 <= k / 4) by (apply Z.div_pos; lia). rewrite rd_some by (split; [lia|apply Z.div_lt_upper_bound; lia]).
      rewrite byte_of_val by (assumption || lia). unfold wr. replace (0 <=? need - 1 - k) with true by lia. replace (need - 1 - k <? zlen p) with true by lia. cbn [andb].
      set (h := (val a / 256 ^ k) mod 256). set (p' := ztake (need - 1 - k) p ++ h :: zdrop (need - 1 - k + 1) p).
      assert (D1 : zdrop (need - 1 - k + 1) p = be_enc (Z.to_nat k) (val a) ++ zdrop need p).
      { rewrite E at 1. replace (need - 1 - k + 1) with (need - k) by lia. apply zdrop_app_exact. symmetry. apply zlen_ztake. lia. }
      assert (LT : zlen (ztake (need - 1 - k) p) = need - 1 - k) by (apply zlen_ztake; lia).
      assert (P' : p' = ztake (need - (k + 1)) p ++ be_enc (Z.to_nat (k + 1)) (val a) ++ zdrop need p).
      { unfold p'. rewrite D1. replace (need - (k + 1)) with (need - 1 - k) by lia. f_equal. replace (Z.to_nat (k + 1)) with (S (Z.to_nat k)) by lia. rewrite be_enc_head. rewrite Z2Nat.id by lia. reflexivity. }
      assert (LB : zlen (be_enc (Z.to_nat (k + 1)) (val a)) = k + 1) by (rewrite zlen_be_enc; lia).
      assert (ZD : zdrop need p' = zdrop need p).
      { rewrite P', app_assoc. apply zdrop_app_exact. rewrite zlen_app, LB. replace (need - (k + 1)) with (need - 1 - k) by lia. lia. }
      assert (ZT : ztake (need - (k + 1)) p' = ztake (need - (k + 1)) p).
      { rewrite P'. apply ztake_app_exact. replace (need - (k + 1)) with (need - 1 - k) by lia. lia. }
      rewrite (IH a need need (k + 1) p'); [now rewrite ZD|exact W|lia|reflexivity| |exact Ha|lia|].
      * unfold p'. rewrite zlen_app, zlen_cons, LT, zlen_zdrop by lia. lia.
      * rewrite ZT, ZD. exact P'.
Qed.
Lemma to_string_spec : forall b N p, inv b N -> exists b' ok p', bitmap_to_string b p = Some (ok, p', b') /\ inv b' N /\
  if zlen p <? bytes_of N then ok = false /\ p' = p else ok = true /\ p' = be_enc (Z.to_nat (bytes_of N)) N ++ zdrop (bytes_of N) p.
Proof.
  intros b N p I. unfold bitmap_to_string. destruct (nbytes_spec b N I) as (b' & -> & I' & L & B & _). cbv zeta. pose proof I' as (T & W & V & _).
  replace (len b' <=? top b') with false by lia. rewrite Bool.orb_false_r. destruct (zlen p <? bytes_of N) eqn:E.
  - exists b', false, p. auto.
  - replace (if bytes_of N <? zlen p then bytes_of N else zlen p) with (bytes_of N) by (destruct (bytes_of N <? zlen p) eqn:?; lia).
    rewrite (to_string_loop_spec (Z.to_nat ((top b' + 1) * BITMAP_BYTES)) (d b') (bytes_of N) (bytes_of N) 0 p); try assumption; try lia.
    + rewrite V. eexists b', true, _. split; [reflexivity|]. auto.
    + unfold len in T. lia.
    + change BITMAP_BYTES with 4. lia.
    + rewrite Z.sub_0_r. cbn [Z.to_nat be_enc app]. symmetry. apply ztake_zdrop.
Qed.

Lemma val_lor : forall a i v a', words a -> 0 <= i -> word v -> words a' -> (forall j, 0 <= j -> at_ a' j = if j =? i then Z.lor (at_ a i) v else at_ a j) ->
  val a' = Z.lor (val a) (v * 2 ^ (32 * i)).
Proof.
  intros a i v a' W Hi Wv W' A. assert (P : 0 < 2 ^ (32 * i)) by (apply Z.pow_pos_nonneg; lia). unfold word in Wv. apply val_ext; [exact W'| |].
  - apply Z.lor_nonneg. split; [now apply val_nonneg|nia].
  - intros n Hn. assert (0 <= n / 32) by (apply Z.div_pos; lia). pose proof (Z.div_mod n 32) as DM. assert (0 <= n mod 32 < 32) by (apply Z.mod_pos_bound; lia).
    rewrite Z.lor_spec, val_bits, A by assumption. rewrite Z.mul_pow2_bits by lia. destruct (n / 32 =? i) eqn:E.
    + apply Z.eqb_eq in E. rewrite E, Z.lor_spec. f_equal. f_equal. lia.
    + destruct (Z_lt_le_dec (n / 32) i).
      * rewrite (Z.testbit_neg_r v) by lia. now rewrite Bool.orb_false_r.
      * rewrite (small_bits v 32) by (exact Wv || lia). now rewrite Bool.orb_false_r.
Qed.
Lemma from_loop_spec : forall s a q r, words a -> is_bytes s -> r = zlen s -> r < U32 -> r <= 4 * zlen a -> 0 <= q -> val a = q * 256 ^ r ->
  exists a', from_string_loop s a ((r - 1) / 4) ((r - 1) mod 4 * 8) = Some a' /\ words a' /\ zlen a' = zlen a /\ val a' = be_acc q s.
Proof.
  induction s as [|c s IH]; intros a q r W Bs Hr Rl Ra Hq V; cbn [from_string_loop].
  - exists a. split; [reflexivity|]. split; [exact W|]. split; [reflexivity|]. cbn [be_acc]. rewrite V, Hr, zlen_nil. cbn. lia.
  - inversion Bs as [|? ? Hc Hs]; subst. unfold is_byte in Hc. rewrite zlen_cons in *. pose proof (zlen_nonneg Z s) as Hn. set (n := zlen s) in *.
    replace (n + 1 - 1) with n by lia. assert (D0 : 0 <= n / 4) by (apply Z.div_pos; lia). assert (M0 : 0 <= n mod 4 < 4) by (apply Z.mod_pos_bound; lia).
    pose proof (Z.div_mod n 4 ltac:(lia)) as DM. assert (DA : n / 4 < zlen a) by (apply Z.div_lt_upper_bound; lia).
    rewrite rd_some by lia. rewrite Z.shiftl_mul_pow2 by lia. assert (P8 : 0 < 2 ^ (n mod 4 * 8)) by (apply Z.pow_pos_nonneg; lia).
    assert (P24 : 2 ^ (n mod 4 * 8) <= 2 ^ 24) by (apply Z.pow_le_mono_r; lia). assert (Wv : word (c * 2 ^ (n mod 4 * 8))) by (unfold word, U32; change (2 ^ 24) with 16777216 in P24; nia).
    rewrite u32_id by exact Wv.
    destruct (wr_some a (n / 4) (Z.lor (at_ a (n / 4)) (c * 2 ^ (n mod 4 * 8))) ltac:(lia)) as (a' & -> & La & A & WW).
    assert (W' : words a') by (apply WW; [exact W|]; apply (lor_small _ _ 32); [lia|now apply at_word|exact Wv]).
    assert (Va : val a' = (q * 256 + c) * 256 ^ n).
    { rewrite (val_lor a (n / 4) (c * 2 ^ (n mod 4 * 8)) a' W D0 Wv W' A). rewrite V. rewrite <- Z.mul_assoc, <- Z.pow_add_r by lia.
      replace (n mod 4 * 8 + 32 * (n / 4)) with (8 * n) by lia. replace (256 ^ (n + 1)) with (2 ^ (8 * (n + 1))) by (rewrite Z.pow_mul_r by lia; reflexivity).
      replace (256 ^ n) with (2 ^ (8 * n)) by (rewrite Z.pow_mul_r by lia; reflexivity). assert (0 < 2 ^ (8 * n)) by (apply Z.pow_pos_nonneg; lia).
      assert (X : 2 ^ (8 * (n + 1)) = 2 ^ (8 * n) * 256) by (replace (8 * (n + 1)) with (8 * n + 8) by lia; rewrite Z.pow_add_r by lia; reflexivity).
      rewrite lor_disjoint; [|lia|rewrite X; nia]. rewrite X. ring. }
    cbn [be_acc]. change (BITMAP_BITS - 8) with 24.
    assert (Goal1 : exists a'0, from_string_loop s a' ((n - 1) / 4) ((n - 1) mod 4 * 8) = Some a'0 /\ words a'0 /\ zlen a'0 = zlen a /\ val a'0 = be_acc (q * 256 + c) s).
    { rewrite <- La. apply IH; try assumption; try reflexivity; lia. }
    destruct (n mod 4 * 8 =? 0) eqn:Es.
    + destruct s as [|c2 s2]; [exact Goal1|]. assert (1 <= n) by (unfold n; rewrite zlen_cons; pose proof (zlen_nonneg Z s2); lia).
      assert (n mod 4 = 0) by lia. assert (E1 : (n - 1) / 4 = n / 4 - 1) by (symmetry; apply (Z.div_unique _ _ _ 3); lia).
      assert (E2 : (n - 1) mod 4 = 3) by (symmetry; apply (Z.mod_unique _ _ (n / 4 - 1)); lia). rewrite E1, E2 in Goal1.
      rewrite u64_id; [exact Goal1|]. assert (1 <= n / 4) by lia. unfold U64. unfold U32 in Rl. lia.
    + assert (E1 : (n - 1) / 4 = n / 4) by (symmetry; apply (Z.div_unique _ _ _ (n mod 4 - 1)); lia).
      assert (E2 : (n - 1) mod 4 = n mod 4 - 1) by (symmetry; apply (Z.mod_unique _ _ (n / 4)); lia). rewrite E1, E2 in Goal1.
      replace (n mod 4 * 8 - 8) with ((n mod 4 - 1) * 8) by lia. exact Goal1.
Qed.
Lemma from_spec : forall aok b N s, inv b N -> is_bytes s -> exists ok b', bitmap_from_string aok b s = Some (ok, b') /\
  if ok then zlen s <= 2097152 /\ inv b' (be_dec s) else (2097152 < zlen s \/ aok = false) /\ b' = b.
Proof.
  intros aok b N s I Bs. unfold bitmap_from_string. cbv zeta. change (BITMAP_MAX / 8) with 2097152. pose proof (zlen_nonneg Z s) as Hs.
  destruct (2097152 <? zlen s) eqn:E; [exists false, b; split; [reflexivity|]; split; [lia|reflexivity]|].
  rewrite u32_id by (unfold U32; lia). pose proof (reserve_spec aok b N (zlen s * 8) I ltac:(lia)) as R. destruct (reserve aok b (zlen s * 8)) as [b1|].
  2:{ exists false, b. split; [reflexivity|]. split; [|reflexivity]. unfold LIM in R. lia. }
  destruct R as (_ & I1 & _ & Lb & _). destruct (inv_zero b1 N I1) as [I2 L2]. pose proof I2 as (T & W & V & _).
  destruct (zlen s =? 0) eqn:E0.
  { exists true, (bitmap_zero b1). split; [reflexivity|]. split; [lia|]. rewrite (zlen_zero_nil _ s) by lia. exact I2. }
  change BITMAP_BYTES with 4. change (4 - 1) with 3.
  replace ((zlen s + 3) / 4 - 1) with ((zlen s - 1) / 4) by (replace (zlen s + 3) with (zlen s - 1 + 1 * 4) by lia; rewrite Z.div_add by lia; lia).
  replace ((zlen s + 3) mod 4) with ((zlen s - 1) mod 4) by (replace (zlen s + 3) with (zlen s - 1 + 1 * 4) by lia; now rewrite Z.mod_add by lia).
  assert (LL : zlen s <= 4 * zlen (d (bitmap_zero b1))).
  { unfold len in L2. unfold len in Lb. rewrite L2. assert (zlen s * 8 / 32 = zlen s / 4) as X by (change 32 with (4 * 8); apply Z.div_mul_cancel_r; lia). rewrite X in Lb. pose proof (Z.div_mod (zlen s) 4). pose proof (Z.mod_pos_bound (zlen s) 4). lia. }
  destruct (from_loop_spec s (d (bitmap_zero b1)) 0 (zlen s) W Bs eq_refl ltac:(unfold U32; lia) LL ltac:(lia) ltac:(rewrite V; lia)) as (a' & -> & W' & La & Va).
  change (be_acc 0 s) with (be_dec s) in Va. pose proof (be_dec_bound s Bs) as Bd.
  assert (BB : forall n, 8 * zlen s <= n -> Z.testbit (be_dec s) n = false).
  { intros n Hn. apply (small_bits _ (8 * zlen s)); [|exact Hn]. rewrite Z.pow_mul_r by lia. exact Bd. }
  assert (J : inv (mkB a' ((zlen s - 1) / 4)) (be_dec s)).
  { unfold inv, len; cbn [d top]. rewrite La. split; [split; [apply Z.div_pos; lia|apply Z.div_lt_upper_bound; lia]|]. split; [exact W'|]. split; [exact Va|].
    assert (0 <= (zlen s - 1) / 4) by (apply Z.div_pos; lia).
    split; [|intros n Hn; apply BB; unfold LIM in Hn; lia]. intros i Hi. apply at_zero; [exact W'|lia|]. intros n Hn. rewrite Va. apply BB.
    pose proof (Z.div_mod (zlen s - 1) 4). pose proof (Z.mod_pos_bound (zlen s - 1) 4). lia. }
  destruct (retop_spec _ _ J) as (b3 & -> & J3 & _). exists true, b3. split; [reflexivity|]. split; [lia|exact J3].
Qed.

Lemma bstep_spec : forall b N o, inv b N -> arg_ok o -> exists r b' N', bstep b o = Some (r, b') /\ inv b' N' /\ spec_step N o r N'.
Proof.
  intros b N o I A. destruct o as [n aok|n|n| | | |p|s aok]; cbn [arg_ok] in A; cbn [bstep spec_step].
  - destruct (set_spec aok b N n I A) as (ok & b' & -> & H). destruct ok; destruct H as [H1 H2].
    + exists (OInt 0), b', (Z.setbit N n). split; [reflexivity|]. split; [exact H2|]. left. auto.
    + subst b'. exists (OInt (-1)), b, N. split; [reflexivity|]. split; [exact I|]. right. auto.
  - destruct (clear_spec b N n I ltac:(lia)) as (b' & -> & J). eexists _, b', _. split; [reflexivity|]. split; [exact J|]. auto.
  - rewrite (test_spec b N n I) by lia. eexists _, b, N. split; [reflexivity|]. split; [exact I|]. auto.
  - eexists _, _, _. split; [reflexivity|]. split; [exact (proj1 (inv_zero b N I))|]. auto.
  - destruct (nbits_spec b N I) as (b' & -> & J & _). eexists _, b', N. split; [reflexivity|]. split; [exact J|]. auto.
  - destruct (nbytes_spec b N I) as (b' & -> & J & _). eexists _, b', N. split; [reflexivity|]. split; [exact J|]. auto.
  - destruct (to_string_spec b N p I) as (b' & ok & p' & -> & J & H). eexists _, b', N. split; [reflexivity|]. split; [exact J|]. split; [reflexivity|].
    destruct (zlen p <? bytes_of N); destruct H as [-> ->]; reflexivity.
  - destruct (from_spec aok b N s I (proj1 A)) as (ok & b' & -> & H). destruct ok; destruct H as [H1 H2].
    + eexists _, b', _. split; [reflexivity|]. split; [exact H2|]. left. auto.
    + subst b'. eexists _, b, N. split; [reflexivity|]. split; [exact I|]. right. auto.
Qed.
Lemma bruns_spec : forall os b N, inv b N -> Forall arg_ok os -> exists rs b' N', bruns b os = Some (rs, b') /\ inv b' N' /\ spec_run N os rs N'.
Proof.
  induction os as [|o os IH]; intros b N I A; cbn [bruns].
  - exists [], b, N. split; [reflexivity|]. split; [exact I|reflexivity].
  - inversion A as [|? ? A1 A2]; subst. destruct (bstep_spec b N o I A1) as (r & b1 & N1 & -> & I1 & S1).
    destruct (IH b1 N1 I1 A2) as (rs & b2 & N2 & -> & I2 & S2). exists (r :: rs), b2, N2. split; [reflexivity|]. split; [exact I2|]. cbn [spec_run]. now exists N1.
Qed.
