(** Proofs about the stream cipher: blocks, the loop, the initial state. *)
From Coq Require Import String.
From Verif Require Import Base Bits PolyModel PolySpec PolyProof PolyProof3 ChachaModel ChachaSpec ChachaProof.
Local Open Scope Z_scope.

(** ** Bytewise exclusive or *)
Fixpoint xorl (a b : list Z) : list Z :=
  match a, b with
  | x :: a', y :: b' => Z.lxor x y :: xorl a' b'
  | _, _ => []
  end.
Lemma xorl_nth : forall a b i, (i < length a)%nat -> (i < length b)%nat -> nth i (xorl a b) 0 = Z.lxor (nth i a 0) (nth i b 0).
Proof.
  induction a as [|x a IH]; intros [|y b] i Ha Hb; cbn [length] in *; try lia. destruct i; [reflexivity|].
  cbn [xorl nth]. apply IH; lia.
Qed.
Lemma xorl_len : forall a b, length a = length b -> length (xorl a b) = length a.
Proof. induction a as [|x a IH]; intros [|y b] H; cbn [length xorl] in *; try lia. rewrite IH; lia. Qed.
Lemma xorl_app : forall a a' b b', length a = length b -> xorl (a ++ a') (b ++ b') = xorl a b ++ xorl a' b'.
Proof. induction a as [|x a IH]; intros a' [|y b] b' H; cbn [length] in H; try lia; [reflexivity|]. cbn [app xorl]. rewrite IH by lia. reflexivity. Qed.

Lemma mod256_lxor : forall a b, Z.lxor a b mod 256 = Z.lxor (a mod 256) (b mod 256).
Proof.
  intros a b. change 256 with (2 ^ 8). apply Z.bits_inj'. intros i Hi. rewrite Z.lxor_spec. destruct (Z_lt_le_dec i 8).
  - rewrite !Z.mod_pow2_bits_low by lia. apply Z.lxor_spec.
  - now rewrite !Z.mod_pow2_bits_high by lia.
Qed.
Lemma div256_lxor : forall a b, Z.lxor a b / 256 = Z.lxor (a / 256) (b / 256).
Proof.
  intros a b. change 256 with (2 ^ 8). rewrite <- !Z.shiftr_div_pow2 by lia. apply Z.shiftr_lxor.
Qed.
Lemma le_bytes_xor : forall n a b, le_bytes n (Z.lxor a b) = xorl (le_bytes n a) (le_bytes n b).
Proof. induction n as [|n IH]; intros a b; [reflexivity|]. cbn [le_bytes xorl]. now rewrite mod256_lxor, div256_lxor, IH. Qed.
Lemma le_bytes_le : forall l, is_bytes l -> le_bytes (length l) (le l) = l.
Proof.
  induction l as [|x l IH]; intros H; [reflexivity|]. inversion H; subst. unfold is_byte in *. cbn [length le_bytes le].
  replace ((x + 256 * le l) mod 256) with x by (rewrite Z.mul_comm, Z.mod_add, Z.mod_small by lia; reflexivity).
  replace ((x + 256 * le l) / 256) with (le l) by (rewrite Z.mul_comm, Z.div_add, Z.div_small by lia; lia). now rewrite IH.
Qed.
Lemma le_bytes_len : forall n v, length (le_bytes n v) = n.
Proof. induction n; intros; cbn [le_bytes length]; auto. Qed.
Lemma load32_le4 : forall a b c d r, is_bytes (a :: b :: c :: d :: r) -> load32 (a :: b :: c :: d :: r) 0 = le [a; b; c; d].
Proof. intros. rewrite load32_cons by assumption. cbn [le]. unfold word. lia. Qed.
Lemma store_xor : forall w a b c d r, is_bytes (a :: b :: c :: d :: r) ->
  store32 (XOR w (load32 (a :: b :: c :: d :: r) 0)) = xorl (le_bytes 4 w) [a; b; c; d].
Proof.
  intros w a b c d r H. rewrite le_bytes4, load32_le4 by assumption. unfold XOR. rewrite le_bytes_xor. f_equal.
  change 4%nat with (length [a; b; c; d]). apply le_bytes_le. unfold is_bytes in *. change (a :: b :: c :: d :: r) with ([a; b; c; d] ++ r) in H.
  now apply is_bytes_app in H.
Qed.

(** ** One block *)
Fixpoint mixw (ws : list Z) (m : list Z) (i : Z) : list Z :=
  match ws with
  | [] => []
  | w :: r => store32 (XOR w (load32 m i)) ++ mixw r m (i + 4)
  end.
Lemma mixw_skip : forall ws a b c d m i, 0 <= i -> mixw ws (a :: b :: c :: d :: m) (i + 4) = mixw ws m i.
Proof.
  induction ws as [|w ws IH]; intros a b c d m i Hi; [reflexivity|]. cbn [mixw]. rewrite load32_skip by lia.
  replace (i + 4 - 4) with i by lia. now rewrite IH by lia.
Qed.
Lemma mixw_eq : forall ws m, is_bytes m -> length m = (4 * length ws)%nat -> mixw ws m 0 = xorl (words_bytes ws) m.
Proof.
  induction ws as [|w ws IH]; intros m Hm L; [reflexivity|]. cbn [length] in L.
  destruct m as [|a [|b [|c [|d m]]]]; cbn [length] in L; try lia. cbn [mixw words_bytes].
  rewrite store_xor by assumption. change (0 + 4) with (0 + 4). rewrite mixw_skip by lia. rewrite IH by (try lia; eapply four_tail; eassumption).
  change (a :: b :: c :: d :: m) with ([a; b; c; d] ++ m). now rewrite xorl_app by reflexivity.
Qed.
Lemma words_bytes_len : forall ws, length (words_bytes ws) = (4 * length ws)%nat.
Proof. induction ws as [|w ws IH]; [reflexivity|]. cbn [words_bytes]. rewrite app_length, le_bytes_len, IH. cbn [length]. lia. Qed.
Lemma sum_len : forall a b, length a = length b -> length (sum_words a b) = length a.
Proof. induction a as [|x a IH]; intros [|y b] H; cbn [length sum_words] in *; try lia. rewrite IH; lia. Qed.
Lemma iter_len : forall n x, wordy x -> length (Nat.iter n double_round (list_of x)) = 16%nat.
Proof. intros n x W. rewrite <- (proj2 (rounds_ok n x W)). reflexivity. Qed.
Lemma block_len : forall x, wordy x -> length (chacha_block (list_of x)) = 64%nat.
Proof. intros x W. unfold chacha_block. rewrite words_bytes_len, sum_len; rewrite iter_len by assumption; reflexivity. Qed.
Lemma block_ok : forall j m, wordy j -> is_bytes m -> zlen m = 64 -> block j m = xorl (chacha_block (list_of j)) m.
Proof.
  intros j m W Hm L. unfold chacha_block. rewrite <- mixw_eq; [|exact Hm|].
  2:{ rewrite sum_len; rewrite iter_len by assumption; [unfold zlen in L; lia|reflexivity]. }
  rewrite <- (proj2 (rounds_ok 10 j W)). unfold block. destruct (Nat.iter 10 two_rounds j) as [x0 x1 x2 x3 x4 x5 x6 x7 x8 x9 x10 x11 x12 x13 x14 x15].
  destruct j as [j0 j1 j2 j3 j4 j5 j6 j7 j8 j9 j10 j11 j12 j13 j14 j15]. unfold list_of. cbn [i0 i1 i2 i3 i4 i5 i6 i7 i8 i9 i10 i11 i12 i13 i14 i15]. cbn [sum_words mixw]. rewrite app_nil_r. reflexivity.
Qed.

(** ** The loop *)
Definition starts (key nonce : list Z) (ctr : Z) (x : chacha_ctx) : Prop := wordy x /\ list_of x = start_state key ctr nonce.
(** The part of the state before and after the counter. *)
Definition front (key : list Z) : list Z :=
  if zlen key =? 32 then words (bs "expand 32-byte k") ++ words key else words (bs "expand 16-byte k") ++ words key ++ words key.
Lemma starts_inv : forall key nonce ctr x, length (front key) = 12%nat -> starts key nonce ctr x ->
  front key = [i0 x; i1 x; i2 x; i3 x; i4 x; i5 x; i6 x; i7 x; i8 x; i9 x; i10 x; i11 x] /\
  i12 x = ctr mod 2 ^ 32 /\ i13 x = (ctr / 2 ^ 32) mod 2 ^ 32 /\ words nonce = [i14 x; i15 x].
Proof.
  intros key nonce ctr x F [W E]. unfold start_state in E. fold (front key) in E. unfold list_of in E.
  pose proof (f_equal (firstn 12) E) as E1. pose proof (f_equal (skipn 12) E) as E2.
  rewrite firstn_app, F in E1. rewrite (@firstn_all2 Z 12 (front key)) in E1 by lia. rewrite Nat.sub_diag, firstn_O, app_nil_r in E1.
  rewrite skipn_app, F in E2. rewrite (@skipn_all2 Z 12 (front key)) in E2 by lia. rewrite Nat.sub_diag, skipn_O in E2.
  cbn [firstn] in E1. cbn [skipn app] in E2. pose proof (f_equal (fun l => nth 0 l 0) E2) as H12. pose proof (f_equal (fun l => nth 1 l 0) E2) as H13.
  pose proof (f_equal (skipn 2) E2) as H14. cbn [nth skipn] in H12, H13, H14. auto.
Qed.
Lemma starts_intro : forall key nonce ctr x, 
  front key = [i0 x; i1 x; i2 x; i3 x; i4 x; i5 x; i6 x; i7 x; i8 x; i9 x; i10 x; i11 x] ->
  i12 x = ctr mod 2 ^ 32 -> i13 x = (ctr / 2 ^ 32) mod 2 ^ 32 -> words nonce = [i14 x; i15 x] -> list_of x = start_state key ctr nonce.
Proof.
  intros key nonce ctr x F H12 H13 N. unfold start_state. fold (front key). rewrite F, N, <- H12, <- H13. reflexivity.
Qed.
Lemma bump_ok : forall key nonce ctr x, length (front key) = 12%nat -> starts key nonce ctr x -> starts key nonce (ctr + 1) (bump x).
Proof.
  intros key nonce ctr x F S. destruct (starts_inv _ _ _ _ F S) as (A & B & C & D). destruct S as [W E].
  destruct x as [j0 j1 j2 j3 j4 j5 j6 j7 j8 j9 j10 j11 j12 j13 j14 j15]. cbn [i0 i1 i2 i3 i4 i5 i6 i7 i8 i9 i10 i11 i12 i13 i14 i15] in *. unfold bump. unfold wordy, list_of in W. cbn [i0 i1 i2 i3 i4 i5 i6 i7 i8 i9 i10 i11 i12 i13 i14 i15] in W.
  unfold PLUSONE, PLUS, u32, U32. change 4294967296 with (2 ^ 32).
  assert (H12 : (j12 + 1) mod 2 ^ 32 = (ctr + 1) mod 2 ^ 32) by (rewrite B; rewrite Z.add_mod_idemp_l by lia; reflexivity).
  assert (H13 : (if (j12 + 1) mod 2 ^ 32 =? 0 then (j13 + 1) mod 2 ^ 32 else j13) = ((ctr + 1) / 2 ^ 32) mod 2 ^ 32).
  { rewrite H12. subst j12 j13. rewrite Z.add_mod_idemp_l by lia. clear. change (2 ^ 32) with 4294967296.
    destruct ((ctr + 1) mod 4294967296 =? 0) eqn:Z0.
    - replace ((ctr + 1) / 4294967296) with (ctr / 4294967296 + 1) by (Z.to_euclidean_division_equations; lia). reflexivity.
    - replace ((ctr + 1) / 4294967296) with (ctr / 4294967296) by (Z.to_euclidean_division_equations; lia). reflexivity. }
  split.
  - unfold wordy, list_of. cbn [i0 i1 i2 i3 i4 i5 i6 i7 i8 i9 i10 i11 i12 i13 i14 i15].
    repeat match goal with H : Forall isw (_ :: _) |- _ => apply Forall_cons_iff in H; destruct H as [? H] end.
    rewrite H13. repeat (apply Forall_cons; [assumption || apply mod_word|]). apply Forall_nil.
  - apply starts_intro; cbn [i0 i1 i2 i3 i4 i5 i6 i7 i8 i9 i10 i11 i12 i13 i14 i15]; assumption.
Qed.

Lemma nth_ztake : forall n (l : list Z) i, (i < Z.to_nat n)%nat -> nth i (ztake n l) 0 = nth i l 0.
Proof.
  intros n l i H. unfold ztake. generalize dependent (Z.to_nat n). intros k. revert l i.
  induction k; intros l i H; [lia|]. destruct l; [destruct i; reflexivity|]. destruct i; [reflexivity|]. cbn [firstn nth]. apply IHk. lia.
Qed.
Lemma nth_zdrop : forall n (l : list Z) i, nth i (zdrop n l) 0 = nth (Z.to_nat n + i) l 0.
Proof.
  intros n l i. unfold zdrop. generalize (Z.to_nat n). intros k. revert l. induction k; intros l; [reflexivity|].
  destruct l; [destruct i; reflexivity|]. cbn [skipn Nat.add nth]. apply IHk.
Qed.
Lemma loop_ok : forall fuel key nonce ctr j m tmp, length (front key) = 12%nat -> (length m < fuel)%nat -> is_bytes m -> is_bytes tmp -> zlen tmp = 64 ->
  m <> [] -> starts key nonce ctr j ->
  exists j' c, encrypt_loop fuel j m tmp = Some (j', c) /\ ciphers key nonce ctr m c /\ is_bytes c /\
    starts key nonce (ctr + (zlen m + 63) / 64) j'.
Proof.
  induction fuel as [|fuel IH]; intros key nonce ctr j m tmp F Fu Hm Ht Lt Ne S; [lia|]. cbn [encrypt_loop].
  assert (XB : forall a b, is_bytes a -> is_bytes b -> is_bytes (xorl a b)).
  { clear. induction a as [|x a IH]; intros [|y b] Ha Hb; try constructor.
    - inversion Ha; inversion Hb; subst. unfold is_byte in *. change 256 with (2 ^ 8) in *. now apply lxor_small.
    - apply IH; [now apply Forall_inv_tail in Ha|now apply Forall_inv_tail in Hb]. }
  assert (WB : forall ws, is_bytes (words_bytes ws)).
  { clear. assert (B : forall n v, is_bytes (le_bytes n v)).
    { induction n; intros v; cbn [le_bytes]; constructor; [|apply IHn]. unfold is_byte. apply Z.mod_pos_bound. lia. }
    induction ws; cbn [words_bytes]; [constructor|]. apply is_bytes_app. split; [apply B|exact IHws]. }
  assert (ML : zlen m > 0) by (destruct m; [congruence|rewrite zlen_cons; pose proof (zlen_nonneg _ m); lia]).
  destruct S as [W E].
  destruct (zlen m <? 64) eqn:E64.
  - eexists _, _. split; [reflexivity|].
    assert (Lm : zlen (m ++ zdrop (zlen m) tmp) = 64) by (rewrite zlen_app, zlen_zdrop; pose proof (zlen_nonneg _ m); lia).
    assert (Bm : is_bytes (m ++ zdrop (zlen m) tmp)) by (apply is_bytes_app; split; [exact Hm|now apply is_bytes_zdrop]).
    rewrite block_ok by assumption. rewrite E.
    assert (LB : length (chacha_block (start_state key ctr nonce)) = 64%nat) by (rewrite <- E; now apply block_len).
    assert (LX : zlen (xorl (chacha_block (start_state key ctr nonce)) (m ++ zdrop (zlen m) tmp)) = 64).
    { unfold zlen at 1. rewrite xorl_len; [lia|]. unfold zlen in Lm at 1. lia. }
    split; [split|split].
    + rewrite zlen_ztake; [reflexivity|]. rewrite LX. lia.
    + intros i Hi. rewrite nth_ztake by lia. rewrite xorl_nth; [|lia|unfold zlen in Lm at 1; lia].
      rewrite Z.lxor_comm. f_equal.
      * rewrite app_nth1 by (unfold zlen in Hi; lia). reflexivity.
      * unfold keystream. rewrite Z.mod_small by lia. rewrite Z.div_small by lia. now rewrite Z.add_0_r.
    + apply is_bytes_ztake. apply XB; [apply WB|exact Bm].
    + replace ((zlen m + 63) / 64) with 1 by (Z.to_euclidean_division_equations; lia). apply bump_ok; [exact F|now split].
  - assert (Lm : zlen (ztake 64 m) = 64) by (apply zlen_ztake; lia).
    rewrite block_ok by (try assumption; now apply is_bytes_ztake). rewrite E.
    assert (LB : length (chacha_block (start_state key ctr nonce)) = 64%nat) by (rewrite <- E; now apply block_len).
    assert (LX : length (xorl (chacha_block (start_state key ctr nonce)) (ztake 64 m)) = 64%nat).
    { rewrite xorl_len; [lia|]. unfold zlen in Lm. lia. }
    assert (HB : is_bytes (xorl (chacha_block (start_state key ctr nonce)) (ztake 64 m))) by (apply XB; [apply WB|now apply is_bytes_ztake]).
    assert (HN : forall i, 0 <= i < 64 -> nth (Z.to_nat i) (xorl (chacha_block (start_state key ctr nonce)) (ztake 64 m)) 0 =
      Z.lxor (nth (Z.to_nat i) m 0) (keystream key nonce ctr i)).
    { intros i Hi. rewrite xorl_nth; [|lia|unfold zlen in Lm; lia]. rewrite Z.lxor_comm. rewrite nth_ztake by lia. f_equal.
      unfold keystream. rewrite Z.mod_small by lia. rewrite Z.div_small by lia. now rewrite Z.add_0_r. }
    destruct (zlen m <=? 64) eqn:E65.
    + assert (L64 : zlen m = 64) by lia. eexists _, _. split; [reflexivity|]. split; [split|split].
      * unfold zlen at 1. rewrite LX. lia.
      * intros i Hi. apply HN. lia.
      * exact HB.
      * rewrite L64. change ((64 + 63) / 64) with 1. apply bump_ok; [exact F|now split].
    + destruct (IH key nonce (ctr + 1) (bump j) (zdrop 64 m) tmp F) as (j' & c & E1 & [E2 E3] & E4 & E5); try assumption.
      * unfold zdrop. rewrite skipn_length. unfold zlen in E64. lia.
      * now apply is_bytes_zdrop.
      * intros Q. apply (f_equal zlen) in Q. rewrite zlen_zdrop, zlen_nil in Q by lia. lia.
      * apply bump_ok; [exact F|now split].
      * rewrite zlen_zdrop in E2, E3, E5 by lia. rewrite E1. eexists _, _. split; [reflexivity|]. split; [split|split].
        { rewrite zlen_app. unfold zlen at 1. rewrite LX. lia. }
        { intros i Hi. destruct (Z_lt_le_dec i 64).
          - rewrite app_nth1 by lia. apply HN. lia.
          - rewrite app_nth2 by lia. rewrite LX. specialize (E3 (i - 64) ltac:(lia)).
            replace (Z.to_nat i - 64)%nat with (Z.to_nat (i - 64)) by lia. rewrite E3. rewrite nth_zdrop.
            replace (Z.to_nat 64 + Z.to_nat (i - 64))%nat with (Z.to_nat i) by lia. f_equal. unfold keystream.
            replace ((i - 64) mod 64) with (i mod 64) by (Z.to_euclidean_division_equations; lia).
            replace (ctr + 1 + (i - 64) / 64) with (ctr + i / 64) by (Z.to_euclidean_division_equations; lia). reflexivity. }
        { apply is_bytes_app. now split. }
        { replace (ctr + (zlen m + 63) / 64) with (ctr + 1 + (zlen m - 64 + 63) / 64) by (Z.to_euclidean_division_equations; lia). exact E5. }
Qed.
Lemma encrypt_ok : forall key nonce ctr x m tmp, length (front key) = 12%nat -> is_bytes m -> is_bytes tmp -> zlen tmp = 64 ->
  starts key nonce ctr x ->
  exists x' c, chacha_encrypt_bytes x m tmp = Some (x', c) /\ ciphers key nonce ctr m c /\ is_bytes c /\
    starts key nonce (ctr + (zlen m + 63) / 64) x'.
Proof.
  intros key nonce ctr x m tmp F Hm Ht Lt S. unfold chacha_encrypt_bytes. destruct (zlen m =? 0) eqn:E.
  - apply Z.eqb_eq in E. apply zlen_zero_nil in E. subst. exists x, []. split; [reflexivity|].
    split; [split; [reflexivity|intros i Hi; rewrite zlen_nil in Hi; lia]|]. split; [constructor|].
    rewrite zlen_nil. change ((0 + 63) / 64) with 0. now rewrite Z.add_0_r.
  - apply loop_ok; try assumption; [lia|]. intros ->. discriminate.
Qed.

(** ** The initial state *)
Fixpoint loads (l : list Z) (i : Z) (n : nat) : list Z :=
  match n with O => [] | S k => load32 l i :: loads l (i + 4) k end.
Lemma loads_skip : forall n a b c d l i, 0 <= i -> loads (a :: b :: c :: d :: l) (i + 4) n = loads l i n.
Proof.
  induction n as [|n IH]; intros a b c d l i Hi; [reflexivity|]. cbn [loads]. rewrite load32_skip by lia.
  replace (i + 4 - 4) with i by lia. now rewrite IH by lia.
Qed.
Lemma words_loads : forall n l, is_bytes l -> length l = (4 * n)%nat -> words l = loads l 0 n.
Proof.
  induction n as [|n IH]; intros l Hl L.
  - destruct l; [reflexivity|cbn [length] in L; lia].
  - destruct l as [|a [|b [|c [|d l]]]]; cbn [length] in L; try lia. cbn [words loads]. rewrite load32_le4 by assumption.
    change 4 with (0 + 4) at 1. rewrite loads_skip by lia. rewrite <- IH; [reflexivity|eapply four_tail; eassumption|lia].
Qed.
Lemma bs_bytes : is_bytes sigma /\ is_bytes tau.
Proof. split; repeat (apply Forall_cons; [unfold is_byte; cbn; lia|]); apply Forall_nil. Qed.
Lemma front_len : forall key, is_bytes key -> zlen key = 32 \/ zlen key = 16 -> length (front key) = 12%nat.
Proof.
  intros key Hk [L|L]; unfold front; rewrite L.
  - change (32 =? 32) with true. cbv iota. rewrite (words_loads 8 key) by (unfold zlen in L; lia || assumption). reflexivity.
  - change (16 =? 32) with false. cbv iota. rewrite (words_loads 4 key) by (unfold zlen in L; lia || assumption). reflexivity.
Qed.
Lemma load_isw : forall p i, is_bytes p -> isw (load32 p i).
Proof. intros p i H. exact (load32_bound p i H). Qed.
(** A context whose first twelve words are those of [key]. *)
Definition keyed (key : list Z) (x : chacha_ctx) : Prop :=
  wordy x /\ front key = [i0 x; i1 x; i2 x; i3 x; i4 x; i5 x; i6 x; i7 x; i8 x; i9 x; i10 x; i11 x].
Lemma keysetup_ok : forall x key, wordy x -> is_bytes key -> zlen key = 32 \/ zlen key = 16 -> keyed key (chacha_keysetup x key (8 * zlen key)).
Proof.
  intros x key W Hk L. unfold wordy, list_of in W.
  repeat match goal with H : Forall isw (_ :: _) |- _ => apply Forall_cons_iff in H; destruct H as [? H] end.
  pose proof bs_bytes as [Bs Bt]. split.
  - unfold wordy, list_of, chacha_keysetup. cbn [i0 i1 i2 i3 i4 i5 i6 i7 i8 i9 i10 i11 i12 i13 i14 i15].
    assert (is_bytes (if 8 * zlen key =? 256 then zdrop 16 key else key)) by (destruct (_ =? _); [now apply is_bytes_zdrop|exact Hk]).
    assert (is_bytes (if 8 * zlen key =? 256 then sigma else tau)) by (destruct (_ =? _); assumption).
    repeat (apply Forall_cons; [assumption || now apply load_isw|]). apply Forall_nil.
  - unfold chacha_keysetup, front. cbn [i0 i1 i2 i3 i4 i5 i6 i7 i8 i9 i10 i11 i12 i13 i14 i15]. destruct L as [L|L]; rewrite L.
    + change (32 =? 32) with true. change (8 * 32 =? 256) with true. cbv iota.
      rewrite (words_loads 8 key) by (unfold zlen in L; lia || assumption). fold sigma. rewrite (words_loads 4 sigma) by (reflexivity || assumption).
      cbn [loads app]. rewrite !load32_drop by lia. reflexivity.
    + change (16 =? 32) with false. change (8 * 16 =? 256) with false. cbv iota.
      rewrite (words_loads 4 key) by (unfold zlen in L; lia || assumption). fold tau. rewrite (words_loads 4 tau) by (reflexivity || assumption).
      reflexivity.
Qed.
Lemma ivsetup_ok : forall key x iv co, keyed key x -> is_bytes iv -> zlen iv = 8 -> 
  (forall c, co = Some c -> is_bytes c /\ zlen c = 8) ->
  starts key iv (match co with None => 0 | Some c => le c end) (chacha_ivsetup x iv co).
Proof.
  intros key x iv co [W F] Hi Li Hc. unfold wordy, list_of in W.
  repeat match goal with H : Forall isw (_ :: _) |- _ => apply Forall_cons_iff in H; destruct H as [? H] end.
  split.
  - unfold wordy, list_of, chacha_ivsetup. cbn [i0 i1 i2 i3 i4 i5 i6 i7 i8 i9 i10 i11 i12 i13 i14 i15].
    assert (isw (match co with None => 0 | Some c => load32 c 0 end)) by (destruct co as [c|]; [apply load_isw; now apply Hc|unfold isw; lia]).
    assert (isw (match co with None => 0 | Some c => load32 c 4 end)) by (destruct co as [c|]; [apply load_isw; now apply Hc|unfold isw; lia]).
    repeat (apply Forall_cons; [assumption || now apply load_isw|]). apply Forall_nil.
  - apply starts_intro; unfold chacha_ivsetup; cbn [i0 i1 i2 i3 i4 i5 i6 i7 i8 i9 i10 i11 i12 i13 i14 i15].
    + exact F.
    + destruct co as [c|]; [|reflexivity]. destruct (Hc c eq_refl) as [Bc Lc]. unfold zlen in Lc.
      destruct c as [|a [|b [|c [|d c']]]]; cbn [length] in Lc; try lia. rewrite load32_cons, le_word by assumption.
      rewrite Z.mul_comm, Z.mod_add by lia. symmetry. apply Z.mod_small. rewrite <- (load32_cons a b c d c' Bc). apply (load_isw _ 0 Bc).
    + destruct co as [c|]; [|reflexivity]. destruct (Hc c eq_refl) as [Bc Lc]. unfold zlen in Lc.
      destruct c as [|a [|b [|c [|d c']]]]; cbn [length] in Lc; try lia. rewrite le_word.
      pose proof (load_isw _ 0 Bc) as B0. rewrite load32_cons in B0 by assumption. unfold isw in B0.
      rewrite Z.mul_comm, Z.div_add by lia. rewrite Z.div_small by (change (2 ^ 32) with 4294967296; lia). rewrite Z.add_0_l.
      rewrite load32_skip by lia. change (4 - 4) with 0. pose proof (four_tail _ _ _ _ _ Bc) as Bc'.
      destruct c' as [|a' [|b' [|d' [|e' c'']]]]; cbn [length] in Lc; try lia. destruct c''; [|cbn [length] in Lc; lia].
      pose proof (load_isw _ 0 Bc') as B1. rewrite load32_cons in * by assumption. unfold isw in B1. rewrite le_word. cbn [le].
      symmetry. rewrite Z.mul_0_r, Z.add_0_r. apply Z.mod_small. exact B1.
    + rewrite (words_loads 2 iv) by (unfold zlen in Li; lia || assumption). reflexivity.
Qed.
Lemma starts_keyed : forall key nonce ctr x, length (front key) = 12%nat -> starts key nonce ctr x -> keyed key x.
Proof. intros key nonce ctr x F S. destruct (starts_inv _ _ _ _ F S) as (A & _). split; [exact (proj1 S)|exact A]. Qed.
