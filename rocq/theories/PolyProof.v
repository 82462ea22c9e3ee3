(** Proofs about poly1305_auth: words, limbs and bounds. *)
From Verif Require Import Base Bits PolyModel PolySpec.

Local Ltac zdm := Z.to_euclidean_division_equations.

Lemma lor_add : forall a b k, 0 <= k -> 0 <= a < 2 ^ k -> Z.lor a (b * 2 ^ k) = a + b * 2 ^ k.
Proof. intros. rewrite Z.lor_comm, lor_disjoint by lia. lia. Qed.
Lemma land26 : forall x, Z.land x 0x3ffffff = x mod 67108864.
Proof. intros. change 0x3ffffff with (2 ^ 26 - 1). now rewrite land_low by lia. Qed.
Lemma shr_div : forall x n, 0 <= n -> shr x n = x / 2 ^ n.
Proof. intros. unfold shr. now apply Z.shiftr_div_pow2. Qed.
Lemma shl32_eq : forall x n, 0 <= n <= 32 -> shl32 x n = (x mod 2 ^ (32 - n)) * 2 ^ n.
Proof.
  intros x n Hn. unfold shl32, u32, U32. rewrite Z.shiftl_mul_pow2 by lia.
  change 4294967296 with (2 ^ 32). replace (2 ^ 32) with (2 ^ (32 - n) * 2 ^ n) by (rewrite <- Z.pow_add_r by lia; f_equal; lia).
  assert (0 < 2 ^ n) by (apply Z.pow_pos_nonneg; lia). assert (0 < 2 ^ (32 - n)) by (apply Z.pow_pos_nonneg; lia).
  now rewrite Z.mul_mod_distr_r by lia.
Qed.
Lemma shl64_32 : forall x, 0 <= x < U32 -> shl64 x 32 = x * 2 ^ 32.
Proof.
  intros x Hx. unfold shl64, u64, U64, U32 in *. rewrite Z.shiftl_mul_pow2 by lia. apply Z.mod_small. lia.
Qed.

(** ** Loading and storing words *)
Definition word (a b c d : Z) : Z := a + 256 * b + 65536 * c + 16777216 * d.
Lemma load32_word : forall p i, is_byte (at_ p i) -> is_byte (at_ p (i + 1)) -> is_byte (at_ p (i + 2)) -> is_byte (at_ p (i + 3)) ->
  load32 p i = word (at_ p i) (at_ p (i + 1)) (at_ p (i + 2)) (at_ p (i + 3)).
Proof.
  intros p i Ha Hb Hc Hd. unfold load32, word, is_byte in *.
  set (a := at_ p i) in *. set (b := at_ p (i + 1)) in *. set (c := at_ p (i + 2)) in *. set (d := at_ p (i + 3)) in *.
  rewrite !shl32_eq by lia. rewrite !Z.mod_small by (change (2 ^ (32 - 8)) with 16777216 || change (2 ^ (32 - 16)) with 65536 || change (2 ^ (32 - 24)) with 256; lia).
  rewrite (lor_add a b 8) by (change (2 ^ 8) with 256; lia).
  rewrite (lor_add _ c 16) by (change (2 ^ 16) with 65536; change (2 ^ 8) with 256; lia).
  rewrite (lor_add _ d 24) by (change (2 ^ 24) with 16777216; change (2 ^ 16) with 65536; change (2 ^ 8) with 256; lia).
  change (2 ^ 24) with 16777216; change (2 ^ 16) with 65536; change (2 ^ 8) with 256. lia.
Qed.
Lemma at_byte : forall p i, is_bytes p -> is_byte (at_ p i).
Proof.
  intros p i H. unfold at_. destruct (nth_in_or_default (Z.to_nat i) p 0) as [I|E].
  - unfold is_bytes in H. rewrite Forall_forall in H. now apply H.
  - rewrite E. unfold is_byte. lia.
Qed.
Lemma load32_eq : forall p i, is_bytes p ->
  load32 p i = word (at_ p i) (at_ p (i + 1)) (at_ p (i + 2)) (at_ p (i + 3)).
Proof. intros p i H. apply load32_word; now apply at_byte. Qed.
Lemma load32_bound : forall p i, is_bytes p -> 0 <= load32 p i < U32.
Proof.
  intros p i H. rewrite load32_eq by assumption. pose proof (at_byte p i H). pose proof (at_byte p (i + 1) H).
  pose proof (at_byte p (i + 2) H). pose proof (at_byte p (i + 3) H). unfold word, is_byte, U32 in *. lia.
Qed.

(** Sixteen bytes as four words. *)
Definition quad (a b c d : Z) : Z := a + 2 ^ 32 * b + 2 ^ 64 * c + 2 ^ 96 * d.
Lemma at_0 : forall p x, at_ (x :: p) 0 = x.
Proof. reflexivity. Qed.
Lemma at_S : forall p x i, 0 < i -> at_ (x :: p) i = at_ p (i - 1).
Proof. intros p x i H. unfold at_. replace (Z.to_nat i) with (S (Z.to_nat (i - 1))) by lia. reflexivity. Qed.
Lemma at_drop : forall p i, 0 <= i -> at_ p i = at_ (zdrop i p) 0.
Proof.
  intros p i H. unfold at_, zdrop. change (Z.to_nat 0) with 0%nat. generalize (Z.to_nat i) as n. clear. intros n. revert p.
  induction n; intros p; [reflexivity|]. destruct p; [reflexivity|]. cbn [nth skipn]. apply IHn.
Qed.
Lemma le_word : forall a b c d r, le (a :: b :: c :: d :: r) = word a b c d + 2 ^ 32 * le r.
Proof. intros. cbn [le]. unfold word. change (2 ^ 32) with 4294967296. lia. Qed.
Lemma load32_cons : forall a b c d r, is_bytes (a :: b :: c :: d :: r) -> load32 (a :: b :: c :: d :: r) 0 = word a b c d.
Proof. intros. now rewrite load32_eq by assumption. Qed.
Lemma load32_skip : forall a b c d r i, 4 <= i -> load32 (a :: b :: c :: d :: r) i = load32 r (i - 4).
Proof.
  intros a b c d r i H. unfold load32. rewrite !at_S by lia.
  replace (i - 1 - 1 - 1 - 1) with (i - 4) by lia. replace (i + 1 - 1 - 1 - 1 - 1) with (i - 4 + 1) by lia.
  replace (i + 2 - 1 - 1 - 1 - 1) with (i - 4 + 2) by lia. replace (i + 3 - 1 - 1 - 1 - 1) with (i - 4 + 3) by lia. reflexivity.
Qed.
Lemma four_tail : forall a b c d r, is_bytes (a :: b :: c :: d :: r) -> is_bytes r.
Proof. intros a b c d r H. unfold is_bytes in *. do 4 apply Forall_inv_tail in H. exact H. Qed.
Lemma quad_le : forall m, is_bytes m -> zlen m >= 16 ->
  quad (load32 m 0) (load32 m 4) (load32 m 8) (load32 m 12) = le (ztake 16 m).
Proof.
  intros m Hm L. unfold zlen in L. do 16 (destruct m as [|? m]; [cbn [length] in L; lia|]). clear L.
  pose proof (four_tail _ _ _ _ _ Hm) as Hm1. pose proof (four_tail _ _ _ _ _ Hm1) as Hm2. pose proof (four_tail _ _ _ _ _ Hm2) as Hm3.
  rewrite (load32_skip _ _ _ _ _ 4), (load32_skip _ _ _ _ _ 8), (load32_skip _ _ _ _ _ 12) by lia.
  change (4 - 4) with 0. change (8 - 4) with 4. change (12 - 4) with 8.
  rewrite (load32_skip _ _ _ _ _ 4), (load32_skip _ _ _ _ _ 8) by lia. change (4 - 4) with 0. change (8 - 4) with 4.
  rewrite (load32_skip _ _ _ _ _ 4) by lia. change (4 - 4) with 0.
  rewrite (load32_cons _ _ _ _ _ Hm), (load32_cons _ _ _ _ _ Hm1), (load32_cons _ _ _ _ _ Hm2), (load32_cons _ _ _ _ _ Hm3).
  unfold ztake. change (Z.to_nat 16) with 16%nat. cbn [firstn]. rewrite !le_word. cbn [le]. unfold quad. ring.
Qed.
Lemma load32_drop : forall p k i, 0 <= k -> 0 <= i -> load32 (zdrop k p) i = load32 p (k + i).
Proof.
  intros p k i Hk Hi. unfold load32.
  assert (E : forall j, 0 <= j -> at_ (zdrop k p) j = at_ p (k + j)).
  { intros j Hj. rewrite (at_drop (zdrop k p) j), (at_drop p (k + j)) by lia. rewrite zdrop_zdrop by lia. now rewrite (Z.add_comm j k). }
  rewrite !E by lia. now rewrite !Z.add_assoc.
Qed.

Lemma le_app : forall a b, le (a ++ b) = le a + 256 ^ zlen a * le b.
Proof.
  induction a as [|x a IH]; intros b; [cbn [app le]; rewrite zlen_nil; lia|].
  cbn [app le]. rewrite IH, zlen_cons, Z.pow_add_r by (pose proof (zlen_nonneg Z a); lia). lia.
Qed.
Lemma le_bound : forall l, is_bytes l -> 0 <= le l < 256 ^ zlen l.
Proof.
  induction l as [|x l IH]; intros H; [cbn [le]; rewrite zlen_nil; lia|].
  inversion H; subst. specialize (IH H3). unfold is_byte in *. cbn [le]. rewrite zlen_cons, Z.pow_add_r by (pose proof (zlen_nonneg Z l); lia). lia.
Qed.
Lemma le_repeat0 : forall n, le (repeat 0 n) = 0.
Proof. induction n; cbn [repeat le]; lia. Qed.

(** ** Limbs *)
Definition val (h : limbs) : Z := l0 h + 2 ^ 26 * l1 h + 2 ^ 52 * l2 h + 2 ^ 78 * l3 h + 2 ^ 104 * l4 h.
Definition XMAX : Z := 2900000000.
(** Bounds kept between blocks, and those reached after adding a block. *)
Definition kept (h : limbs) : Prop :=
  0 <= l0 h <= XMAX /\ 0 <= l1 h < 67108864 /\ 0 <= l2 h < 67108864 /\ 0 <= l3 h < 67108864 /\ 0 <= l4 h < 67108864.
Definition loaded (h : limbs) : Prop :=
  0 <= l0 h <= XMAX + 67108864 /\ 0 <= l1 h <= 134217728 /\ 0 <= l2 h <= 134217728 /\ 0 <= l3 h <= 134217728 /\ 0 <= l4 h <= 100663296.
Definition rbound (r : limbs) : Prop :=
  0 <= l0 r <= 0x3ffffff /\ 0 <= l1 r <= 0x3ffff03 /\ 0 <= l2 r <= 0x3ffc0ff /\ 0 <= l3 r <= 0x3f03fff /\ 0 <= l4 r <= 0xfffff.

Lemma limb_mid : forall lo hi n, 0 <= lo < U32 -> 0 <= hi < U32 -> 0 <= n ->
  Z.land (shr (Z.lor (shl64 hi 32) lo) n) 0x3ffffff = ((hi * 4294967296 + lo) / 2 ^ n) mod 67108864.
Proof.
  intros lo hi n Hl Hh Hn. rewrite land26, shr_div, shl64_32 by lia. rewrite lor_disjoint by (unfold U32 in *; lia).
  reflexivity.
Qed.
Lemma add_block_ok : forall h m hib, kept h -> is_bytes m -> zlen m >= 16 -> hib = 0 \/ hib = Z.shiftl 1 24 ->
  loaded (add_block h m hib) /\ val (add_block h m hib) = val h + le (ztake 16 m) + 2 ^ 104 * hib.
Proof.
  intros h m hib K Hm L Hh. rewrite <- (quad_le m Hm L). pose proof (load32_bound m 0 Hm). pose proof (load32_bound m 4 Hm).
  pose proof (load32_bound m 8 Hm). pose proof (load32_bound m 12 Hm). unfold add_block.
  set (t0 := load32 m 0) in *. set (t1 := load32 m 4) in *. set (t2 := load32 m 8) in *. set (t3 := load32 m 12) in *.
  clearbody t0 t1 t2 t3. rewrite !limb_mid by (assumption || lia). rewrite land26, shr_div by lia.
  assert (E4 : Z.lor (t3 / 2 ^ 8) hib = t3 / 256 + hib).
  { change (2 ^ 8) with 256. unfold U32 in *. destruct Hh as [-> | ->]; [rewrite Z.lor_0_r; lia|].
    change (Z.shiftl 1 24) with (1 * 2 ^ 24). apply lor_add; [lia|]. change (2 ^ 24) with 16777216. zdm. lia. }
  rewrite E4. assert (Hb : 0 <= hib <= 16777216) by (destruct Hh as [-> | ->]; [lia|change (Z.shiftl 1 24) with 16777216; lia]).
  clear E4 Hh. destruct h as [h0 h1 h2 h3 h4]. unfold kept, loaded, val, XMAX in *. cbn [l0 l1 l2 l3 l4] in *.
  destruct K as (K0 & K1 & K2 & K3 & K4). unfold quad, u32, U32 in *.
  change (2 ^ 26) with 67108864. change (2 ^ 20) with 1048576. change (2 ^ 14) with 16384.
  set (a0 := t0 mod 67108864). set (a1 := ((t1 * 4294967296 + t0) / 67108864) mod 67108864).
  set (a2 := ((t2 * 4294967296 + t1) / 1048576) mod 67108864). set (a3 := ((t3 * 4294967296 + t2) / 16384) mod 67108864).
  set (a4 := t3 / 256).
  assert (B0 : 0 <= a0 < 67108864) by (apply Z.mod_pos_bound; lia). assert (B1 : 0 <= a1 < 67108864) by (apply Z.mod_pos_bound; lia).
  assert (B2 : 0 <= a2 < 67108864) by (apply Z.mod_pos_bound; lia). assert (B3 : 0 <= a3 < 67108864) by (apply Z.mod_pos_bound; lia).
  assert (B4 : 0 <= a4 < 16777216) by (unfold a4; zdm; lia).
  assert (V : a0 + 67108864 * a1 + 2 ^ 52 * a2 + 2 ^ 78 * a3 + 2 ^ 104 * a4 = t0 + 2 ^ 32 * t1 + 2 ^ 64 * t2 + 2 ^ 96 * t3).
  { change (2 ^ 52) with 4503599627370496. change (2 ^ 32) with 4294967296. change (2 ^ 64) with 18446744073709551616.
    change (2 ^ 78) with 302231454903657293676544. change (2 ^ 96) with 79228162514264337593543950336.
    change (2 ^ 104) with 20282409603651670423947251286016.
    unfold a0, a1, a2, a3, a4. clear - H H0 H1 H2. zdm. lia. }
  clearbody a0 a1 a2 a3 a4. rewrite !Z.mod_small by lia. split; [lia|]. rewrite <- V. ring.
Qed.
