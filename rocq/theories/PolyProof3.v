(** Proofs about poly1305_auth: clamping, final reduction, tag, whole. *)
From Verif Require Import Base Bits PolyModel PolySpec PolyProof PolyProof2.

Local Ltac zdm := Z.to_euclidean_division_equations.

(** ** Clamping *)
Lemma land_limb : forall a b n, 0 <= n ->
  (Z.land a b / 2 ^ n) mod 67108864 = Z.land ((a / 2 ^ n) mod 67108864) ((b / 2 ^ n) mod 67108864).
Proof.
  intros a b n Hn. change 67108864 with (2 ^ 26). apply Z.bits_inj'. intros i Hi. rewrite Z.land_spec.
  destruct (Z_lt_le_dec i 26).
  - rewrite !Z.mod_pow2_bits_low by lia. rewrite !Z.div_pow2_bits by lia. apply Z.land_spec.
  - rewrite !Z.mod_pow2_bits_high by lia. reflexivity.
Qed.
Lemma land_mod26 : forall a b, 0 <= b < 67108864 -> Z.land a b = Z.land (a mod 67108864) b.
Proof.
  intros a b Hb. change 67108864 with (2 ^ 26) in *. apply Z.bits_inj'. intros i Hi. rewrite !Z.land_spec.
  destruct (Z_lt_le_dec i 26).
  - now rewrite Z.mod_pow2_bits_low by lia.
  - rewrite (small_bits b 26 i) by lia. now rewrite !andb_false_r.
Qed.
Lemma land_le : forall a b, 0 <= a -> 0 <= b -> Z.land a b <= b.
Proof.
  intros a b Ha Hb. assert (E : b = Z.land a b + Z.ldiff b a).
  { rewrite <- Z.lor_ldiff_and with (a := b) (b := a) at 1. rewrite (Z.land_comm b a).
    rewrite <- Z.lxor_lor; [|]. rewrite <- Z.add_nocarry_lxor; [lia|]. all: apply Z.bits_inj'; intros i Hi;
    rewrite ?Z.land_spec, ?Z.ldiff_spec, ?Z.land_spec, Z.bits_0; destruct (Z.testbit a i), (Z.testbit b i); reflexivity. }
  assert (0 <= Z.ldiff b a) by (apply Z.ldiff_nonneg; lia). lia.
Qed.
Lemma limbs_val : forall C, 0 <= C < 2 ^ 130 ->
  C = val (mkL (C mod 67108864) ((C / 2 ^ 26) mod 67108864) ((C / 2 ^ 52) mod 67108864) ((C / 2 ^ 78) mod 67108864) ((C / 2 ^ 104) mod 67108864)).
Proof.
  intros C H. unfold val. cbn [l0 l1 l2 l3 l4]. change (2 ^ 26) with 67108864. change (2 ^ 52) with (67108864 * 67108864).
  change (2 ^ 78) with (67108864 * 67108864 * 67108864). change (2 ^ 104) with (67108864 * 67108864 * 67108864 * 67108864).
  change (2 ^ 130) with (67108864 * 67108864 * 67108864 * 67108864 * 67108864) in H.
  rewrite <- !Z.div_div by lia. zdm. lia.
Qed.
Lemma clamp_ok : forall key, is_bytes key -> zlen key = 32 -> rbound (clamp_key key) /\ val (clamp_key key) = poly_r key.
Proof.
  intros key Hk L. unfold poly_r. rewrite <- (quad_le key Hk) by lia. pose proof (load32_bound key 0 Hk). pose proof (load32_bound key 4 Hk).
  pose proof (load32_bound key 8 Hk). pose proof (load32_bound key 12 Hk). unfold clamp_key.
  set (t0 := load32 key 0) in *. set (t1 := load32 key 4) in *. set (t2 := load32 key 8) in *. set (t3 := load32 key 12) in *.
  clearbody t0 t1 t2 t3. cbv zeta. unfold U32 in *.
  set (M := 0x0ffffffc0ffffffc0ffffffc0fffffff). set (K := quad t0 t1 t2 t3).
  assert (HK : 0 <= K < 2 ^ 128) by (unfold K, quad; change (2 ^ 128) with 340282366920938463463374607431768211456; change (2 ^ 32) with 4294967296;
    change (2 ^ 64) with 18446744073709551616; change (2 ^ 96) with 79228162514264337593543950336; lia).
  assert (HC : 0 <= Z.land K M < 2 ^ 130).
  { assert (0 <= Z.land K M < 2 ^ 128) by (apply land_small; [lia|exact HK|unfold M; lia]). change (2 ^ 130) with (4 * 2 ^ 128). lia. }
  rewrite (limbs_val _ HC). rewrite !land_limb by lia.
  replace (Z.land K M mod 67108864) with (Z.land (K mod 67108864) 0x3ffffff).
  2:{ pose proof (land_limb K M 0 ltac:(lia)) as E. change (2 ^ 0) with 1 in E. rewrite !Z.div_1_r in E. rewrite E. reflexivity. }
  change ((M / 2 ^ 26) mod 67108864) with 0x3ffff03. change ((M / 2 ^ 52) mod 67108864) with 0x3ffc0ff.
  change ((M / 2 ^ 78) mod 67108864) with 0x3f03fff. change ((M / 2 ^ 104) mod 67108864) with 0x00fffff.
  assert (E0 : Z.land t0 0x3ffffff = Z.land (K mod 67108864) 0x3ffffff).
  { rewrite (land_mod26 t0) by lia. f_equal. unfold K, quad. clear - H. change (2 ^ 32) with 4294967296.
    change (2 ^ 64) with 18446744073709551616; change (2 ^ 96) with 79228162514264337593543950336. zdm. lia. }
  assert (L1 : forall a b n, 0 <= n <= 32 -> 0 <= a < 4294967296 -> Z.lor (shr a (32 - n)) (shl32 b n) = a / 2 ^ (32 - n) + (b mod 2 ^ (32 - n)) * 2 ^ n).
  { intros a b n Hn Ha. rewrite shr_div, shl32_eq by lia. apply lor_add; [lia|]. split; [apply Z.div_pos; [lia|apply Z.pow_pos_nonneg; lia]|].
    apply Z.div_lt_upper_bound; [apply Z.pow_pos_nonneg; lia|]. rewrite <- Z.pow_add_r by lia. replace (32 - n + n) with 32 by lia. exact (proj2 Ha). }
  assert (E1 : Z.land (Z.lor (shr t0 26) (shl32 t1 6)) 0x3ffff03 = Z.land ((K / 2 ^ 26) mod 67108864) 0x3ffff03).
  { rewrite (land_mod26 (Z.lor _ _)) by lia. f_equal. change (shr t0 26) with (shr t0 (32 - 6)). rewrite (L1 t0 t1 6) by lia. unfold K, quad. clear - H H0. change (2 ^ 32) with 4294967296.
    change (2 ^ 64) with 18446744073709551616; change (2 ^ 96) with 79228162514264337593543950336.
    change (2 ^ 26) with 67108864. change (2 ^ (32 - 6)) with 67108864. change (2 ^ 6) with 64. zdm. lia. }
  assert (E2 : Z.land (Z.lor (shr t1 20) (shl32 t2 12)) 0x3ffc0ff = Z.land ((K / 2 ^ 52) mod 67108864) 0x3ffc0ff).
  { rewrite (land_mod26 (Z.lor _ _)) by lia. f_equal. change (shr t1 20) with (shr t1 (32 - 12)). rewrite (L1 t1 t2 12) by lia. unfold K, quad. clear - H H0 H1. change (2 ^ 32) with 4294967296.
    change (2 ^ 64) with 18446744073709551616; change (2 ^ 96) with 79228162514264337593543950336.
    change (2 ^ 52) with 4503599627370496. change (2 ^ (32 - 12)) with 1048576. change (2 ^ 12) with 4096. zdm. lia. }
  assert (E3 : Z.land (Z.lor (shr t2 14) (shl32 t3 18)) 0x3f03fff = Z.land ((K / 2 ^ 78) mod 67108864) 0x3f03fff).
  { rewrite (land_mod26 (Z.lor _ _)) by lia. f_equal. change (shr t2 14) with (shr t2 (32 - 18)). rewrite (L1 t2 t3 18) by lia. unfold K, quad. clear - H H0 H1 H2. change (2 ^ 32) with 4294967296.
    change (2 ^ 64) with 18446744073709551616; change (2 ^ 96) with 79228162514264337593543950336.
    change (2 ^ 78) with 302231454903657293676544. change (2 ^ (32 - 18)) with 16384. change (2 ^ 18) with 262144. zdm. lia. }
  assert (E4 : Z.land (shr t3 8) 0x00fffff = Z.land ((K / 2 ^ 104) mod 67108864) 0x00fffff).
  { rewrite (land_mod26 (shr t3 8)) by lia. f_equal. rewrite shr_div by lia. unfold K, quad. clear - H H0 H1 H2. change (2 ^ 32) with 4294967296.
    change (2 ^ 64) with 18446744073709551616; change (2 ^ 96) with 79228162514264337593543950336.
    change (2 ^ 104) with 20282409603651670423947251286016. change (2 ^ 8) with 256. zdm. lia. }
  rewrite E0, E1, E2, E3, E4. split; [|reflexivity].
  assert (B : forall x m, 0 <= m -> 0 <= Z.land (x mod 67108864) m <= m).
  { intros x m Hm. assert (0 <= x mod 67108864) by (apply Z.mod_pos_bound; lia). split; [apply Z.land_nonneg; lia|apply land_le; lia]. }
  unfold rbound. cbn [l0 l1 l2 l3 l4]. repeat split; apply B; lia.
Qed.

(** ** Final reduction *)
Lemma select : forall h g b, 0 <= h < U32 -> 0 <= g < U32 -> b = 0 \/ b = U32 - 1 ->
  Z.lor (Z.land h (not32 b)) (Z.land g b) = if b =? 0 then h else g.
Proof.
  intros h g b Hh Hg Hb. unfold not32. assert (O : forall x, 0 <= x < U32 -> Z.land x (U32 - 1) = x).
  { intros x Hx. unfold U32 in *. change (4294967296 - 1) with (2 ^ 32 - 1). rewrite land_low by lia. now apply Z.mod_small. }
  destruct Hb as [-> | ->].
  - rewrite Z.sub_0_r, O, Z.land_0_r, Z.lor_0_r by assumption. reflexivity.
  - rewrite Z.sub_diag, O, Z.land_0_r, Z.lor_0_l by assumption. reflexivity.
Qed.
Definition normal (h : limbs) : Prop :=
  0 <= l0 h < 67108864 /\ 0 <= l1 h < 67108864 /\ 0 <= l2 h < 67108864 /\ 0 <= l3 h < 67108864 /\ 0 <= l4 h < 67108864.
Lemma freeze_ok : forall h, kept h -> normal (freeze h) /\ val (freeze h) = val h mod P1305.
Proof.
  intros [h0 h1 h2 h3 h4] K. unfold kept, XMAX in K. cbn [l0 l1 l2 l3 l4] in K. destruct K as (K0 & K1 & K2 & K3 & K4).
  unfold freeze. rewrite !land26, !shr_div by lia. change (2 ^ 26) with 67108864.
  (* first pass *)
  remember (h0 / 67108864) as c0 eqn:Ec0. remember (h0 mod 67108864) as a0 eqn:Ea0.
  assert (D0 : h0 = 67108864 * c0 + a0 /\ 0 <= a0 < 67108864 /\ 0 <= c0 <= 43) by (clear - Ec0 Ea0 K0; subst; zdm; lia).
  rewrite (u32_id (h1 + c0)) by (unfold U32; lia).
  remember ((h1 + c0) / 67108864) as c1 eqn:Ec1. remember ((h1 + c0) mod 67108864) as a1 eqn:Ea1.
  assert (D1 : h1 + c0 = 67108864 * c1 + a1 /\ 0 <= a1 < 67108864 /\ 0 <= c1 <= 1) by (clear - Ec1 Ea1 K1 D0; subst c1 a1; zdm; lia).
  rewrite (u32_id (h2 + c1)) by (unfold U32; lia).
  remember ((h2 + c1) / 67108864) as c2 eqn:Ec2. remember ((h2 + c1) mod 67108864) as a2 eqn:Ea2.
  assert (D2 : h2 + c1 = 67108864 * c2 + a2 /\ 0 <= a2 < 67108864 /\ 0 <= c2 <= 1) by (clear - Ec2 Ea2 K2 D1; subst c2 a2; zdm; lia).
  rewrite (u32_id (h3 + c2)) by (unfold U32; lia).
  remember ((h3 + c2) / 67108864) as c3 eqn:Ec3. remember ((h3 + c2) mod 67108864) as a3 eqn:Ea3.
  assert (D3 : h3 + c2 = 67108864 * c3 + a3 /\ 0 <= a3 < 67108864 /\ 0 <= c3 <= 1) by (clear - Ec3 Ea3 K3 D2; subst c3 a3; zdm; lia).
  rewrite (u32_id (h4 + c3)) by (unfold U32; lia).
  remember ((h4 + c3) / 67108864) as c4 eqn:Ec4. remember ((h4 + c3) mod 67108864) as a4 eqn:Ea4.
  assert (D4 : h4 + c3 = 67108864 * c4 + a4 /\ 0 <= a4 < 67108864 /\ 0 <= c4 <= 1) by (clear - Ec4 Ea4 K4 D3; subst c4 a4; zdm; lia).
  clear Ec0 Ea0 Ec1 Ea1 Ec2 Ea2 Ec3 Ea3 Ec4 Ea4.
  rewrite (u32_id (c4 * 5)) by (unfold U32; lia). rewrite (u32_id (a0 + c4 * 5)) by (unfold U32; lia).
  remember ((a0 + c4 * 5) / 67108864) as d0 eqn:Ed0. remember ((a0 + c4 * 5) mod 67108864) as b0 eqn:Eb0.
  assert (G0 : a0 + c4 * 5 = 67108864 * d0 + b0 /\ 0 <= b0 < 67108864 /\ 0 <= d0 <= 1) by (clear - Ed0 Eb0 D0 D4; subst d0 b0; zdm; lia).
  assert (Hd : d0 = 0 \/ a1 < 64) by (clear - G0 D0 D1 D2 D3 D4 K0 K1 K2 K3 K4; lia).
  rewrite (u32_id (a1 + d0)) by (unfold U32; lia).
  remember (a1 + d0) as b1 eqn:Eb1. assert (G1 : 0 <= b1 < 67108864) by (clear - Eb1 Hd D1 G0; lia).
  clear Ed0 Eb0.
  (* the trial subtraction *)
  rewrite (u32_id (b0 + 5)) by (unfold U32; lia).
  remember ((b0 + 5) / 67108864) as e0 eqn:Ee0. remember ((b0 + 5) mod 67108864) as g0 eqn:Eg0.
  assert (F0 : b0 + 5 = 67108864 * e0 + g0 /\ 0 <= g0 < 67108864 /\ 0 <= e0 <= 1) by (clear - Ee0 Eg0 G0; subst e0 g0; zdm; lia).
  rewrite (u32_id (b1 + e0)) by (unfold U32; lia).
  remember ((b1 + e0) / 67108864) as e1 eqn:Ee1. remember ((b1 + e0) mod 67108864) as g1 eqn:Eg1.
  assert (F1 : b1 + e0 = 67108864 * e1 + g1 /\ 0 <= g1 < 67108864 /\ 0 <= e1 <= 1) by (clear - Ee1 Eg1 G1 F0; subst e1 g1; zdm; lia).
  rewrite (u32_id (a2 + e1)) by (unfold U32; lia).
  remember ((a2 + e1) / 67108864) as e2 eqn:Ee2. remember ((a2 + e1) mod 67108864) as g2 eqn:Eg2.
  assert (F2 : a2 + e1 = 67108864 * e2 + g2 /\ 0 <= g2 < 67108864 /\ 0 <= e2 <= 1) by (clear - Ee2 Eg2 D2 F1; subst e2 g2; zdm; lia).
  rewrite (u32_id (a3 + e2)) by (unfold U32; lia).
  remember ((a3 + e2) / 67108864) as e3 eqn:Ee3. remember ((a3 + e2) mod 67108864) as g3 eqn:Eg3.
  assert (F3 : a3 + e2 = 67108864 * e3 + g3 /\ 0 <= g3 < 67108864 /\ 0 <= e3 <= 1) by (clear - Ee3 Eg3 D3 F2; subst e3 g3; zdm; lia).
  clear Ee0 Eg0 Ee1 Eg1 Ee2 Eg2 Ee3 Eg3.
  change (Z.shiftl 1 26) with 67108864. change (2 ^ 31) with 2147483648.
  remember (u32 (a4 + e3 - 67108864)) as g4 eqn:Eg4.
  assert (F4 : 0 <= g4 < U32) by (subst g4; apply Z.mod_pos_bound; unfold U32; lia).
  remember (u32 (g4 / 2147483648 - 1)) as b eqn:Eb. cbv zeta.
  assert (Cs : (a4 + e3 = 67108864 /\ g4 = 0 /\ b = U32 - 1) \/ (a4 + e3 < 67108864 /\ b = 0)).
  { assert (a4 + e3 = 67108864 \/ a4 + e3 < 67108864) as [E|E] by (clear - D4 F3; lia).
    - left. rewrite E in Eg4. change (67108864 - 67108864) with 0 in Eg4. change (u32 0) with 0 in Eg4. subst g4.
      repeat split; [exact E|]. subst b. reflexivity.
    - right. split; [exact E|]. assert (g4 = a4 + e3 - 67108864 + U32).
      { subst g4. unfold u32, U32. symmetry. apply Z.mod_unique with (q := -1); lia. }
      assert (g4 / 2147483648 = 1) as Q by (clear - H E D4 F3; unfold U32 in *; zdm; lia). rewrite Q in Eb. subst b. reflexivity. }
  assert (Hb : b = 0 \/ b = U32 - 1) by (destruct Cs as [(_ & _ & ->)|(_ & ->)]; auto).
  rewrite !select by (assumption || (unfold U32; lia)).
  assert (V : val (mkL h0 h1 h2 h3 h4) = val (mkL b0 b1 a2 a3 a4) + P1305 * c4).
  { unfold val, P1305. cbn [l0 l1 l2 l3 l4]. assert (h4 = 67108864 * c4 + a4 - c3) as -> by lia. assert (h3 = 67108864 * c3 + a3 - c2) as -> by lia.
    assert (h2 = 67108864 * c2 + a2 - c1) as -> by lia. assert (h1 = 67108864 * c1 + b1 - d0 - c0) as -> by lia.
    assert (h0 = 67108864 * c0 + 67108864 * d0 + b0 - c4 * 5) as -> by lia. change 67108864 with (2 ^ 26). ring. }
  rewrite V. rewrite Z.mul_comm, Z.mod_add by (unfold P1305; lia).
  assert (W : val (mkL b0 b1 a2 a3 a4) + 5 = g0 + 2 ^ 26 * g1 + 2 ^ 52 * g2 + 2 ^ 78 * g3 + 2 ^ 104 * (a4 + e3)).
  { unfold val. cbn [l0 l1 l2 l3 l4]. assert (a3 = 67108864 * e3 + g3 - e2) as -> by lia. assert (a2 = 67108864 * e2 + g2 - e1) as -> by lia.
    assert (b1 = 67108864 * e1 + g1 - e0) as -> by lia. assert (b0 = 67108864 * e0 + g0 - 5) as -> by lia. change 67108864 with (2 ^ 26). ring. }
  destruct Cs as [(E & -> & ->)|(E & ->)].
  - change (U32 - 1 =? 0) with false. cbv iota. split; [unfold normal; cbn [l0 l1 l2 l3 l4]; lia|].
    symmetry. rewrite E in W. clear V Hb.
    assert (val (mkL b0 b1 a2 a3 a4) = val (mkL g0 g1 g2 g3 0) + P1305) as ->.
    { unfold val at 2. cbn [l0 l1 l2 l3 l4]. unfold P1305. lia. }
    rewrite <- (Z.mul_1_l P1305) at 1. rewrite Z.mod_add by (unfold P1305; lia). apply Z.mod_small.
    unfold val, P1305. cbn [l0 l1 l2 l3 l4]. clear - F0 F1 F2 F3. lia.
  - change (0 =? 0) with true. cbv iota. split; [unfold normal; cbn [l0 l1 l2 l3 l4]; lia|].
    symmetry. apply Z.mod_small. clear V Hb. split.
    + unfold val. cbn [l0 l1 l2 l3 l4]. clear - G0 G1 D2 D3 D4. lia.
    + unfold P1305. clear - W E F0 F1 F2 F3. lia.
Qed.

(** ** The tag *)
Lemma le_bytes4 : forall v, store32 v = le_bytes 4 v.
Proof.
  intros v. unfold store32, u8, U8. rewrite !shr_div by lia. cbn [le_bytes]. change (2 ^ 8) with 256. change (2 ^ 16) with (256 * 256).
  change (2 ^ 24) with (256 * 256 * 256). now rewrite <- !Z.div_div by lia.
Qed.
Lemma le_bytes_mod : forall n v w, v mod 256 ^ Z.of_nat n = w mod 256 ^ Z.of_nat n -> le_bytes n v = le_bytes n w.
Proof.
  induction n as [|n IH]; intros v w H; [reflexivity|]. cbn [le_bytes].
  rewrite Nat2Z.inj_succ, Z.pow_succ_r in H by lia. assert (0 < 256 ^ Z.of_nat n) by (apply Z.pow_pos_nonneg; lia).
  rewrite !Z.rem_mul_r in H by lia.
  assert (B1 : 0 <= v mod 256 < 256) by (apply Z.mod_pos_bound; lia). assert (B2 : 0 <= w mod 256 < 256) by (apply Z.mod_pos_bound; lia).
  f_equal; [lia|]. apply IH. lia.
Qed.
Lemma le_bytes_cut : forall a b v, le_bytes (a + b) v = le_bytes a v ++ le_bytes b (v / 256 ^ Z.of_nat a).
Proof.
  induction a as [|a IH]; intros b v; [cbn [Nat.add le_bytes app]; now rewrite Z.div_1_r|].
  cbn [Nat.add le_bytes app]. rewrite IH. rewrite Nat2Z.inj_succ, Z.pow_succ_r by lia. rewrite Z.div_div by (try apply Z.pow_pos_nonneg; lia). reflexivity.
Qed.
Lemma or_shift : forall a b n, 0 <= n <= 26 -> 0 <= a < 67108864 -> 0 <= b ->
  Z.lor (shr a (26 - n)) (shl32 b n) = a / 2 ^ (26 - n) + (b mod 2 ^ (32 - n)) * 2 ^ n.
Proof.
  intros a b n Hn Ha Hb. rewrite shr_div, shl32_eq by lia. apply lor_add; [lia|]. split; [apply Z.div_pos; [lia|apply Z.pow_pos_nonneg; lia]|].
  apply Z.div_lt_upper_bound; [apply Z.pow_pos_nonneg; lia|]. rewrite <- Z.pow_add_r by lia. replace (26 - n + n) with 26 by lia. exact (proj2 Ha).
Qed.
Lemma tag_ok : forall h key, normal h -> is_bytes key -> zlen key = 32 -> tag_of h key = le_bytes 16 (val h + poly_s key).
Proof.
  intros [h0 h1 h2 h3 h4] key N Hk L. unfold normal in N. cbn [l0 l1 l2 l3 l4] in N. destruct N as (N0 & N1 & N2 & N3 & N4).
  unfold poly_s. rewrite <- (quad_le (zdrop 16 key)); [|now apply is_bytes_zdrop|rewrite zlen_zdrop; lia].
  rewrite !load32_drop by lia. change (16 + 0) with 16. change (16 + 4) with 20. change (16 + 8) with 24. change (16 + 12) with 28.
  pose proof (load32_bound key 16 Hk). pose proof (load32_bound key 20 Hk). pose proof (load32_bound key 24 Hk). pose proof (load32_bound key 28 Hk).
  unfold tag_of. set (k0 := load32 key 16) in *. set (k1 := load32 key 20) in *. set (k2 := load32 key 24) in *. set (k3 := load32 key 28) in *.
  clearbody k0 k1 k2 k3. unfold U32 in *.
  replace (Z.lor h0 (shl32 h1 26)) with (h0 + (h1 mod 64) * 67108864).
  2:{ rewrite shl32_eq by lia. rewrite lor_add by lia. reflexivity. }
  change (shr h1 6) with (shr h1 (26 - 20)). change (shr h2 12) with (shr h2 (26 - 14)). change (shr h3 18) with (shr h3 (26 - 8)).
  rewrite (or_shift h1 h2 20), (or_shift h2 h3 14), (or_shift h3 h4 8) by lia.
  change (2 ^ (26 - 20)) with 64. change (2 ^ (32 - 20)) with 4096. change (2 ^ 20) with 1048576.
  change (2 ^ (26 - 14)) with 4096. change (2 ^ (32 - 14)) with 262144. change (2 ^ 14) with 16384.
  change (2 ^ (26 - 8)) with 262144. change (2 ^ (32 - 8)) with 16777216. change (2 ^ 8) with 256.
  unfold add64. rewrite !shr_div by lia. change (2 ^ 32) with 4294967296.
  set (w0 := h0 + h1 mod 64 * 67108864). set (w1 := h1 / 64 + h2 mod 4096 * 1048576).
  set (w2 := h2 / 4096 + h3 mod 262144 * 16384). set (w3 := h3 / 262144 + h4 mod 16777216 * 256).
  assert (B0 : 0 <= w0 < 4294967296) by (unfold w0; clear - N0; zdm; lia).
  assert (B1 : 0 <= w1 < 4294967296) by (unfold w1; clear - N1; zdm; lia).
  assert (B2 : 0 <= w2 < 4294967296) by (unfold w2; clear - N2; zdm; lia).
  assert (B3 : 0 <= w3 < 4294967296) by (unfold w3; clear - N3; zdm; lia).
  assert (V : val (mkL h0 h1 h2 h3 h4) = w0 + 2 ^ 32 * w1 + 2 ^ 64 * w2 + 2 ^ 96 * w3 + 2 ^ 128 * (h4 / 16777216)).
  { unfold val. cbn [l0 l1 l2 l3 l4]. unfold w0, w1, w2, w3. change (2 ^ 26) with 67108864. change (2 ^ 52) with 4503599627370496.
    change (2 ^ 32) with 4294967296. change (2 ^ 64) with 18446744073709551616. change (2 ^ 78) with 302231454903657293676544.
    change (2 ^ 96) with 79228162514264337593543950336. change (2 ^ 104) with 20282409603651670423947251286016.
    change (2 ^ 128) with 340282366920938463463374607431768211456. clear. zdm. lia. }
  rewrite V. clear V. set (ov := h4 / 16777216). clearbody ov w0 w1 w2 w3. clear N0 N1 N2 N3 N4 h0 h1 h2 h3 h4 L Hk key.
  rewrite (u64_id (w0 + k0)) by (unfold U64; lia). rewrite (u64_id (w1 + k1)) by (unfold U64; lia).
  rewrite (u64_id (w2 + k2)) by (unfold U64; lia). rewrite (u64_id (w3 + k3)) by (unfold U64; lia).
  set (c0 := (w0 + k0) / 4294967296). assert (C0 : w0 + k0 = 4294967296 * c0 + (w0 + k0) mod 4294967296) by (apply Z.div_mod; lia).
  assert (C0' : 0 <= c0 <= 1) by (unfold c0; clear - B0 H; zdm; lia).
  rewrite (u64_id (w1 + k1 + c0)) by (unfold U64; lia).
  set (c1 := (w1 + k1 + c0) / 4294967296). assert (C1' : 0 <= c1 <= 1) by (unfold c1; clear - B1 H0 C0'; zdm; lia).
  rewrite (u64_id (w2 + k2 + c1)) by (unfold U64; lia).
  set (c2 := (w2 + k2 + c1) / 4294967296). assert (C2' : 0 <= c2 <= 1) by (unfold c2; clear - B2 H1 C1'; zdm; lia).
  rewrite (u64_id (w3 + k3 + c2)) by (unfold U64; lia).
  rewrite !le_bytes4. change 16%nat with (4 + (4 + (4 + 4)))%nat. rewrite !le_bytes_cut.
  change (256 ^ Z.of_nat 4) with 4294967296. unfold quad.
  set (W := w0 + 2 ^ 32 * w1 + 2 ^ 64 * w2 + 2 ^ 96 * w3 + 2 ^ 128 * ov + (k0 + 2 ^ 32 * k1 + 2 ^ 64 * k2 + 2 ^ 96 * k3)).
  assert (Q0 : W = (w0 + k0) + 4294967296 * ((w1 + k1) + 4294967296 * ((w2 + k2) + 4294967296 * ((w3 + k3) + 4294967296 * ov)))).
  { unfold W. change (2 ^ 32) with 4294967296. change (2 ^ 64) with (4294967296 * 4294967296).
    change (2 ^ 96) with (4294967296 * 4294967296 * 4294967296). change (2 ^ 128) with (4294967296 * 4294967296 * 4294967296 * 4294967296). ring. }
  assert (Q1 : W / 4294967296 = (w1 + k1 + c0) + 4294967296 * ((w2 + k2) + 4294967296 * ((w3 + k3) + 4294967296 * ov))).
  { rewrite Q0, Z.mul_comm, Z.div_add by lia. fold c0. lia. }
  assert (Q2 : W / 4294967296 / 4294967296 = (w2 + k2 + c1) + 4294967296 * ((w3 + k3) + 4294967296 * ov)).
  { rewrite Q1, Z.mul_comm, Z.div_add by lia. fold c1. lia. }
  assert (Q3 : W / 4294967296 / 4294967296 / 4294967296 = (w3 + k3 + c2) + 4294967296 * ov).
  { rewrite Q2, Z.mul_comm, Z.div_add by lia. fold c2. lia. }
  f_equal; [|f_equal; [|f_equal]]; apply le_bytes_mod; change (256 ^ Z.of_nat 4) with 4294967296.
  - rewrite Q0, Z.mul_comm, Z.mod_add by lia. reflexivity.
  - rewrite Q1, Z.mul_comm, Z.mod_add by lia. reflexivity.
  - rewrite Q2, Z.mul_comm, Z.mod_add by lia. reflexivity.
  - rewrite Q3, Z.mul_comm, Z.mod_add by lia. reflexivity.
Qed.

(** ** The whole function *)
Lemma kept_loaded : forall h, kept h -> loaded h.
Proof. intros h (A & B & C & D & E). unfold loaded, XMAX in *. lia. Qed.
Lemma block_val : forall b, zlen b = 16 -> le (b ++ [1]) = le b + 2 ^ 104 * Z.shiftl 1 24.
Proof. intros b H. rewrite le_app, H. cbn [le]. change (256 ^ 16) with (2 ^ 104 * Z.shiftl 1 24). lia. Qed.
Lemma last_val : forall m, zlen m < 16 -> zlen (pad_block m) = 16 /\ ztake 16 (pad_block m) = pad_block m /\ le (pad_block m) = le (m ++ [1]).
Proof.
  intros m H. assert (L : zlen (pad_block m) = 16).
  { unfold pad_block. rewrite !zlen_app, zlen_repeat. unfold zlen in *. cbn [length]. lia. }
  split; [exact L|]. split; [apply ztake_all; lia|]. unfold pad_block. rewrite app_assoc, le_app, le_repeat0. lia.
Qed.
Lemma pad_bytes : forall m, is_bytes m -> is_bytes (pad_block m).
Proof.
  intros m H. unfold pad_block. apply is_bytes_app. split; [exact H|]. constructor; [unfold is_byte; lia|].
  apply Forall_forall. intros x Hx. apply repeat_spec in Hx. subst. unfold is_byte. lia.
Qed.
Lemma step_mod : forall h n r q acc v, v = h + n -> acc = h mod P1305 -> v * r = q + P1305 * 0 \/ True ->
  ((acc + n) * r) mod P1305 = (v * r) mod P1305.
Proof.
  intros h n r q acc v -> -> _. rewrite Z.mul_mod by (unfold P1305; lia). rewrite (Z.add_mod (h mod P1305)) by (unfold P1305; lia).
  rewrite Z.mod_mod by (unfold P1305; lia). rewrite <- Z.add_mod by (unfold P1305; lia). now rewrite <- Z.mul_mod by (unfold P1305; lia).
Qed.
Lemma one_block : forall h r b hib n acc, kept h -> rbound r -> is_bytes b -> zlen b >= 16 -> hib = 0 \/ hib = Z.shiftl 1 24 ->
  n = le (ztake 16 b) + 2 ^ 104 * hib -> acc = val h mod P1305 ->
  kept (mul_r (add_block h b hib) r) /\ val (mul_r (add_block h b hib) r) mod P1305 = ((acc + n) * val r) mod P1305.
Proof.
  intros h r b hib n acc K R Hb L Hh En Ea. destruct (add_block_ok h b hib K Hb L Hh) as [Lo V].
  destruct (mul_ok _ r Lo R) as [K' [q E]]. split; [exact K'|].
  rewrite (step_mod (val h) n (val r) 0 acc (val (add_block h b hib))); [|lia|exact Ea|right; exact I].
  rewrite E. rewrite Z.mul_comm, Z.mod_add by (unfold P1305; lia). reflexivity.
Qed.
Lemma blocks_ok : forall fuel r h m acc, (length m < fuel)%nat -> kept h -> rbound r -> is_bytes m -> acc = val h mod P1305 ->
  exists h' bl, blocks fuel r h m = Some h' /\ kept h' /\ cut16 m bl /\
    val h' mod P1305 = fold_left (fun a b => ((a + le (b ++ [1])) * val r) mod P1305) bl acc.
Proof.
  induction fuel as [|fuel IH]; intros r h m acc F K R Hm Ea; [lia|]. cbn [blocks].
  destruct (zlen m >=? 16) eqn:E.
  - destruct (one_block h r m (Z.shiftl 1 24) (le (ztake 16 m ++ [1])) acc K R Hm ltac:(lia) (or_intror eq_refl)) as [K' V'].
    + rewrite block_val by (apply zlen_ztake; lia). reflexivity.
    + exact Ea.
    + destruct (IH r (mul_r (add_block h m (Z.shiftl 1 24)) r) (zdrop 16 m) (((acc + le (ztake 16 m ++ [1])) * val r) mod P1305)) as (h' & bl & E1 & E2 & E3 & E4).
      * unfold zdrop. rewrite skipn_length. unfold zlen in E. lia.
      * exact K'.
      * exact R.
      * now apply is_bytes_zdrop.
      * now rewrite V'.
      * exists h', (ztake 16 m :: bl). split; [exact E1|]. split; [exact E2|]. split.
        { rewrite <- (ztake_zdrop _ 16 m) at 1. constructor; [apply zlen_ztake; lia|exact E3]. }
        cbn [fold_left]. exact E4.
  - destruct (zlen m =? 0) eqn:E0.
    + exists h, []. split; [reflexivity|]. split; [exact K|]. split; [|cbn [fold_left]; now rewrite Ea].
      apply Z.eqb_eq in E0. apply zlen_zero_nil in E0. subst. constructor.
    + destruct (last_val m ltac:(lia)) as (L1 & L2 & L3). pose proof (zlen_nonneg _ m).
      destruct (one_block h r (pad_block m) 0 (le (m ++ [1])) acc K R (pad_bytes _ Hm) ltac:(lia) (or_introl eq_refl)) as [K' V'].
      * rewrite L2, L3. lia.
      * exact Ea.
      * eexists _, [m]. split; [reflexivity|]. split; [exact K'|]. split; [constructor; lia|]. cbn [fold_left]. exact V'.
Qed.
Lemma poly_ok : forall m key, is_bytes m -> is_bytes key -> zlen key = 32 ->
  exists t, poly1305_auth m key = Some t /\ poly_tag key m t.
Proof.
  intros m key Hm Hk L. destruct (clamp_ok key Hk L) as [R V]. unfold poly1305_auth.
  destruct (blocks_ok (S (length m)) (clamp_key key) (mkL 0 0 0 0 0) m 0) as (h & bl & E1 & E2 & E3 & E4);
    [lia|unfold kept, XMAX; cbn [l0 l1 l2 l3 l4]; lia|exact R|exact Hm|reflexivity|].
  rewrite E1. destruct (freeze_ok h E2) as [N W]. eexists. split; [reflexivity|]. exists bl. split; [exact E3|].
  rewrite (tag_ok _ _ N Hk L), W, E4, V. reflexivity.
Qed.
