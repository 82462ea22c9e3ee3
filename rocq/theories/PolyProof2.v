(** Proofs about poly1305_auth: multiplication, final reduction, tag. *)
From Verif Require Import Base Bits PolyModel PolySpec PolyProof.

Local Ltac zdm := Z.to_euclidean_division_equations.

Lemma prod_bound : forall a b A B, 0 <= a <= A -> 0 <= b <= B -> 0 <= a * b <= A * B.
Proof. intros a b A B Ha Hb. split; [apply Z.mul_nonneg_nonneg; lia|apply Z.mul_le_mono_nonneg; lia]. Qed.

(** One carry step: splitting a word. *)
Lemma low26 : forall t, Z.land (u32 t) 0x3ffffff = t mod 67108864.
Proof.
  intros t. rewrite land26. unfold u32, U32. change 4294967296 with (67108864 * 64).
  rewrite Z.rem_mul_r by lia. rewrite Z.mul_comm, Z.mod_add by lia. now rewrite Z.mod_mod by lia.
Qed.

Lemma chain_ok : forall t0 t1 t2 t3 t4,
  0 <= t0 < 400000000000000000 -> 0 <= t1 < 288000000000000000 -> 0 <= t2 < 288000000000000000 ->
  0 <= t3 < 288000000000000000 -> 0 <= t4 < 37000000000000000 ->
  kept (carry t0 t1 t2 t3 t4) /\ exists b,
  t0 + 2 ^ 26 * t1 + 2 ^ 52 * t2 + 2 ^ 78 * t3 + 2 ^ 104 * t4 = val (carry t0 t1 t2 t3 t4) + P1305 * b.
Proof.
  intros t0 t1 t2 t3 t4 B0 B1 B2 B3 B4. unfold carry.
  remember (add64 t1 (shr t0 26)) as t1' eqn:E1. remember (add64 t2 (u32 (shr t1' 26))) as t2' eqn:E2.
  remember (add64 t3 (u32 (shr t2' 26))) as t3' eqn:E3. remember (add64 t4 (u32 (shr t3' 26))) as t4' eqn:E4.
  remember (u32 (shr t4' 26)) as b eqn:Eb. cbv zeta.
  rewrite !low26. rewrite shr_div in E1, E2, E3, E4, Eb by lia. unfold add64, u32, u64, U32, U64 in *.
  change (2 ^ 26) with 67108864 in *.
  rewrite Z.mod_small in E1 by (clear - B0 B1; zdm; lia).
  assert (B1' : 0 <= t1' < 288100000000000000) by (clear - E1 B0 B1; subst; zdm; lia).
  assert (C1 : 0 <= t1' / 67108864 < 4294967296) by (clear - B1'; zdm; lia).
  rewrite (Z.mod_small (t1' / 67108864)) in E2 by exact C1.
  rewrite Z.mod_small in E2 by (clear - B2 C1; lia).
  assert (B2' : 0 <= t2' < 288100000000000000) by (clear - E2 B2 C1; lia).
  assert (C2 : 0 <= t2' / 67108864 < 4294967296) by (clear - B2'; zdm; lia).
  rewrite (Z.mod_small (t2' / 67108864)) in E3 by exact C2.
  rewrite Z.mod_small in E3 by (clear - B3 C2; lia).
  assert (B3' : 0 <= t3' < 288100000000000000) by (clear - E3 B3 C2; lia).
  assert (C3 : 0 <= t3' / 67108864 < 4294967296) by (clear - B3'; zdm; lia).
  rewrite (Z.mod_small (t3' / 67108864)) in E4 by exact C3.
  rewrite Z.mod_small in E4 by (clear - B4 C3; lia).
  assert (B4' : 0 <= t4' < 37000010000000000) by (clear - E4 B4 C3; lia).
  assert (C4 : 0 <= t4' / 67108864 <= 560000000) by (clear - B4'; zdm; lia).
  rewrite Z.mod_small in Eb by (clear - C4; lia).
  rewrite (Z.mod_small (b * 5)) by (clear - C4 Eb; lia).
  assert (M : forall x, 0 <= x mod 67108864 < 67108864) by (intros; apply Z.mod_pos_bound; lia).
  rewrite (Z.mod_small (_ + b * 5)) by (pose proof (M t0) as M0; clear - M0 C4 Eb; lia).
  pose proof (M t0) as M0. pose proof (M t1') as M1. pose proof (M t2') as M2. pose proof (M t3') as M3. pose proof (M t4') as M4.
  pose proof (Z.div_mod t0 67108864 ltac:(lia)) as D0. pose proof (Z.div_mod t1' 67108864 ltac:(lia)) as D1.
  pose proof (Z.div_mod t2' 67108864 ltac:(lia)) as D2. pose proof (Z.div_mod t3' 67108864 ltac:(lia)) as D3.
  pose proof (Z.div_mod t4' 67108864 ltac:(lia)) as D4. clear M.
  set (m0 := t0 mod 67108864) in *. set (m1 := t1' mod 67108864) in *. set (m2 := t2' mod 67108864) in *.
  set (m3 := t3' mod 67108864) in *. set (m4 := t4' mod 67108864) in *.
  set (c0 := t0 / 67108864) in *. set (c1 := t1' / 67108864) in *. set (c2 := t2' / 67108864) in *. set (c3 := t3' / 67108864) in *.
  set (c4 := t4' / 67108864) in *. clearbody m0 m1 m2 m3 m4 c0 c1 c2 c3 c4.
  split.
  - unfold kept, XMAX. cbn [l0 l1 l2 l3 l4]. clear - M0 M1 M2 M3 M4 C4 Eb. lia.
  - exists b. unfold val, P1305. cbn [l0 l1 l2 l3 l4].
    assert (t4 = 67108864 * c4 + m4 - c3) as -> by lia. assert (t3 = 67108864 * c3 + m3 - c2) as -> by lia.
    assert (t2 = 67108864 * c2 + m2 - c1) as -> by lia. assert (t1 = 67108864 * c1 + m1 - c0) as -> by lia.
    rewrite D0, Eb. change 67108864 with (2 ^ 26). ring.
Qed.

Lemma add5 : forall a b c d e, 0 <= a -> 0 <= b -> 0 <= c -> 0 <= d -> 0 <= e -> a + b + c + d + e < 10000000000000000000 ->
  add64 (add64 (add64 (add64 a b) c) d) e = a + b + c + d + e.
Proof.
  intros a b c d e ? ? ? ? ? ?. unfold add64. rewrite (u64_id (a + b)) by (unfold U64; lia). rewrite (u64_id (a + b + c)) by (unfold U64; lia).
  rewrite (u64_id (a + b + c + d)) by (unfold U64; lia). apply u64_id. unfold U64; lia.
Qed.
Lemma mul_ok : forall h r, loaded h -> rbound r ->
  kept (mul_r h r) /\ exists q, val h * val r = val (mul_r h r) + P1305 * q.
Proof.
  intros [h0 h1 h2 h3 h4] [r0 r1 r2 r3 r4] H R. unfold loaded, rbound, XMAX in *. cbn [l0 l1 l2 l3 l4] in *.
  destruct H as (H0 & H1 & H2 & H3 & H4). destruct R as (R0 & R1 & R2 & R3 & R4).
  unfold mul_r. cbv zeta. rewrite !(u32_id (_ * 5)) by (unfold U32; lia).
  pose proof (prod_bound _ _ _ _ H0 R0) as P00. pose proof (prod_bound _ _ _ _ H0 R1) as P01. pose proof (prod_bound _ _ _ _ H0 R2) as P02.
  pose proof (prod_bound _ _ _ _ H0 R3) as P03. pose proof (prod_bound _ _ _ _ H0 R4) as P04.
  pose proof (prod_bound _ _ _ _ H1 R0) as P10. pose proof (prod_bound _ _ _ _ H1 R1) as P11. pose proof (prod_bound _ _ _ _ H1 R2) as P12.
  pose proof (prod_bound _ _ _ _ H1 R3) as P13. pose proof (prod_bound _ _ _ _ H1 R4) as P14.
  pose proof (prod_bound _ _ _ _ H2 R0) as P20. pose proof (prod_bound _ _ _ _ H2 R1) as P21. pose proof (prod_bound _ _ _ _ H2 R2) as P22.
  pose proof (prod_bound _ _ _ _ H2 R3) as P23. pose proof (prod_bound _ _ _ _ H2 R4) as P24.
  pose proof (prod_bound _ _ _ _ H3 R0) as P30. pose proof (prod_bound _ _ _ _ H3 R1) as P31. pose proof (prod_bound _ _ _ _ H3 R2) as P32.
  pose proof (prod_bound _ _ _ _ H3 R3) as P33. pose proof (prod_bound _ _ _ _ H3 R4) as P34.
  pose proof (prod_bound _ _ _ _ H4 R0) as P40. pose proof (prod_bound _ _ _ _ H4 R1) as P41. pose proof (prod_bound _ _ _ _ H4 R2) as P42.
  pose proof (prod_bound _ _ _ _ H4 R3) as P43. pose proof (prod_bound _ _ _ _ H4 R4) as P44.
  clear H0 H1 H2 H3 H4 R0 R1 R2 R3 R4.
  assert (V : val (mkL h0 h1 h2 h3 h4) * val (mkL r0 r1 r2 r3 r4) = 2 ^ 0 * (h0 * r0) + 2 ^ 26 * (h0 * r1) + 2 ^ 52 * (h0 * r2) + 2 ^ 78 * (h0 * r3) + 2 ^ 104 * (h0 * r4) + 2 ^ 26 * (h1 * r0) + 2 ^ 52 * (h1 * r1) + 2 ^ 78 * (h1 * r2) + 2 ^ 104 * (h1 * r3) + 2 ^ 130 * (h1 * r4) + 2 ^ 52 * (h2 * r0) + 2 ^ 78 * (h2 * r1) + 2 ^ 104 * (h2 * r2) + 2 ^ 130 * (h2 * r3) + 2 ^ 156 * (h2 * r4) + 2 ^ 78 * (h3 * r0) + 2 ^ 104 * (h3 * r1) + 2 ^ 130 * (h3 * r2) + 2 ^ 156 * (h3 * r3) + 2 ^ 182 * (h3 * r4) + 2 ^ 104 * (h4 * r0) + 2 ^ 130 * (h4 * r1) + 2 ^ 156 * (h4 * r2) + 2 ^ 182 * (h4 * r3) + 2 ^ 208 * (h4 * r4)).
  { unfold val. cbn [l0 l1 l2 l3 l4]. ring. }
  rewrite V. clear V.
  assert (S5 : forall a b, a * (b * 5) = 5 * (a * b)) by (intros; ring).
  unfold mul64. rewrite !S5. clear S5.
  generalize dependent (h0 * r0); intros p00.
  generalize dependent (h0 * r1); intros p01.
  generalize dependent (h0 * r2); intros p02.
  generalize dependent (h0 * r3); intros p03.
  generalize dependent (h0 * r4); intros p04.
  generalize dependent (h1 * r0); intros p10.
  generalize dependent (h1 * r1); intros p11.
  generalize dependent (h1 * r2); intros p12.
  generalize dependent (h1 * r3); intros p13.
  generalize dependent (h1 * r4); intros p14.
  generalize dependent (h2 * r0); intros p20.
  generalize dependent (h2 * r1); intros p21.
  generalize dependent (h2 * r2); intros p22.
  generalize dependent (h2 * r3); intros p23.
  generalize dependent (h2 * r4); intros p24.
  generalize dependent (h3 * r0); intros p30.
  generalize dependent (h3 * r1); intros p31.
  generalize dependent (h3 * r2); intros p32.
  generalize dependent (h3 * r3); intros p33.
  generalize dependent (h3 * r4); intros p34.
  generalize dependent (h4 * r0); intros p40.
  generalize dependent (h4 * r1); intros p41.
  generalize dependent (h4 * r2); intros p42.
  generalize dependent (h4 * r3); intros p43.
  generalize dependent (h4 * r4); intros p44.
  intros.
  rewrite !(u64_id p00), !(u64_id p01), !(u64_id p02), !(u64_id p03), !(u64_id p04), !(u64_id p10), !(u64_id p11), !(u64_id p12), !(u64_id p13),
    !(u64_id p20), !(u64_id p21), !(u64_id p22), !(u64_id p30), !(u64_id p31), !(u64_id p40) by (unfold U64; lia).
  rewrite !(u64_id (5 * p14)), !(u64_id (5 * p23)), !(u64_id (5 * p24)), !(u64_id (5 * p32)), !(u64_id (5 * p33)), !(u64_id (5 * p34)),
    !(u64_id (5 * p41)), !(u64_id (5 * p42)), !(u64_id (5 * p43)), !(u64_id (5 * p44)) by (unfold U64; lia).
  rewrite !add5 by lia.
  pose proof (chain_ok (p00 + 5 * p14 + 5 * p23 + 5 * p32 + 5 * p41) (p01 + p10 + 5 * p24 + 5 * p33 + 5 * p42) (p02 + p11 + p20 + 5 * p34 + 5 * p43) (p03 + p12 + p21 + p30 + 5 * p44) (p04 + p13 + p22 + p31 + p40)
    ltac:(lia) ltac:(lia) ltac:(lia) ltac:(lia) ltac:(lia)) as (C1 & b & C2).
  split; [exact C1|]. exists (b + p14 + p23 + p32 + p41 + 2 ^ 26 * (p24 + p33 + p42) + 2 ^ 52 * (p34 + p43) + 2 ^ 78 * p44).
  match type of C2 with _ = ?v + _ => set (hh := v) in * end.
  clearbody hh. clear - C2. unfold P1305 in *. lia.
Qed.
