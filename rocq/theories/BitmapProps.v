(** C39: bitmaps are finite sets of bit numbers. *)
From Verif Require Import Base Bits BitmapModel BitmapSpec BitmapProof.
Local Open Scope Z_scope.

(** Every history of calls, whatever the allocator does, stays inside the
    allocated words and answers as a finite set of bit numbers would. *)
Theorem C39_histories : forall os, Forall arg_ok os ->
  exists rs b N, bruns bitmap_new os = Some (rs, b) /\ spec_run 0 os rs N.
Proof.
  intros os A. destruct (bruns_spec os bitmap_new 0 inv_new A) as (rs & b & N & E & _ & S). now exists rs, b, N.
Qed.
Print Assumptions C39_histories.
Example C39_histories_ex :
  bruns bitmap_new [BSet 3 true; BSet 70 false; BSet 70 true; BTest 70; BNbits; BToString (repeat 7 10); BClear 70; BNbytes; BTest 3; BTest 70; BFromString [1; 2] true; BTest 8; BTest 9]
  = Some ([OInt 0; OInt (-1); OInt 0; OInt 1; OInt 71; OBytes 0 [64; 0; 0; 0; 0; 0; 0; 0; 8; 7]; OVoid; OInt 1; OInt 1; OInt 0; OInt 0; OInt 1; OInt 0], mkB [258; 0; 0] 0).
Proof. reflexivity. Qed.

(** The byte string written by any bitmap has no leading zero byte, contains
    exactly the members (bit n is bit n mod 8 of the byte n / 8 places from the
    end), and reading it into any bitmap gives the same set again, provided no
    member exceeds 2^24 - 1. *)
Theorem C39_round_trip : forall os rs b os2 rs2 c, Forall arg_ok os -> Forall arg_ok os2 ->
  bruns bitmap_new os = Some (rs, b) -> bruns bitmap_new os2 = Some (rs2, c) ->
  exists n b1, bitmap_nbytes b = Some (n, b1) /\
  forall p, zlen p = n -> exists s b2, bitmap_to_string b p = Some (true, s, b2) /\ zlen s = n /\
    (forall r, s <> 0 :: r) /\
    (forall k, 0 <= k < U32 -> bitmap_test_bit b k = Some (if k / 8 <? n then Z.testbit (nth (Z.to_nat (n - 1 - k / 8)) s 0) (k mod 8) else false)) /\
    (bitmap_test_bit b 16777216 = Some false -> exists c', bitmap_from_string true c s = Some (true, c') /\
       forall k, 0 <= k < U32 -> bitmap_test_bit c' k = bitmap_test_bit b k).
Proof.
  intros os rs b os2 rs2 c A A2 R R2. destruct (bruns_spec os bitmap_new 0 inv_new A) as (rs' & b' & N & E & I & _).
  rewrite R in E. injection E as <- <-. destruct (bruns_spec os2 bitmap_new 0 inv_new A2) as (rs2' & c' & M & E2 & I2 & _).
  rewrite R2 in E2. injection E2 as <- <-.
  destruct (nbytes_spec b N I) as (b1 & E1 & _ & _ & B0 & _). exists (bytes_of N), b1. split; [exact E1|]. intros p Hp.
  destruct (to_string_spec b N p I) as (b2 & ok & p' & ET & _ & Q). rewrite Hp, Z.ltb_irrefl in Q. destruct Q as [-> ->].
  rewrite zdrop_all, app_nil_r in ET by lia. assert (NN : 0 <= N) by (destruct I as (_ & W & V & _); rewrite <- V; now apply val_nonneg).
  set (m := Z.to_nat (bytes_of N)) in *. assert (Hm : Z.of_nat m = bytes_of N) by (unfold m; lia).
  assert (Rng : 0 <= N < 256 ^ Z.of_nat m).
  { split; [exact NN|]. rewrite Hm. change 256 with (2 ^ 8). rewrite <- Z.pow_mul_r by lia. unfold bytes_of, size_of. destruct (N =? 0) eqn:Ez.
    - replace N with 0 by lia. apply Z.pow_pos_nonneg; [lia|]. vm_compute. discriminate.
    - apply Z.log2_lt_pow2; [lia|]. pose proof (Z.div_mod (Z.log2 N + 1 + 7) 8). pose proof (Z.mod_pos_bound (Z.log2 N + 1 + 7) 8). lia. }
  exists (be_enc m N), b2. split; [exact ET|]. split; [rewrite zlen_be_enc; exact Hm|].
  assert (Nth : forall j, (j < m)%nat -> nth (m - 1 - j) (be_enc m N) 0 = (N / 256 ^ Z.of_nat j) mod 256).
  { clear. intros j Hj. revert j Hj. induction m as [|m IH]; intros j Hj; [lia|]. rewrite be_enc_head.
    destruct (Nat.eq_dec j m) as [->|]; [replace (S m - 1 - m)%nat with O by lia; reflexivity|].
    replace (S m - 1 - j)%nat with (S (m - 1 - j)) by lia. cbn [nth]. apply IH. lia. }
  split; [|split].
  - intros r Hr. destruct m as [|m'] eqn:Em; [discriminate|]. rewrite be_enc_head in Hr. injection Hr as Hh _.
    assert (N <> 0). { intros ->. unfold bytes_of, size_of in Hm. cbn [Z.eqb] in Hm. change ((0 + 7) / 8) with 0 in Hm. lia. }
    assert (Hb : bytes_of N = (Z.log2 N + 8) / 8) by (unfold bytes_of, size_of; replace (N =? 0) with false by lia; f_equal; lia).
    pose proof (Z.log2_nonneg N). pose proof (Z.div_mod (Z.log2 N + 8) 8 ltac:(lia)). pose proof (Z.mod_pos_bound (Z.log2 N + 8) 8 ltac:(lia)).
    assert (T : Z.testbit ((N / 256 ^ Z.of_nat m') mod 256) (Z.log2 N - 8 * Z.of_nat m') = true).
    { change 256 with (2 ^ 8) at 2. rewrite Z.mod_pow2_bits_low by lia. replace (256 ^ Z.of_nat m') with (2 ^ (8 * Z.of_nat m')) by (rewrite Z.pow_mul_r by lia; reflexivity).
      rewrite Z.div_pow2_bits by lia. replace (Z.log2 N - 8 * Z.of_nat m' + 8 * Z.of_nat m') with (Z.log2 N) by lia. apply Z.bit_log2. lia. }
    rewrite Hh in T. rewrite Z.bits_0 in T. discriminate.
  - intros k Hk. rewrite (test_spec b N k I) by lia. f_equal. assert (0 <= k / 8) by (apply Z.div_pos; lia). pose proof (Z.div_mod k 8 ltac:(lia)) as DM. pose proof (Z.mod_pos_bound k 8 ltac:(lia)).
    destruct (k / 8 <? bytes_of N) eqn:Ek.
    + replace (Z.to_nat (bytes_of N - 1 - k / 8)) with (m - 1 - Z.to_nat (k / 8))%nat by lia. rewrite Nth by lia. rewrite Z2Nat.id by lia.
      change 256 with (2 ^ 8) at 2. rewrite Z.mod_pow2_bits_low by lia. replace (256 ^ (k / 8)) with (2 ^ (8 * (k / 8))) by (rewrite Z.pow_mul_r by lia; reflexivity).
      rewrite Z.div_pow2_bits by lia. f_equal. lia.
    + apply (small_bits _ (8 * Z.of_nat m)); [rewrite Z.pow_mul_r by lia; exact Rng|]. lia.
  - intros Hlim. rewrite (test_spec b N _ I) in Hlim by lia. assert (Hl : Z.testbit N 16777216 = false) by congruence.
    assert (Small : bytes_of N <= 2097152).
    { destruct I as (_ & _ & _ & _ & Mx). unfold bytes_of, size_of. destruct (N =? 0) eqn:Ez; [vm_compute; discriminate|].
      assert (Z.log2 N < 16777216).
      { destruct (Z.lt_trichotomy (Z.log2 N) 16777216) as [L|[L|L]]; [exact L| |].
        - rewrite <- L in Hl. rewrite Z.bit_log2 in Hl by lia. discriminate.
        - assert (X : Z.testbit N (Z.log2 N) = false) by (apply Mx; exact L). rewrite Z.bit_log2 in X by lia. discriminate. }
      apply Z.lt_succ_r, Z.div_lt_upper_bound; lia. }
    destruct (from_spec true c M (be_enc m N) I2 (be_enc_bytes _ _)) as (ok & cc & EF & Q). rewrite zlen_be_enc, Hm in Q. destruct ok.
    + exists cc. split; [exact EF|]. intros k Hk. destruct Q as [_ Q]. rewrite be_dec_enc_id in Q by exact Rng.
      rewrite (test_spec cc N k Q), (test_spec b N k I) by lia. reflexivity.
    + destruct Q as [[Q|Q] _]; [lia|discriminate].
Qed.
Print Assumptions C39_round_trip.
Example C39_round_trip_ex :
  match bruns bitmap_new [BSet 0 true; BSet 33 true; BSet 40 true] with
  | Some (_, b) => bitmap_to_string b [9; 9; 9; 9; 9; 9] = Some (true, [1; 2; 0; 0; 0; 1], b)
  | None => False end.
Proof. reflexivity. Qed.

(** The proviso is needed: bit 2^24 can be set and written out, but
    bitmap_from_string refuses the result. *)
Lemma top_bit : forall k, 0 <= k -> Z.setbit 0 k <> 0 /\ Z.log2 (Z.setbit 0 k) = k.
Proof.
  intros k Hk. apply log2_char; [unfold Z.setbit; apply Z.lor_nonneg; split; [lia|rewrite Z.shiftl_1_l; apply Z.pow_nonneg; lia]|lia| |].
  - rewrite Z.setbit_eqb by lia. now rewrite Z.eqb_refl.
  - intros i Hi. rewrite Z.setbit_eqb, Z.bits_0 by lia. replace (k =? i) with false by lia. reflexivity.
Qed.
Lemma top_bit_string : forall k b, 0 <= k < U32 -> inv b (Z.setbit 0 k) -> forall p, zlen p = (k + 8) / 8 ->
  exists s b2, bitmap_to_string b p = Some (true, s, b2) /\ zlen s = (k + 8) / 8.
Proof.
  intros k b Hk I p Hp. destruct (top_bit k ltac:(lia)) as [N0 LN]. set (N := Z.setbit 0 k) in *.
  assert (BY : bytes_of N = (k + 8) / 8) by (unfold bytes_of, size_of; replace (N =? 0) with false by lia; rewrite LN; f_equal; lia).
  assert (0 <= (k + 8) / 8) by (apply Z.div_pos; lia).
  destruct (to_string_spec b N p I) as (b2 & ok & s & ET & _ & Q). rewrite BY, Hp, Z.ltb_irrefl in Q. destruct Q as [-> Hs].
  exists s, b2. split; [exact ET|]. rewrite Hs, zlen_app, zlen_be_enc, zlen_zdrop; lia.
Qed.
Theorem C39_top_bit_refuted : exists os b, Forall arg_ok os /\ bruns bitmap_new os = Some ([OInt 0], b) /\
  bitmap_test_bit b 16777216 = Some true /\
  forall p, zlen p = 2097153 -> exists s b2, bitmap_to_string b p = Some (true, s, b2) /\
  forall c, bitmap_from_string true c s = Some (false, c).
Proof.
  assert (G : forall k, 0 <= k <= LIM -> exists b, bruns bitmap_new [BSet k true] = Some ([OInt 0], b) /\ inv b (Z.setbit 0 k)).
  { intros k Hk. destruct (set_spec true bitmap_new 0 k inv_new ltac:(unfold U32; unfold LIM in Hk; lia)) as (ok & b & E & Q).
    destruct ok; [|destruct Q as [[Q|Q] _]; [lia|discriminate]]. destruct Q as [_ I]. exists b. split; [|exact I]. cbn [bruns bstep]. rewrite E. reflexivity. }
  destruct (G 16777216 ltac:(unfold LIM; lia)) as (b & E & I). clear G.
  exists [BSet 16777216 true], b. split; [constructor; [cbn [arg_ok]; unfold U32; lia|constructor]|]. split; [exact E|].
  split. { rewrite (test_spec b _ _ I) by lia. rewrite Z.setbit_eqb, Z.eqb_refl by lia. reflexivity. }
  intros p Hp. destruct (top_bit_string 16777216 b ltac:(unfold U32; lia) I p Hp) as (s & b2 & ET & LS). exists s, b2. split; [exact ET|].
  intros c. unfold bitmap_from_string. cbv zeta. rewrite LS. reflexivity.
Qed.
Print Assumptions C39_top_bit_refuted.
