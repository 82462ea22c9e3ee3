(** Proofs about the stream cipher. *)
From Coq Require Import String.
From Verif Require Import Base Bits PolyModel PolySpec PolyProof PolyProof3 ChachaModel ChachaSpec.
Local Open Scope Z_scope.

Definition isw (x : Z) : Prop := 0 <= x < 4294967296.
Definition list_of (x : chacha_ctx) : list Z :=
  [i0 x; i1 x; i2 x; i3 x; i4 x; i5 x; i6 x; i7 x; i8 x; i9 x; i10 x; i11 x; i12 x; i13 x; i14 x; i15 x].
Definition wordy (x : chacha_ctx) : Prop := Forall isw (list_of x).

(** ** The rounds *)
Lemma rot_eq : forall v n, isw v -> 0 < n < 32 -> ROTATE v n = rotl n v /\ isw (rotl n v).
Proof.
  intros v n Hv Hn. unfold isw in *. split.
  - unfold ROTATE, rotl. rewrite shl32_eq, shr_div by lia.
    assert (P1 : 0 < 2 ^ n) by (apply Z.pow_pos_nonneg; lia). assert (P2 : 0 < 2 ^ (32 - n)) by (apply Z.pow_pos_nonneg; lia).
    assert (E : 2 ^ 32 = 2 ^ (32 - n) * 2 ^ n) by (rewrite <- Z.pow_add_r by lia; f_equal; lia).
    assert (B : 0 <= v / 2 ^ (32 - n) < 2 ^ n).
    { split; [apply Z.div_pos; lia|]. apply Z.div_lt_upper_bound; [lia|]. rewrite <- E. change (2 ^ 32) with 4294967296. lia. }
    rewrite lor_disjoint by lia. symmetry. rewrite E. pose proof (Z.mod_pos_bound v (2 ^ (32 - n)) P2) as B2.
    rewrite (Z.div_mod v (2 ^ (32 - n))) at 1 by lia.
    symmetry. apply Z.mod_unique with (q := v / 2 ^ (32 - n)); [left; nia|ring].
  - unfold rotl. apply (Z.mod_pos_bound _ (2 ^ 32)). lia.
Qed.
Lemma xor_word : forall a b, isw a -> isw b -> isw (Z.lxor a b).
Proof. intros a b. unfold isw. change 4294967296 with (2 ^ 32). intros. now apply lxor_small. Qed.
Lemma mod_word : forall a, isw (a mod 2 ^ 32).
Proof. intros a. apply (Z.mod_pos_bound a (2 ^ 32)). lia. Qed.
(** The four words of a quarter round. *)
Definition qr4 (a b c d : Z) : Z * Z * Z * Z :=
  let a := (a + b) mod 2 ^ 32 in let d := rotl 16 (Z.lxor d a) in
  let c := (c + d) mod 2 ^ 32 in let b := rotl 12 (Z.lxor b c) in
  let a := (a + b) mod 2 ^ 32 in let d := rotl 8 (Z.lxor d a) in
  let c := (c + d) mod 2 ^ 32 in let b := rotl 7 (Z.lxor b c) in
  (a, b, c, d).
Lemma rotl_word : forall n v, isw (rotl n v).
Proof. intros. apply mod_word. Qed.
Lemma QR_eq : forall a b c d, isw a -> isw b -> isw c -> isw d -> QUARTERROUND a b c d = qr4 a b c d.
Proof.
  intros a b c d Ha Hb Hc Hd. unfold QUARTERROUND, qr4, PLUS, XOR, u32, U32. change 4294967296 with (2 ^ 32). cbv zeta.
  rewrite !(fun v n H N => proj1 (rot_eq v n H N)) by (try lia; repeat (apply xor_word || apply mod_word || apply rotl_word || assumption)).
  reflexivity.
Qed.
Lemma qr4_words : forall a b c d, isw a -> isw b -> isw c -> isw d ->
  exists a' b' c' d', qr4 a b c d = (a', b', c', d') /\ isw a' /\ isw b' /\ isw c' /\ isw d'.
Proof.
  intros a b c d Ha Hb Hc Hd. unfold qr4. cbv zeta. do 4 eexists. split; [reflexivity|].
  repeat split; try apply mod_word; try apply rotl_word.
Qed.
Lemma quarter_0 : forall x0 x1 x2 x3 x4 x5 x6 x7 x8 x9 x10 x11 x12 x13 x14 x15, quarter 0 4 8 12 [x0; x1; x2; x3; x4; x5; x6; x7; x8; x9; x10; x11; x12; x13; x14; x15] =
  let '(x0, x4, x8, x12) := qr4 x0 x4 x8 x12 in [x0; x1; x2; x3; x4; x5; x6; x7; x8; x9; x10; x11; x12; x13; x14; x15].
Proof. reflexivity. Qed.
Lemma quarter_1 : forall x0 x1 x2 x3 x4 x5 x6 x7 x8 x9 x10 x11 x12 x13 x14 x15, quarter 1 5 9 13 [x0; x1; x2; x3; x4; x5; x6; x7; x8; x9; x10; x11; x12; x13; x14; x15] =
  let '(x1, x5, x9, x13) := qr4 x1 x5 x9 x13 in [x0; x1; x2; x3; x4; x5; x6; x7; x8; x9; x10; x11; x12; x13; x14; x15].
Proof. reflexivity. Qed.
Lemma quarter_2 : forall x0 x1 x2 x3 x4 x5 x6 x7 x8 x9 x10 x11 x12 x13 x14 x15, quarter 2 6 10 14 [x0; x1; x2; x3; x4; x5; x6; x7; x8; x9; x10; x11; x12; x13; x14; x15] =
  let '(x2, x6, x10, x14) := qr4 x2 x6 x10 x14 in [x0; x1; x2; x3; x4; x5; x6; x7; x8; x9; x10; x11; x12; x13; x14; x15].
Proof. reflexivity. Qed.
Lemma quarter_3 : forall x0 x1 x2 x3 x4 x5 x6 x7 x8 x9 x10 x11 x12 x13 x14 x15, quarter 3 7 11 15 [x0; x1; x2; x3; x4; x5; x6; x7; x8; x9; x10; x11; x12; x13; x14; x15] =
  let '(x3, x7, x11, x15) := qr4 x3 x7 x11 x15 in [x0; x1; x2; x3; x4; x5; x6; x7; x8; x9; x10; x11; x12; x13; x14; x15].
Proof. reflexivity. Qed.
Lemma quarter_4 : forall x0 x1 x2 x3 x4 x5 x6 x7 x8 x9 x10 x11 x12 x13 x14 x15, quarter 0 5 10 15 [x0; x1; x2; x3; x4; x5; x6; x7; x8; x9; x10; x11; x12; x13; x14; x15] =
  let '(x0, x5, x10, x15) := qr4 x0 x5 x10 x15 in [x0; x1; x2; x3; x4; x5; x6; x7; x8; x9; x10; x11; x12; x13; x14; x15].
Proof. reflexivity. Qed.
Lemma quarter_5 : forall x0 x1 x2 x3 x4 x5 x6 x7 x8 x9 x10 x11 x12 x13 x14 x15, quarter 1 6 11 12 [x0; x1; x2; x3; x4; x5; x6; x7; x8; x9; x10; x11; x12; x13; x14; x15] =
  let '(x1, x6, x11, x12) := qr4 x1 x6 x11 x12 in [x0; x1; x2; x3; x4; x5; x6; x7; x8; x9; x10; x11; x12; x13; x14; x15].
Proof. reflexivity. Qed.
Lemma quarter_6 : forall x0 x1 x2 x3 x4 x5 x6 x7 x8 x9 x10 x11 x12 x13 x14 x15, quarter 2 7 8 13 [x0; x1; x2; x3; x4; x5; x6; x7; x8; x9; x10; x11; x12; x13; x14; x15] =
  let '(x2, x7, x8, x13) := qr4 x2 x7 x8 x13 in [x0; x1; x2; x3; x4; x5; x6; x7; x8; x9; x10; x11; x12; x13; x14; x15].
Proof. reflexivity. Qed.
Lemma quarter_7 : forall x0 x1 x2 x3 x4 x5 x6 x7 x8 x9 x10 x11 x12 x13 x14 x15, quarter 3 4 9 14 [x0; x1; x2; x3; x4; x5; x6; x7; x8; x9; x10; x11; x12; x13; x14; x15] =
  let '(x3, x4, x9, x14) := qr4 x3 x4 x9 x14 in [x0; x1; x2; x3; x4; x5; x6; x7; x8; x9; x10; x11; x12; x13; x14; x15].
Proof. reflexivity. Qed.

Lemma two_rounds_ok : forall x, wordy x -> wordy (two_rounds x) /\ list_of (two_rounds x) = double_round (list_of x).
Proof.
  intros [x0 x1 x2 x3 x4 x5 x6 x7 x8 x9 x10 x11 x12 x13 x14 x15] W. unfold wordy, list_of in W. cbn [i0 i1 i2 i3 i4 i5 i6 i7 i8 i9 i10 i11 i12 i13 i14 i15] in W.
  repeat match goal with H : Forall isw (_ :: _) |- _ => apply Forall_cons_iff in H; destruct H as [? H] end. clear W.
  unfold two_rounds, double_round. cbv zeta. unfold list_of at 2. cbn [i0 i1 i2 i3 i4 i5 i6 i7 i8 i9 i10 i11 i12 i13 i14 i15].
  rewrite quarter_0. rewrite (QR_eq x0 x4 x8 x12) by assumption.
  destruct (qr4_words x0 x4 x8 x12) as (y0 & y4 & y8 & y12 & E & ? & ? & ? & ?); try assumption. rewrite E. clear E.
  clear dependent x0. rename y0 into x0. clear dependent x4. rename y4 into x4. clear dependent x8. rename y8 into x8. clear dependent x12. rename y12 into x12.
  rewrite quarter_1. rewrite (QR_eq x1 x5 x9 x13) by assumption.
  destruct (qr4_words x1 x5 x9 x13) as (y1 & y5 & y9 & y13 & E & ? & ? & ? & ?); try assumption. rewrite E. clear E.
  clear dependent x1. rename y1 into x1. clear dependent x5. rename y5 into x5. clear dependent x9. rename y9 into x9. clear dependent x13. rename y13 into x13.
  rewrite quarter_2. rewrite (QR_eq x2 x6 x10 x14) by assumption.
  destruct (qr4_words x2 x6 x10 x14) as (y2 & y6 & y10 & y14 & E & ? & ? & ? & ?); try assumption. rewrite E. clear E.
  clear dependent x2. rename y2 into x2. clear dependent x6. rename y6 into x6. clear dependent x10. rename y10 into x10. clear dependent x14. rename y14 into x14.
  rewrite quarter_3. rewrite (QR_eq x3 x7 x11 x15) by assumption.
  destruct (qr4_words x3 x7 x11 x15) as (y3 & y7 & y11 & y15 & E & ? & ? & ? & ?); try assumption. rewrite E. clear E.
  clear dependent x3. rename y3 into x3. clear dependent x7. rename y7 into x7. clear dependent x11. rename y11 into x11. clear dependent x15. rename y15 into x15.
  rewrite quarter_4. rewrite (QR_eq x0 x5 x10 x15) by assumption.
  destruct (qr4_words x0 x5 x10 x15) as (y0 & y5 & y10 & y15 & E & ? & ? & ? & ?); try assumption. rewrite E. clear E.
  clear dependent x0. rename y0 into x0. clear dependent x5. rename y5 into x5. clear dependent x10. rename y10 into x10. clear dependent x15. rename y15 into x15.
  rewrite quarter_5. rewrite (QR_eq x1 x6 x11 x12) by assumption.
  destruct (qr4_words x1 x6 x11 x12) as (y1 & y6 & y11 & y12 & E & ? & ? & ? & ?); try assumption. rewrite E. clear E.
  clear dependent x1. rename y1 into x1. clear dependent x6. rename y6 into x6. clear dependent x11. rename y11 into x11. clear dependent x12. rename y12 into x12.
  rewrite quarter_6. rewrite (QR_eq x2 x7 x8 x13) by assumption.
  destruct (qr4_words x2 x7 x8 x13) as (y2 & y7 & y8 & y13 & E & ? & ? & ? & ?); try assumption. rewrite E. clear E.
  clear dependent x2. rename y2 into x2. clear dependent x7. rename y7 into x7. clear dependent x8. rename y8 into x8. clear dependent x13. rename y13 into x13.
  rewrite quarter_7. rewrite (QR_eq x3 x4 x9 x14) by assumption.
  destruct (qr4_words x3 x4 x9 x14) as (y3 & y4 & y9 & y14 & E & ? & ? & ? & ?); try assumption. rewrite E. clear E.
  clear dependent x3. rename y3 into x3. clear dependent x4. rename y4 into x4. clear dependent x9. rename y9 into x9. clear dependent x14. rename y14 into x14.
  split; [|reflexivity]. unfold wordy, list_of. cbn [i0 i1 i2 i3 i4 i5 i6 i7 i8 i9 i10 i11 i12 i13 i14 i15]. repeat (apply Forall_cons; [assumption|]). apply Forall_nil.
Qed.
Lemma rounds_ok : forall n x, wordy x -> wordy (Nat.iter n two_rounds x) /\ list_of (Nat.iter n two_rounds x) = Nat.iter n double_round (list_of x).
Proof.
  induction n as [|n IH]; intros x W; [split; [exact W|reflexivity]|]. destruct (IH x W) as [W' E]. unfold Nat.iter in *. cbn [nat_rect].
  rewrite <- E. now apply two_rounds_ok.
Qed.
