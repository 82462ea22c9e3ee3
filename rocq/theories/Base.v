(** Shared definitions: bytes, byte strings, unsigned words, big-endian
    integers, small list helpers.  No modelling decisions live here. *)
From Coq Require Import String Ascii.
From Coq Require Export ZArith List Lia Bool.
From Coq Require Export ZifyBool ZifyNat.
Export ListNotations.
Open Scope Z_scope.

Notation byte := Z (only parsing).
Notation bytes := (list Z) (only parsing).

Definition is_byte (b : Z) : Prop := 0 <= b < 256.
Definition is_bytes (l : list Z) : Prop := Forall is_byte l.

(** Length of a list as an integer. *)
Definition zlen {A} (l : list A) : Z := Z.of_nat (length l).

(** Conversion of a Coq string literal to bytes, used in readable constants. *)
Fixpoint bs (s : string) : list Z :=
  match s with
  | EmptyString => []
  | String c r => Z.of_nat (nat_of_ascii c) :: bs r
  end.
Arguments bs s%string_scope.

(** Prefix / suffix with integer counts (negative counts act as zero). *)
Definition ztake {A} (n : Z) (l : list A) : list A := firstn (Z.to_nat n) l.
Definition zdrop {A} (n : Z) (l : list A) : list A := skipn (Z.to_nat n) l.

(** Unsigned C arithmetic. *)
Definition U8 : Z := 256.
Definition U16 : Z := 65536.
Definition U32 : Z := 4294967296.
Definition U64 : Z := 18446744073709551616.
Definition u8 (x : Z) : Z := x mod U8.
Definition u16 (x : Z) : Z := x mod U16.
Definition u32 (x : Z) : Z := x mod U32.
Definition u64 (x : Z) : Z := x mod U64.
Definition SIZE_MAX : Z := U64 - 1.

(** Big-endian integers: [be_enc n v] is the n-byte encoding of v mod 256^n,
    [be_dec] the value of a byte string. *)
Fixpoint be_enc (n : nat) (v : Z) : list Z :=
  match n with
  | O => []
  | S k => be_enc k (v / 256) ++ [v mod 256]
  end.

Fixpoint be_acc (acc : Z) (l : list Z) : Z :=
  match l with
  | [] => acc
  | b :: r => be_acc (acc * 256 + b) r
  end.
Definition be_dec (l : list Z) : Z := be_acc 0 l.

(** Equality of byte strings. *)
Fixpoint beqb (a b : list Z) : bool :=
  match a, b with
  | [], [] => true
  | x :: a', y :: b' => (x =? y) && beqb a' b'
  | _, _ => false
  end.

(** Split conjunctions only (never records). *)
Ltac splits := repeat match goal with |- _ /\ _ => split end.

(** ** Basic facts *)

Lemma zlen_nil : forall A, zlen (@nil A) = 0.
Proof. reflexivity. Qed.
Lemma zlen_cons : forall A (x : A) l, zlen (x :: l) = zlen l + 1.
Proof. intros. unfold zlen. cbn [length]. lia. Qed.
Lemma zlen_app : forall A (a b : list A), zlen (a ++ b) = zlen a + zlen b.
Proof. intros. unfold zlen. rewrite app_length. lia. Qed.
Lemma zlen_nonneg : forall A (l : list A), 0 <= zlen l.
Proof. intros. unfold zlen. lia. Qed.
Lemma zlen_ztake : forall A n (l : list A), 0 <= n <= zlen l -> zlen (ztake n l) = n.
Proof. intros. unfold zlen, ztake in *. rewrite firstn_length. lia. Qed.
Lemma zlen_zdrop : forall A n (l : list A), 0 <= n <= zlen l -> zlen (zdrop n l) = zlen l - n.
Proof. intros. unfold zlen, zdrop in *. rewrite skipn_length. lia. Qed.
Lemma zlen_repeat : forall A (x : A) n, zlen (repeat x n) = Z.of_nat n.
Proof. intros. unfold zlen. rewrite repeat_length. reflexivity. Qed.
Lemma zlen_zero_nil : forall A (l : list A), zlen l = 0 -> l = [].
Proof. intros A l H. destruct l; [reflexivity|]. rewrite zlen_cons in H. pose proof (zlen_nonneg A l). lia. Qed.

Lemma ztake_zdrop : forall A n (l : list A), ztake n l ++ zdrop n l = l.
Proof. intros. apply firstn_skipn. Qed.
Lemma ztake_0 : forall A (l : list A), ztake 0 l = [].
Proof. reflexivity. Qed.
Lemma zdrop_0 : forall A (l : list A), zdrop 0 l = l.
Proof. reflexivity. Qed.
Lemma ztake_all : forall A n (l : list A), zlen l <= n -> ztake n l = l.
Proof. intros. unfold ztake, zlen in *. apply firstn_all2. lia. Qed.
Lemma zdrop_all : forall A n (l : list A), zlen l <= n -> zdrop n l = [].
Proof. intros. unfold zdrop, zlen in *. apply skipn_all2. lia. Qed.
Lemma ztake_app_l : forall A n (a b : list A), 0 <= n <= zlen a -> ztake n (a ++ b) = ztake n a.
Proof.
  intros A n a b H. unfold ztake, zlen in *. rewrite firstn_app.
  replace (Z.to_nat n - length a)%nat with 0%nat by lia. cbn. apply app_nil_r.
Qed.
Lemma ztake_app_exact : forall A n (a b : list A), n = zlen a -> ztake n (a ++ b) = a.
Proof.
  intros A n a b H. rewrite ztake_app_l by (pose proof (zlen_nonneg A a); lia).
  apply ztake_all. lia.
Qed.
Lemma ztake_app_r : forall A n (a b : list A), zlen a <= n -> ztake n (a ++ b) = a ++ ztake (n - zlen a) b.
Proof.
  intros A n a b H. unfold ztake, zlen in *. rewrite firstn_app. rewrite firstn_all2 by lia.
  f_equal. f_equal. lia.
Qed.
Lemma zdrop_app_l : forall A n (a b : list A), 0 <= n <= zlen a -> zdrop n (a ++ b) = zdrop n a ++ b.
Proof.
  intros A n a b H. unfold zdrop, zlen in *. rewrite skipn_app.
  replace (Z.to_nat n - length a)%nat with 0%nat by lia. reflexivity.
Qed.
Lemma zdrop_app_exact : forall A n (a b : list A), n = zlen a -> zdrop n (a ++ b) = b.
Proof.
  intros A n a b H. rewrite zdrop_app_l by (pose proof (zlen_nonneg A a); lia).
  rewrite zdrop_all by lia. reflexivity.
Qed.
Lemma zdrop_app_r : forall A n (a b : list A), zlen a <= n -> zdrop n (a ++ b) = zdrop (n - zlen a) b.
Proof.
  intros A n a b H. unfold zdrop, zlen in *. rewrite skipn_app. rewrite skipn_all2 by lia.
  cbn. f_equal. lia.
Qed.
Lemma zdrop_zdrop : forall A n m (l : list A), 0 <= n -> 0 <= m -> zdrop n (zdrop m l) = zdrop (n + m) l.
Proof.
  intros A n m l Hn Hm. unfold zdrop.
  replace (Z.to_nat (n + m)) with (Z.to_nat m + Z.to_nat n)%nat by lia.
  generalize (Z.to_nat n) (Z.to_nat m). clear. intros n m. revert l n.
  induction m; intros l n; cbn; [reflexivity|]. destruct l; cbn.
  - destruct n; reflexivity.
  - apply IHm.
Qed.
Lemma ztake_ztake : forall A n m (l : list A), 0 <= n <= m -> ztake n (ztake m l) = ztake n l.
Proof.
  intros A n m l H. unfold ztake. rewrite firstn_firstn. f_equal. lia.
Qed.
Lemma ztake_zdrop_comm : forall A n m (l : list A), 0 <= n -> 0 <= m ->
  zdrop m (ztake (n + m) l) = ztake n (zdrop m l).
Proof.
  intros A n m l Hn Hm. unfold ztake, zdrop.
  rewrite firstn_skipn_comm. f_equal. f_equal. lia.
Qed.

Lemma u64_id : forall x, 0 <= x < U64 -> u64 x = x.
Proof. intros. apply Z.mod_small. assumption. Qed.
Lemma u32_id : forall x, 0 <= x < U32 -> u32 x = x.
Proof. intros. apply Z.mod_small. assumption. Qed.
Lemma u8_id : forall x, 0 <= x < U8 -> u8 x = x.
Proof. intros. apply Z.mod_small. assumption. Qed.

Lemma is_bytes_app : forall a b, is_bytes (a ++ b) <-> is_bytes a /\ is_bytes b.
Proof. intros. apply Forall_app. Qed.
Lemma is_bytes_ztake : forall n l, is_bytes l -> is_bytes (ztake n l).
Proof.
  intros n l H. rewrite <- (ztake_zdrop _ n l) in H. apply is_bytes_app in H. tauto.
Qed.
Lemma is_bytes_zdrop : forall n l, is_bytes l -> is_bytes (zdrop n l).
Proof.
  intros n l H. rewrite <- (ztake_zdrop _ n l) in H. apply is_bytes_app in H. tauto.
Qed.

Lemma be_enc_length : forall n v, length (be_enc n v) = n.
Proof.
  induction n; intros v; cbn [be_enc]; [reflexivity|].
  rewrite app_length, IHn. cbn. lia.
Qed.
Lemma zlen_be_enc : forall n v, zlen (be_enc n v) = Z.of_nat n.
Proof. intros. unfold zlen. now rewrite be_enc_length. Qed.
Lemma be_enc_bytes : forall n v, is_bytes (be_enc n v).
Proof.
  induction n; intros v; cbn [be_enc]; [constructor|].
  apply is_bytes_app. split; [apply IHn|]. constructor; [|constructor].
  unfold is_byte. apply Z.mod_pos_bound. lia.
Qed.
Lemma be_acc_app : forall a b acc, be_acc acc (a ++ b) = be_acc (be_acc acc a) b.
Proof. induction a; intros; cbn; auto. Qed.
Lemma be_dec_app1 : forall a x, be_dec (a ++ [x]) = be_dec a * 256 + x.
Proof. intros. unfold be_dec. rewrite be_acc_app. reflexivity. Qed.
Lemma be_dec_enc : forall n v, be_dec (be_enc n v) = v mod 256 ^ Z.of_nat n.
Proof.
  induction n; intros v.
  - cbn. now rewrite Z.mod_1_r.
  - cbn [be_enc]. rewrite be_dec_app1, IHn.
    rewrite Nat2Z.inj_succ, Z.pow_succ_r by lia.
    rewrite Z.rem_mul_r by lia. lia.
Qed.
Lemma be_dec_enc_id : forall n v, 0 <= v < 256 ^ Z.of_nat n -> be_dec (be_enc n v) = v.
Proof. intros. rewrite be_dec_enc. now apply Z.mod_small. Qed.
Lemma be_acc_bound : forall l acc, is_bytes l -> 0 <= acc ->
  acc * 256 ^ zlen l <= be_acc acc l < (acc + 1) * 256 ^ zlen l.
Proof.
  induction l as [|b l IH]; intros acc H Hacc.
  - cbn [be_acc]. rewrite zlen_nil. lia.
  - cbn [be_acc]. inversion H; subst. unfold is_byte in *.
    specialize (IH (acc * 256 + b) H3 ltac:(lia)).
    rewrite zlen_cons, Z.pow_add_r by (pose proof (zlen_nonneg Z l); lia).
    change (256 ^ 1) with 256.
    assert (0 < 256 ^ zlen l) by (apply Z.pow_pos_nonneg; [lia|apply zlen_nonneg]).
    nia.
Qed.
Lemma be_dec_bound : forall l, is_bytes l -> 0 <= be_dec l < 256 ^ zlen l.
Proof. intros l H. pose proof (be_acc_bound l 0 H ltac:(lia)). unfold be_dec. lia. Qed.
Lemma be_enc_dec : forall l, is_bytes l -> be_enc (length l) (be_dec l) = l.
Proof.
  intros l. pattern l. apply rev_ind; [reflexivity|].
  intros x a IH H. apply is_bytes_app in H. destruct H as [Ha Hx]. inversion Hx; subst.
  unfold is_byte in *. rewrite app_length. cbn [length]. rewrite Nat.add_1_r. cbn [be_enc].
  rewrite be_dec_app1.
  replace ((be_dec a * 256 + x) / 256) with (be_dec a) by (rewrite Z.div_add_l by lia; rewrite Z.div_small by lia; lia).
  replace ((be_dec a * 256 + x) mod 256) with x by (rewrite Z.add_comm, Z.mod_add by lia; rewrite Z.mod_small by lia; lia).
  now rewrite IH.
Qed.

Lemma beqb_eq : forall a b, beqb a b = true <-> a = b.
Proof.
  induction a; destruct b; cbn; split; intros H; try discriminate; auto.
  - apply andb_true_iff in H. destruct H as [H1 H2]. apply Z.eqb_eq in H1. apply IHa in H2. congruence.
  - inversion H; subst. rewrite Z.eqb_refl. cbn. now apply IHa.
Qed.
Lemma beqb_refl : forall a, beqb a a = true.
Proof. intros. now apply beqb_eq. Qed.
Lemma beqb_neq : forall a b, beqb a b = false <-> a <> b.
Proof.
  intros. rewrite <- beqb_eq. destruct (beqb a b); split; intros; try discriminate; try tauto; try congruence.
Qed.
Lemma bytes_eq_dec : forall a b : list Z, {a = b} + {a <> b}.
Proof. apply list_eq_dec. apply Z.eq_dec. Qed.
