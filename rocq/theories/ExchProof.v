(** Proofs for C79, 1: what is hashed. *)
From Coq Require Import String.
From Verif Require Import Base Text SshbufModel SshbufSpec SshbufProof MiscNumModel WireSpec WireProof AuthOptModel AuthOptProof Dec KeyModel KeySpec KexModel SigProof2 SigProof3 KeyProof KeyProof2 KeyProof3 PrivProof3 PrivProof4 ExchModel ExchSpec.
Local Open Scope Z_scope.

(** ** Numbers *)
Lemma zbits_nonneg : forall z, 0 <= zbits z.
Proof. intros z. unfold zbits. destruct (z =? 0); [lia|]. pose proof (Z.log2_nonneg z). lia. Qed.
Lemma zbits_spec : forall z n, 0 <= z -> 0 < n -> (zbits z = n <-> 2 ^ (n - 1) <= z < 2 ^ n).
Proof.
  intros z n Hz Hn. unfold zbits. destruct (z =? 0) eqn:E.
  - assert (0 < 2 ^ (n - 1)) by (apply Z.pow_pos_nonneg; lia). lia.
  - assert (P : 0 < z) by lia. split.
    + intros <-. replace (Z.log2 z + 1 - 1) with (Z.log2 z) by lia. pose proof (Z.log2_spec z P). unfold Z.succ in *. lia.
    + intros H. assert (Z.log2 z = n - 1); [|lia]. apply Z.log2_unique; [lia|]. replace (Z.succ (n - 1)) with n by lia. assumption.
Qed.
Lemma zbits_lt : forall z n, 0 <= z -> 0 <= n -> (zbits z <= n <-> z < 2 ^ n).
Proof.
  intros z n Hz Hn. unfold zbits. destruct (z =? 0) eqn:E; [assert (0 < 2 ^ n) by (apply Z.pow_pos_nonneg; lia); lia|].
  assert (P : 0 < z) by lia. destruct (Z.eq_dec n 0) as [->|N].
  - pose proof (Z.log2_nonneg z). change (2 ^ 0) with 1. lia.
  - rewrite Z.log2_lt_pow2 by lia. split; lia.
Qed.
Lemma to_bin_bytes : forall z, is_bytes (to_bin z).
Proof. intros z. apply be_enc_bytes. Qed.
Lemma to_bin_len : forall z, zlen (to_bin z) = (zbits z + 7) / 8.
Proof. intros z. unfold to_bin. rewrite zlen_be_enc. rewrite Z2Nat.id; [reflexivity|]. pose proof (zbits_nonneg z). apply Z.div_pos; lia. Qed.
Lemma to_bin_dec : forall z, 0 <= z -> be_dec (to_bin z) = z.
Proof.
  intros z Hz. unfold to_bin. apply be_dec_enc_id. split; [assumption|]. pose proof (zbits_nonneg z) as B. rewrite Z2Nat.id by (apply Z.div_pos; lia).
  change 256 with (2 ^ 8). rewrite <- Z.pow_mul_r by (try apply Z.div_pos; lia). apply zbits_lt; [assumption| |]; Z.to_euclidean_division_equations; lia.
Qed.
Lemma be_dec_cons : forall l c, be_dec (c :: l) = c * 256 ^ zlen l + be_dec l.
Proof.
  intros l c. induction l as [|x l IH] using rev_ind.
  - unfold be_dec. cbn [be_acc]. change (zlen (@nil Z)) with 0. lia.
  - rewrite app_comm_cons, !be_dec_app1, IH, zlen_app. change (zlen [x]) with 1. pose proof (zlen_nonneg _ l). rewrite Z.pow_add_r by lia. change (256 ^ 1) with 256. ring.
Qed.
Lemma to_bin_mag : forall z, 0 <= z -> magnitude (to_bin z).
Proof.
  intros z Hz. destruct (to_bin z) as [|c l] eqn:E; [exact I|]. cbn [magnitude]. intros ->.
  pose proof (to_bin_dec z Hz) as D. pose proof (to_bin_len z) as L. pose proof (to_bin_bytes z) as B. rewrite E in *. rewrite be_dec_cons in D. rewrite zlen_cons in L. apply Forall_cons_iff in B as (_ & B).
  pose proof (be_dec_bound l B) as Bd. pose proof (zlen_nonneg _ l) as N.
  assert (z < 2 ^ (8 * zlen l)) by (rewrite Z.pow_mul_r by lia; change (2 ^ 8) with 256; lia).
  assert (zbits z <= 8 * zlen l) by (apply zbits_lt; lia). Z.to_euclidean_division_equations; lia.
Qed.
Definition mp (z : Z) : list Z := enc_string (mpint_body (to_bin z)).
(** The numbers the format carries are below this. *)
Definition mp_top : Z := 2 ^ 16384.
Lemma to_bin_small : forall z, 0 <= z -> (zlen (to_bin z) <= 2048 <-> z < mp_top).
Proof.
  intros z Hz. rewrite to_bin_len by lia. assert (B : zbits z <= 16384 <-> z < mp_top) by exact (zbits_lt z 16384 Hz ltac:(lia)). rewrite <- B. clear. Z.to_euclidean_division_equations; lia.
Qed.
Lemma put_bn_iff : forall z m b', 0 <= z -> (put_bn z m = Some b' <-> exists b, m = Some b /\ b' = b ++ mp z /\ zlen b' <= 134217728 /\ z < mp_top).
Proof.
  intros z m b' Hz. unfold put_bn, put_mpint. change SSHBUF_MAX_BIGNUM with 2048. destruct (2048 <? zlen (to_bin z)) eqn:E.
  - split; [discriminate|]. intros (b & _ & _ & _ & H). apply to_bin_small in H; lia.
  - rewrite put_str_fits_m. assert (z < mp_top) by (apply to_bin_small; lia). unfold mp. split; intros (b & Hb); exists b; tauto.
Qed.
Lemma get_bn_mp : forall z r, 0 <= z < mp_top -> is_bytes r -> get_bn (mp z ++ r) = Some (z, r).
Proof.
  intros z r Hz Hr. unfold get_bn. assert (G : get_mpint (mp z ++ r) = Some (to_bin z, r)).
  { apply get_mpint_iff.
    - apply Forall_app. split; [|assumption]. apply enc_bytes. apply mpint_body_bytes. apply to_bin_bytes.
    - exists (mp z). split; [|reflexivity]. apply mpint_canon; [apply to_bin_mag; lia|apply to_bin_bytes|]. apply to_bin_small; lia. }
  rewrite G, to_bin_dec by lia. reflexivity.
Qed.
Lemma msb_hd : forall c l, msb (c :: l) = (128 <=? c).
Proof. intros c l. reflexivity. Qed.
Lemma mp_number : forall z, 0 <= z -> number (mp z) z.
Proof.
  intros z Hz. pose proof (to_bin_mag z Hz) as M. pose proof (to_bin_bytes z) as B. exists (mpint_body (to_bin z)). splits.
  - reflexivity. - apply mpint_body_bytes. assumption.
  - unfold mpint_body. rewrite strip0_id by (intros r E; rewrite E in M; now apply M). destruct (to_bin z) as [|c l] eqn:E; [exact I|]. cbn [magnitude] in M. apply Forall_cons_iff in B as (C & _). unfold is_byte in C.
    destruct (msb (c :: l)) eqn:S; rewrite msb_hd in S; [cbn [minimal]; lia|]. destruct l; cbn [minimal]; lia.
  - rewrite <- (to_bin_dec z Hz) at 2. unfold mpint_body. rewrite strip0_id by (intros r E; rewrite E in M; now apply M). destruct (msb (to_bin z)); [|reflexivity]. rewrite be_dec_cons. lia.
Qed.
Lemma get_bn_iff : forall l z r, is_bytes l -> get_bn l = Some (z, r) -> 0 <= z < mp_top /\ is_bytes r.
Proof.
  intros l z r Hl H. unfold get_bn in H. destruct (get_mpint l) as [[v r']|] eqn:E; [|discriminate]. assert (be_dec v = z /\ r' = r) as (<- & ->) by (split; congruence).
  apply get_mpint_iff in E as (w & M & ->); [|assumption]. destruct (mpint_bytes _ _ _ Hl M) as (B & R). split; [|assumption]. destruct M as (_ & zz & _ & _ & _ & L & _).
  pose proof (be_dec_bound v B) as Bd. split; [lia|]. apply Z.lt_le_trans with (256 ^ zlen v); [lia|]. change 256 with (2 ^ 8). rewrite <- Z.pow_mul_r by (pose proof (zlen_nonneg _ v); lia). unfold mp_top. apply Z.pow_le_mono_r; [clear; lia|clear -L; lia].
Qed.

(** ** The bytes hashed *)
Definition opening_of cv sv ci si hk := mkOp cv sv ci si hk.
Lemma enc_kexinit : forall x, zlen x <= 134217728 -> be_enc 4 (u32 (zlen x + 1)) ++ be_enc 1 (u8 20) ++ x = enc_string (20 :: x).
Proof.
  intros x L. unfold enc_string. rewrite zlen_cons. replace (u32 (zlen x + 1)) with (zlen x + 1); [reflexivity|]. symmetry. unfold u32. apply Z.mod_small. unfold U32. pose proof (zlen_nonneg _ x). lia.
Qed.
Lemma put_kexinit_iff : forall x m b', put_kexinit x m = Some b' <-> exists b, m = Some b /\ b' = b ++ enc_string (20 :: x) /\ zlen b' <= 134217728.
Proof.
  intros x m b'. unfold put_kexinit, put_u8, put_u32. rewrite put_m. split.
  - intros (b & H & -> & L). apply put_m in H as (b1 & H & -> & _). apply put_m in H as (b2 & -> & -> & _). exists b2. split; [reflexivity|]. split; [|assumption]. repeat rewrite <- app_assoc. f_equal. apply enc_kexinit. repeat rewrite zlen_app in L. pose proof (zlen_nonneg _ b2). pose proof (zlen_nonneg _ (be_enc 4 (u32 (zlen x + 1)))). pose proof (zlen_nonneg _ (be_enc 1 (u8 SSH2_MSG_KEXINIT))). lia.
  - intros (b & -> & -> & L). assert (Lx : zlen x <= 134217728) by (rewrite zlen_app, zlen_enc_string, zlen_cons in L; pose proof (zlen_nonneg _ b); lia).
    rewrite zlen_app, zlen_enc_string, zlen_cons in L. pose proof (zlen_nonneg _ x).
    exists ((b ++ be_enc 4 (u32 (zlen x + 1))) ++ be_enc 1 (u8 SSH2_MSG_KEXINIT)). splits.
    + apply put_m. exists (b ++ be_enc 4 (u32 (zlen x + 1))). splits; [|reflexivity|rewrite !zlen_app, !zlen_be_enc; lia]. apply put_m. exists b. splits; [reflexivity|reflexivity|rewrite !zlen_app, !zlen_be_enc; lia].
    + repeat rewrite <- app_assoc. f_equal. symmetry. now apply enc_kexinit.
    + rewrite zlen_app, zlen_enc_string, zlen_cons. lia.
Qed.
Ltac nn l := lazymatch goal with H : 0 <= zlen l |- _ => fail | _ => pose proof (zlen_nonneg _ l) end.
Ltac lens := repeat rewrite zlen_app in *; repeat match goal with |- context [zlen ?l] => nn l | H : context [zlen ?l] |- _ => nn l end.
Lemma hash_start_iff : forall cv sv ci si hk b, hash_start cv sv ci si hk = Some b <-> b = opening_bytes (opening_of cv sv ci si hk) /\ zlen b <= 134217728.
Proof.
  intros cv sv ci si hk b. unfold hash_start, opening_bytes, opening_of. cbn [op_cv op_sv op_ci op_si op_hk]. rewrite put_str_fits_m. split.
  - intros (b4 & H & -> & L). apply put_kexinit_iff in H as (b3 & H & -> & _). apply put_kexinit_iff in H as (b2 & H & -> & _). apply put_str_fits_m in H as (b1 & H & -> & _). apply put_str_fits in H as (-> & _). cbn [app]. repeat rewrite <- app_assoc. repeat rewrite <- app_assoc in L. split; [reflexivity|assumption].
  - intros (-> & L). exists (enc_string cv ++ enc_string sv ++ enc_string (20 :: ci) ++ enc_string (20 :: si)). splits; [|repeat rewrite <- app_assoc; reflexivity|assumption].
    apply put_kexinit_iff. exists (enc_string cv ++ enc_string sv ++ enc_string (20 :: ci)). splits; [|repeat rewrite <- app_assoc; reflexivity|lens; lia].
    apply put_kexinit_iff. exists (enc_string cv ++ enc_string sv). splits; [|repeat rewrite <- app_assoc; reflexivity|lens; lia].
    apply put_str_fits_m. exists (enc_string cv). splits; [|reflexivity|lens; lia]. apply put_str_fits. split; [reflexivity|lens; lia].
Qed.
Lemma gen_hash_iff : forall cv sv ci si hk cp sp k b,
  gen_hash_in cv sv ci si hk cp sp k = Some b <-> b = hashed_gen (opening_of cv sv ci si hk) cp sp k /\ zlen b <= 134217728.
Proof.
  intros cv sv ci si hk cp sp k b. unfold gen_hash_in, hashed_gen. rewrite put_m. split.
  - intros (b1 & H & -> & L). apply put_str_fits_m in H as (b2 & H & -> & _). apply put_str_fits_m in H as (b3 & H & -> & _). apply hash_start_iff in H as (-> & _). repeat rewrite <- app_assoc. repeat rewrite <- app_assoc in L. split; [reflexivity|assumption].
  - intros (-> & L). exists (opening_bytes (opening_of cv sv ci si hk) ++ enc_string cp ++ enc_string sp). splits; [|repeat rewrite <- app_assoc; reflexivity|assumption].
    apply put_str_fits_m. exists (opening_bytes (opening_of cv sv ci si hk) ++ enc_string cp). splits; [|repeat rewrite <- app_assoc; reflexivity|lens; lia].
    apply put_str_fits_m. exists (opening_bytes (opening_of cv sv ci si hk)). splits; [|reflexivity|lens; lia]. apply hash_start_iff. split; [reflexivity|lens; lia].
Qed.
Definition opt32 (v : Z) : list Z := if v =? -1 then [] else be_enc 4 (u32 v).
Lemma put_unless_iff : forall v m b', put_unless v m = Some b' <-> exists b, m = Some b /\ b' = b ++ opt32 v /\ (v <> -1 -> zlen b' <= 134217728).
Proof.
  intros v m b'. unfold put_unless, opt32. destruct (v =? -1) eqn:E.
  - split; [intros ->; exists b'; rewrite app_nil_r; splits; auto; lia|intros (b & -> & -> & _); now rewrite app_nil_r].
  - unfold put_u32. rewrite put_m. split; intros (b & H & H' & H''); exists b; splits; auto. apply H''. lia.
Qed.
Definition gex_tail (min n max p g e f : Z) (k : list Z) : list Z := opt32 min ++ be_enc 4 (u32 n) ++ opt32 max ++ mp p ++ mp g ++ mp e ++ mp f ++ k.
Lemma gex_hash_iff : forall cv sv ci si hk min n max p g e f k b, 0 <= p -> 0 <= g -> 0 <= e -> 0 <= f ->
  (gex_hash_in cv sv ci si hk min n max p g e f k = Some b <->
   b = opening_bytes (opening_of cv sv ci si hk) ++ gex_tail min n max p g e f k /\ zlen b <= 134217728 /\ p < mp_top /\ g < mp_top /\ e < mp_top /\ f < mp_top).
Proof.
  intros cv sv ci si hk min n max p g e f k b P G E F. unfold gex_hash_in, gex_tail. rewrite put_m. split.
  - intros (b1 & H & -> & L). apply put_bn_iff in H as (b2 & H & -> & _ & ?); [|assumption]. apply put_bn_iff in H as (b3 & H & -> & _ & ?); [|assumption]. apply put_bn_iff in H as (b4 & H & -> & _ & ?); [|assumption]. apply put_bn_iff in H as (b5 & H & -> & _ & ?); [|assumption].
    apply put_unless_iff in H as (b6 & H & -> & _). apply put_m in H as (b7 & H & -> & _). apply put_unless_iff in H as (b8 & H & -> & _). apply hash_start_iff in H as (-> & _). repeat rewrite <- app_assoc. repeat rewrite <- app_assoc in L. splits; auto.
  - intros (-> & L & ? & ? & ? & ?). set (t := opening_bytes _) in *.
    exists (t ++ opt32 min ++ be_enc 4 (u32 n) ++ opt32 max ++ mp p ++ mp g ++ mp e ++ mp f). splits; [|repeat rewrite <- app_assoc; reflexivity|assumption].
    apply put_bn_iff; [assumption|]. exists (t ++ opt32 min ++ be_enc 4 (u32 n) ++ opt32 max ++ mp p ++ mp g ++ mp e). splits; [|repeat rewrite <- app_assoc; reflexivity|lens; lia|assumption].
    apply put_bn_iff; [assumption|]. exists (t ++ opt32 min ++ be_enc 4 (u32 n) ++ opt32 max ++ mp p ++ mp g). splits; [|repeat rewrite <- app_assoc; reflexivity|lens; lia|assumption].
    apply put_bn_iff; [assumption|]. exists (t ++ opt32 min ++ be_enc 4 (u32 n) ++ opt32 max ++ mp p). splits; [|repeat rewrite <- app_assoc; reflexivity|lens; lia|assumption].
    apply put_bn_iff; [assumption|]. exists (t ++ opt32 min ++ be_enc 4 (u32 n) ++ opt32 max). splits; [|repeat rewrite <- app_assoc; reflexivity|lens; lia|assumption].
    apply put_unless_iff. exists (t ++ opt32 min ++ be_enc 4 (u32 n)). splits; [|repeat rewrite <- app_assoc; reflexivity|intros _; lens; lia].
    apply put_m. exists (t ++ opt32 min). splits; [|repeat rewrite <- app_assoc; reflexivity|lens; lia].
    apply put_unless_iff. exists t. splits; [|reflexivity|intros _; lens; lia]. apply hash_start_iff. split; [reflexivity|lens; lia].
Qed.

(** ** The bytes determine what went in *)
Lemma enc_small : forall (x : list Z) a b, zlen (a ++ enc_string x ++ b) <= 134217728 -> zlen x <= 134217724.
Proof. intros x a b L. repeat rewrite zlen_app in L. rewrite zlen_enc_string in L. pose proof (zlen_nonneg _ a). pose proof (zlen_nonneg _ b). lia. Qed.
Lemma opening_split : forall t t' x y, zlen (opening_bytes t ++ x) <= 134217728 -> opening_bytes t ++ x = opening_bytes t' ++ y -> t = t' /\ x = y.
Proof.
  intros [a b c d h] [a' b' c' d' h'] x y L E. pose proof L as L'. rewrite E in L'. unfold opening_bytes in *. cbn [op_cv op_sv op_ci op_si op_hk] in *. repeat rewrite <- app_assoc in E. repeat rewrite <- app_assoc in L. repeat rewrite <- app_assoc in L'.
  repeat rewrite zlen_app in L. repeat rewrite zlen_app in L'. repeat rewrite zlen_enc_string in L. repeat rewrite zlen_enc_string in L'. repeat rewrite zlen_cons in L. repeat rewrite zlen_cons in L'.
  pose proof (zlen_nonneg _ a). pose proof (zlen_nonneg _ b). pose proof (zlen_nonneg _ c). pose proof (zlen_nonneg _ d). pose proof (zlen_nonneg _ h). pose proof (zlen_nonneg _ x).
  pose proof (zlen_nonneg _ a'). pose proof (zlen_nonneg _ b'). pose proof (zlen_nonneg _ c'). pose proof (zlen_nonneg _ d'). pose proof (zlen_nonneg _ h'). pose proof (zlen_nonneg _ y).
  apply enc_split in E as (-> & E); [|lia|lia]. apply enc_split in E as (-> & E); [|lia|lia].
  apply enc_split in E as (Ec & E); [|rewrite zlen_cons; lia|rewrite zlen_cons; lia]. apply enc_split in E as (Ed & E); [|rewrite zlen_cons; lia|rewrite zlen_cons; lia]. apply enc_split in E as (-> & E); [|lia|lia].
  split; [|assumption]. f_equal; congruence.
Qed.
Lemma gen_split : forall t t' cp cp' sp sp' k k', zlen (hashed_gen t cp sp k) <= 134217728 -> hashed_gen t cp sp k = hashed_gen t' cp' sp' k' -> t = t' /\ cp = cp' /\ sp = sp' /\ k = k'.
Proof.
  intros t t' cp cp' sp sp' k k' L E. pose proof L as L'. rewrite E in L'. unfold hashed_gen in *. assert (L2 := L). apply opening_split in E as (<- & E); [|assumption].
  repeat rewrite zlen_app in L. repeat rewrite zlen_app in L'. repeat rewrite zlen_enc_string in L. repeat rewrite zlen_enc_string in L'. pose proof (zlen_nonneg _ (opening_bytes t)). pose proof (zlen_nonneg _ cp). pose proof (zlen_nonneg _ sp). pose proof (zlen_nonneg _ k). pose proof (zlen_nonneg _ cp'). pose proof (zlen_nonneg _ sp'). pose proof (zlen_nonneg _ k').
  apply enc_split in E as (-> & E); [|lia|lia]. apply enc_split in E as (-> & ->); [|lia|lia]. auto.
Qed.
Lemma mp_split : forall z z' x y, 0 <= z < mp_top -> 0 <= z' < mp_top -> mp z ++ x = mp z' ++ y -> z = z' /\ x = y.
Proof.
  intros z z' x y Hz Hz' E. unfold mp in E.
  assert (S : forall v, 0 <= v < mp_top -> zlen (mpint_body (to_bin v)) <= 2049).
  { intros v Hv. unfold mpint_body. pose proof (to_bin_mag v ltac:(lia)) as M. rewrite strip0_id by (intros r Er; rewrite Er in M; now apply M). assert (zlen (to_bin v) <= 2048) by (apply to_bin_small; lia). destruct (msb (to_bin v)); rewrite ?zlen_cons; lia. }
  pose proof (S z Hz). pose proof (S z' Hz'). apply enc_split in E as (E & ->); [|lia|lia]. split; [|reflexivity].
  pose proof (get_bn_mp z [] Hz ltac:(constructor)) as G. pose proof (get_bn_mp z' [] Hz' ltac:(constructor)) as G'. unfold mp in G, G'. rewrite E, G' in G. injection G as <-. reflexivity.
Qed.
