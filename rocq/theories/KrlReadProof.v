From Coq Require Import String.
From Verif Require Import Base Bits SshbufModel SshbufSpec SshbufProof WireSpec WireProof Dec MiscNumModel AuthOptModel AuthOptProof BitmapModel BitmapSpec BitmapProof KrlModel KrlSpec KrlProof KrlProof2 KrlProof3 KrlProof4 KrlProof5 KrlReadSpec.
Local Open Scope Z_scope.

Lemma kruns_app : forall a b k, kruns k (a ++ b) = kruns (kruns k a) b.
Proof. intros. unfold kruns. apply fold_left_app. Qed.
Lemma kruns_cons : forall a b k, kruns k (a :: b) = kruns (kstep k a) b.
Proof. reflexivity. Qed.

(** Text *)
Lemma text_snoc : forall s, text (s ++ [0]) = s.
Proof. intros s. unfold text. rewrite rev_app_distr. cbn [rev app]. change (0 =? 0) with true. now rewrite rev_involutive. Qed.
Lemma text_id : forall s, ~ In 0 s -> text s = s.
Proof.
  intros s H. unfold text. destruct (rev s) as [|c r] eqn:E; [reflexivity|]. destruct (c =? 0) eqn:Ec; [|reflexivity]. exfalso. apply H. apply in_rev. rewrite E. left. lia.
Qed.
Lemma text_nul : forall s, nul_ok s = true <-> text_ok s.
Proof.
  intros s. rewrite nul_ok_spec. unfold text_ok. split.
  - intros [H|(t & H & ->)]; [now rewrite text_id|now rewrite text_snoc].
  - intros H. destruct (rev s) as [|c r] eqn:E.
    + left. assert (s = []) as -> by (rewrite <- (rev_involutive s), E; reflexivity). auto.
    + assert (Es : s = rev r ++ [c]) by (rewrite <- (rev_involutive s), E; reflexivity). unfold text in H. rewrite E in H. destruct (c =? 0) eqn:Ec; [|now left].
      right. exists (rev r). split; [assumption|]. rewrite Es. repeat f_equal. lia.
Qed.
Lemma get_cstr_text : forall s rest, zlen s <= 134217724 -> get_cstr (enc_string s ++ rest) = if nul_ok s then Some (text s, rest) else None.
Proof.
  intros s rest H. unfold get_cstr, dec_cstring. rewrite dec_string_ok by (change (SSHBUF_SIZE_MAX - 4) with 134217724; assumption). destruct (nul_ok s) eqn:E; [|reflexivity].
  repeat f_equal. apply nul_ok_spec in E. destruct E as [E|(t & E & ->)]; [now rewrite cstr_id, text_id|]. rewrite text_snoc.
  clear - E. assert (G : forall t, ~ In 0 t -> SshbufModel.cstr (t ++ [0]) = t); [|intros; now apply G].
  clear. induction t as [|x t IH]; intros E; [reflexivity|]. cbn. destruct (x =? 0) eqn:Ex; [exfalso; apply E; left; lia|]. f_equal. apply IH. intros K. apply E. now right.
Qed.

(** Lists of things *)
Lemma parse_list_eq : forall l fuel ca k, (length (concat (map (be_enc 8) l)) <= fuel)%nat -> Forall n64 l ->
  (Forall (fun n => 1 <= n) l -> parse_list fuel ca (concat (map (be_enc 8) l)) k = POk (kruns k (map (fun n => KSerials ca n n) l))) /\
  (~ Forall (fun n => 1 <= n) l -> parse_list fuel ca (concat (map (be_enc 8) l)) k = PErr).
Proof.
  induction l as [|n l IH]; intros fuel ca k F N.
  - split; [intros _; destruct fuel; reflexivity|intros K; exfalso; apply K; constructor].
  - cbn [map concat] in *. apply Forall_cons_iff in N. destruct N as [N1 N2]. rewrite app_length, be_enc_length in F. destruct fuel as [|f]; [lia|].
    destruct (be_enc 8 n ++ concat (map (be_enc 8) l)) as [|c r] eqn:E. { apply (f_equal (@length Z)) in E. rewrite app_length, be_enc_length in E. discriminate. }
    cbn [parse_list]. rewrite <- E, get_int_enc by (change (256 ^ Z.of_nat 8) with U64; exact N1). unfold ssh_krl_revoke_cert_by_serial. unfold n64 in N1.
    destruct (n =? 0) eqn:E0.
    + assert (n = 0) as -> by lia. split; [intros K; apply Forall_inv in K; lia|reflexivity].
    + rewrite kruns_cons. cbn [kstep]. unfold ssh_krl_revoke_cert_by_serial_range. rewrite Z.ltb_irrefl, E0. cbn [orb or_same]. destruct (IH f ca (with_certs (certs_update ca
        (fun rc => mkRC (rc_ca rc) (insert_serial_range 0 (rc_serials rc) n n) (rc_ids rc)) (k_certs k)) k)) as [I1 I2]; [lia|assumption|]. split.
      * intros K. apply I1. exact (Forall_inv_tail K).
      * intros K. apply I2. intros K'. apply K. constructor; [lia|assumption].
Qed.
Lemma strings_nil : forall l r s, strings (s :: l) = [] -> @nil Z = r.
Proof. intros l r s H. unfold strings in H. cbn [map concat] in H. apply (f_equal (@length Z)) in H. unfold enc_string in H. rewrite !app_length, be_enc_length in H. discriminate. Qed.
Lemma strings_cons : forall s l, strings (s :: l) = enc_string s ++ strings l.
Proof. reflexivity. Qed.
Lemma enc_string_long : forall s, (4 <= length (enc_string s))%nat.
Proof. intros s. unfold enc_string. rewrite app_length, be_enc_length. lia. Qed.
Lemma parse_ids_eq : forall l fuel ca k, (length (strings l) <= fuel)%nat -> Forall str_fits l ->
  (Forall text_ok l -> parse_ids fuel ca (strings l) k = POk (kruns k (map (fun i => KKeyId ca (text i)) l))) /\
  (~ Forall text_ok l -> parse_ids fuel ca (strings l) k = PErr).
Proof.
  induction l as [|s l IH]; intros fuel ca k F N.
  - split; [intros _; destruct fuel; reflexivity|intros K; exfalso; apply K; constructor].
  - rewrite strings_cons in *. apply Forall_cons_iff in N. destruct N as [[_ N1] N2]. rewrite app_length in F. pose proof (enc_string_long s). destruct fuel as [|f]; [lia|].
    destruct (enc_string s ++ strings l) as [|c r] eqn:E. { apply (f_equal (@length Z)) in E. rewrite app_length in E. cbn [length] in E. lia. }
    cbn [parse_ids]. rewrite <- E, get_cstr_text by exact N1. destruct (nul_ok s) eqn:En.
    + apply text_nul in En. cbn [map]. rewrite kruns_cons. cbn [kstep]. destruct (IH f ca (ssh_krl_revoke_cert_by_key_id k ca (text s))) as [I1 I2]; [lia|assumption|]. split.
      * intros K. apply I1. exact (Forall_inv_tail K).
      * intros K. apply I2. intros K'. apply K. now constructor.
    + split; [|reflexivity]. intros K. apply Forall_inv in K. apply text_nul in K. congruence.
Qed.
Lemma blob_section_eq : forall l fuel t ex, (length (strings l) <= fuel)%nat -> Forall str_fits l ->
  ((ex = 0 \/ Forall (fun h => zlen h = ex) l) -> blob_section fuel (strings l) t ex = POk (fold_left (fun t x => tree_insert x t) l t)) /\
  (ex <> 0 -> ~ Forall (fun h => zlen h = ex) l -> blob_section fuel (strings l) t ex = PErr).
Proof.
  induction l as [|s l IH]; intros fuel t ex F N.
  - split; [intros _; destruct fuel; reflexivity|intros _ K; exfalso; apply K; constructor].
  - rewrite strings_cons in *. apply Forall_cons_iff in N. destruct N as [[_ N1] N2]. rewrite app_length in F. pose proof (enc_string_long s). destruct fuel as [|f]; [lia|].
    destruct (enc_string s ++ strings l) as [|c r] eqn:E. { apply (f_equal (@length Z)) in E. rewrite app_length in E. cbn [length] in E. lia. }
    cbn [blob_section fold_left]. rewrite <- E, get_str_enc by exact N1. destruct (IH f (tree_insert s t) ex) as [I1 I2]; [lia|assumption|]. split.
    + intros [-> |K]; [change (negb (0 =? 0)) with false; cbn [andb]; apply I1; now left|]. rewrite (Forall_inv K), Z.eqb_refl, Bool.andb_false_r. apply I1. right. exact (Forall_inv_tail K).
    + intros Hx K. replace (ex =? 0) with false by lia. cbn [negb andb]. destruct (zlen s =? ex) eqn:El; [|reflexivity]. cbn [negb]. apply I2; [assumption|]. intros K'. apply K. constructor; [lia|assumption].
Qed.
Lemma keys_runs : forall l k, kruns k (map (fun b => KExplicit (QKey b None None (Some b) None)) l) = with_keys (fold_left (fun t x => tree_insert x t) l (k_keys k)) k.
Proof. induction l as [|b l IH]; intros k; [now destruct k|]. cbn [map fold_left]. rewrite kruns_cons, IH. reflexivity. Qed.
Lemma sha1_runs : forall l k, Forall (fun h => zlen h = 20) l -> kruns k (map KSha1 l) = with_sha1s (fold_left (fun t x => tree_insert x t) l (k_sha1s k)) k.
Proof.
  induction l as [|b l IH]; intros k H; [now destruct k|]. cbn [map fold_left]. rewrite kruns_cons. cbn [kstep]. unfold ssh_krl_revoke_key_sha1. rewrite (Forall_inv H). change (negb (20 =? 20)) with false. cbv iota.
  cbn [or_same]. rewrite IH by exact (Forall_inv_tail H). reflexivity.
Qed.
Lemma sha256_runs : forall l k, Forall (fun h => zlen h = 32) l -> kruns k (map KSha256 l) = with_sha256s (fold_left (fun t x => tree_insert x t) l (k_sha256s k)) k.
Proof.
  induction l as [|b l IH]; intros k H; [now destruct k|]. cbn [map fold_left]. rewrite kruns_cons. cbn [kstep]. unfold ssh_krl_revoke_key_sha256. rewrite (Forall_inv H). change (negb (32 =? 32)) with false. cbv iota.
  cbn [or_same]. rewrite IH by exact (Forall_inv_tail H). reflexivity.
Qed.

(** Bitmaps *)
Lemma parse_bits_eq : forall n ca b N lo i k, inv b N -> 0 <= lo -> 0 <= i -> i + Z.of_nat n < U32 -> lo + i <= U64 -> (0 < i \/ lo + i < U64) ->
  (lo + i + Z.of_nat n <= U64 -> (lo + i = 0 -> (0 < n)%nat -> Z.testbit N 0 = false) ->
    parse_bits n ca b lo i k = POk (kruns k (map (fun j => KSerials ca (lo + j) (lo + j)) (filter (Z.testbit N) (map Z.of_nat (seq (Z.to_nat i) n)))))) /\
  (U64 < lo + i + Z.of_nat n \/ (lo + i = 0 /\ (0 < n)%nat /\ Z.testbit N 0 = true) -> parse_bits n ca b lo i k = PErr).
Proof.
  induction n as [|n IH]; intros ca b N lo i k I L P B1 B2 B3.
  - split; [reflexivity|]. intros [K|(_ & K & _)]; lia.
  - cbn [parse_bits seq map filter]. destruct (Z.eq_dec (lo + i) U64) as [EU|EU].
    + rewrite EU. change (u64 U64 =? 0) with true. replace (0 <? i) with true by lia. cbn [andb]. split; [intros; lia|reflexivity].
    + rewrite u64_id by (unfold U64 in *; lia). replace ((0 <? i) && (lo + i =? 0)) with false by lia. rewrite u32_id by lia. rewrite (test_spec b N i I) by lia. rewrite Z2Nat.id by lia.
      assert (Ei : S (Z.to_nat i) = Z.to_nat (i + 1)) by lia. rewrite Ei.
      destruct (Z.testbit N i) eqn:T.
      * unfold ssh_krl_revoke_cert_by_serial. destruct (lo + i =? 0) eqn:E0.
        { assert (i = 0) as -> by lia. unfold ssh_krl_revoke_cert_by_serial_range. rewrite E0, Bool.orb_true_r. split; [intros _ K; rewrite K in T by lia; discriminate|reflexivity]. }
        cbn [map]. rewrite kruns_cons. cbn [kstep]. unfold ssh_krl_revoke_cert_by_serial_range. rewrite Z.ltb_irrefl, E0. cbn [orb or_same].
        match goal with |- context[parse_bits n ca b lo (i + 1) ?k1] => destruct (IH ca b N lo (i + 1) k1) as [I1 I2]; try assumption; try lia end.
        split; [intros K1 K2; apply I1; lia|]. intros [K|(K & _)]; [apply I2; left; lia|lia].
      * destruct (IH ca b N lo (i + 1) k) as [I1 I2]; try assumption; try lia.
        split; [intros K1 K2; apply I1; lia|]. intros [K|(K & _ & K2)]; [apply I2; left; lia|]. assert (i = 0) as -> by lia. congruence.
Qed.

Lemma byte_enc : forall c, is_byte c -> be_enc 1 c = [c].
Proof. intros c H. unfold is_byte in H. cbn [be_enc app]. f_equal. apply Z.mod_small. lia. Qed.
Lemma extension_eq : forall n c d, str_fits n -> is_byte c -> str_fits d -> extension_ok (enc_string n ++ [c] ++ enc_string d) = nul_ok n && (c =? 0).
Proof.
  intros n c d [_ Hn] Hc [_ Hd]. unfold extension_ok. rewrite get_cstr_text by exact Hn. destruct (nul_ok n); [|reflexivity]. rewrite <- (byte_enc c Hc).
  rewrite get_int_enc by (change (256 ^ Z.of_nat 1) with 256; exact Hc). rewrite <- (app_nil_r (enc_string d)), get_str_enc by exact Hd. change (zlen [] =? 0) with true. reflexivity.
Qed.
Lemma bignum_eq : forall num, is_bytes num -> zlen num <= 134217724 ->
  get_bignum (enc_string num) = if (hd 0 num <? 128) && ((zlen num <=? 2048) || ((zlen num =? 2049) && (hd 0 num =? 0))) then Some (strip0 num, []) else None.
Proof.
  intros num Hb H. unfold get_bignum, dec_mpint. rewrite <- (app_nil_r (enc_string num)), dec_string_ok by (change (SSHBUF_SIZE_MAX - 4) with 134217724; exact H).
  assert (Em : msb num = negb (hd 0 num <? 128)). { unfold msb. destruct num as [|x r]; [reflexivity|]. cbn [hd]. lia. } rewrite Em. destruct (hd 0 num <? 128) eqn:E1; cbn [negb andb]; [|reflexivity].
  change (SSHBUF_MAX_BIGNUM + 1) with 2049. pose proof (zlen_nonneg _ num).
  destruct (2049 <? zlen num) eqn:E2; cbn [orb]. { replace (zlen num <=? 2048) with false by lia. replace (zlen num =? 2049) with false by lia. reflexivity. }
  destruct (zlen num =? 2049) eqn:E3; cbn [andb]. { replace (zlen num <=? 2048) with false by lia. cbn [orb]. destruct (hd 0 num =? 0); reflexivity. }
  replace (zlen num <=? 2048) with true by lia. reflexivity.
Qed.
Definition body_of (s : dsub) : Z * list Z :=
  match s with
  | DSerials l => (32, concat (map (be_enc 8) l))
  | DRange lo hi => (33, be_enc 8 lo ++ be_enc 8 hi)
  | DBits off num => (34, be_enc 8 off ++ enc_string num)
  | DIds l => (35, strings l)
  | DOption n c d => (57, enc_string n ++ [c] ++ enc_string d)
  end.
Lemma sub_bytes_eq : forall s, sub_bytes s = be_enc 1 (fst (body_of s)) ++ enc_string (snd (body_of s)).
Proof. intros []; reflexivity. Qed.
Lemma sub_body_small : forall s, sub_fits s -> zlen (snd (body_of s)) <= 134217724.
Proof. intros s [H _]. rewrite sub_bytes_eq, zlen_app, zlen_be_enc in H. unfold enc_string in H. rewrite zlen_app, zlen_be_enc in H. lia. Qed.
Lemma parse_sub_eq : forall s ca k, sub_fits s ->
  (KrlReadSpec.sub_ok s -> parse_sub ca (fst (body_of s)) (snd (body_of s)) k = POk (kruns k (sub_says ca s))) /\
  (~ KrlReadSpec.sub_ok s -> parse_sub ca (fst (body_of s)) (snd (body_of s)) k = PErr).
Proof.
  intros s ca k Hf. pose proof (sub_body_small s Hf) as Hl. destruct Hf as [_ Hf]. destruct s as [l|lo hi|off num|l|n c d]; cbn [body_of fst snd KrlReadSpec.sub_ok sub_says] in *; unfold parse_sub.
  - change (32 =? CERT_SERIAL_LIST) with true. cbv iota. apply parse_list_eq; [lia|assumption].
  - change (33 =? CERT_SERIAL_LIST) with false. change (33 =? CERT_SERIAL_RANGE) with true. cbv iota. destruct Hf as [F1 F2]. unfold n64 in *.
    rewrite get_int_enc by (change (256 ^ Z.of_nat 8) with U64; lia). rewrite <- (app_nil_r (be_enc 8 hi)), get_int_enc by (change (256 ^ Z.of_nat 8) with U64; lia).
    change (0 <? zlen (@nil Z)) with false. cbv iota. rewrite kruns_cons. cbn [kstep kruns fold_left]. unfold ssh_krl_revoke_cert_by_serial_range.
    destruct ((hi <? lo) || (lo =? 0)) eqn:E; cbn [or_same]; (split; [intros K; first [reflexivity|lia]|intros K; first [reflexivity|lia]]).
  - change (34 =? CERT_SERIAL_LIST) with false. change (34 =? CERT_SERIAL_RANGE) with false. change (34 =? CERT_SERIAL_BITMAP) with true. cbv iota. destruct Hf as [F1 [F2 F3]]. unfold n64 in *.
    rewrite get_int_enc by (change (256 ^ Z.of_nat 8) with U64; lia). rewrite bignum_eq by assumption.
    destruct ((hd 0 num <? 128) && ((zlen num <=? 2048) || ((zlen num =? 2049) && (hd 0 num =? 0)))) eqn:E; [|split; [intros (K1 & K2 & _); lia|reflexivity]].
    pose proof (strip0_bytes num F2) as Hs. pose proof (strip0_len num) as Hsl. destruct (from_spec true bitmap_new 0 (strip0 num) inv_new Hs) as (ok & b & Ef & Q). rewrite Ef.
    destruct ok; [|destruct Q as [[Q|Q] _]; [lia|discriminate]]. destruct Q as [_ Q]. rewrite be_dec_strip0 in Q. set (N := be_dec num) in *.
    destruct (nbits_spec b N Q) as (b' & En & Q' & _). rewrite En. change (0 <? zlen (@nil Z)) with false.
    assert (HN : 0 <= N) by (apply be_dec_bound; assumption).
    assert (Hlog : Z.log2 N < 16400).
    { destruct (Z.eq_dec N 0) as [-> |Hz]; [reflexivity|]. apply Z.log2_lt_pow2; [lia|]. pose proof (be_dec_bound num F2) as Hr. fold N in Hr.
      apply Z.lt_le_trans with (256 ^ zlen num); [lia|]. apply Z.le_trans with (256 ^ 2050); [apply Z.pow_le_mono_r; lia|]. change 256 with (2 ^ 8). rewrite <- Z.pow_mul_r by lia. apply Z.pow_le_mono_r; lia. }
    pose proof (Z.log2_nonneg N) as Hlg.
    assert (Hb : bits_of N = filter (Z.testbit N) (map Z.of_nat (seq (Z.to_nat 0) (Z.to_nat (size_of N))))).
    { unfold bits_of, size_of. destruct (N =? 0) eqn:Ez; [|reflexivity]. assert (N = 0) as -> by lia. reflexivity. }
    assert (Hsz : size_of N = if N =? 0 then 0 else Z.log2 N + 1) by reflexivity.
    destruct (parse_bits_eq (Z.to_nat (size_of N)) ca b' N off 0 k) as [P1 P2]; try assumption; try lia; try (unfold U32; rewrite Hsz; destruct (N =? 0); lia).
    rewrite Hb. split.
    + intros (_ & _ & K1 & K2). rewrite P1; [reflexivity| |].
      * rewrite Hsz. destruct (N =? 0); lia.
      * intros K _. apply K2. lia.
    + intros K. assert (D : U64 < off + 0 + Z.of_nat (Z.to_nat (size_of N)) \/ (off + 0 = 0 /\ (0 < Z.to_nat (size_of N))%nat /\ Z.testbit N 0 = true)).
      { destruct (Z.le_gt_cases U64 (off + Z.log2 N)) as [D|D].
        - left. rewrite Hsz. destruct (N =? 0) eqn:Ez; [|lia]. assert (N = 0) as EN by lia. rewrite EN in D. change (Z.log2 0) with 0 in D. lia.
        - right. destruct (Z.eq_dec off 0) as [-> |Ho]; [|exfalso; apply K; split; [lia|split; [lia|split; [lia|intros; lia]]]].
          destruct (Z.testbit N 0) eqn:Et; [|exfalso; apply K; split; [lia|split; [lia|split; [lia|reflexivity]]]].
          split; [lia|]. split; [|reflexivity]. rewrite Hsz. destruct (N =? 0) eqn:Ez; [|lia]. assert (N = 0) as EN by lia. rewrite EN in Et. discriminate. }
      rewrite (P2 D). reflexivity.
  - change (35 =? CERT_SERIAL_LIST) with false. change (35 =? CERT_SERIAL_RANGE) with false. change (35 =? CERT_SERIAL_BITMAP) with false. change (35 =? CERT_KEY_ID) with true. cbv iota.
    apply parse_ids_eq; [lia|assumption].
  - change (57 =? CERT_SERIAL_LIST) with false. change (57 =? CERT_SERIAL_RANGE) with false. change (57 =? CERT_SERIAL_BITMAP) with false. change (57 =? CERT_KEY_ID) with false. change (57 =? CERT_EXTENSION) with true. cbv iota.
    destruct Hf as (F1 & F2 & F3). rewrite extension_eq by assumption. rewrite <- text_nul. destruct (nul_ok n), (c =? 0) eqn:Ec; cbn [andb]; (split; [intros [K1 K2]; first [reflexivity|discriminate|lia]|intros K; first [reflexivity|exfalso; apply K; split; [reflexivity|lia]]]).
Qed.
Lemma parse_subs_eq : forall subs fuel ca k, (length (concat (map sub_bytes subs)) <= fuel)%nat -> Forall sub_fits subs ->
  (Forall KrlReadSpec.sub_ok subs -> parse_subs fuel ca (concat (map sub_bytes subs)) k = POk (kruns k (flat_map (sub_says ca) subs))) /\
  (~ Forall KrlReadSpec.sub_ok subs -> parse_subs fuel ca (concat (map sub_bytes subs)) k = PErr).
Proof.
  induction subs as [|s subs IH]; intros fuel ca k F N.
  - split; [intros _; destruct fuel; reflexivity|intros K; exfalso; apply K; constructor].
  - cbn [map concat flat_map] in *. apply Forall_cons_iff in N. destruct N as [N1 N2]. rewrite sub_bytes_eq in *. rewrite !app_length, be_enc_length in F. destruct fuel as [|f]; [lia|].
    rewrite parse_subs_cons; [|destruct s; cbn; lia|now apply sub_body_small]. destruct (parse_sub_eq s ca k N1) as [P1 P2]. rewrite kruns_app.
    assert (D : KrlReadSpec.sub_ok s \/ parse_sub ca (fst (body_of s)) (snd (body_of s)) k = PErr /\ ~ KrlReadSpec.sub_ok s).
    { destruct (parse_sub ca (fst (body_of s)) (snd (body_of s)) k) eqn:E; [left|right|exfalso].
      - assert (X : ~ ~ KrlReadSpec.sub_ok s) by (intros K; specialize (P2 K); congruence). clear - X.
        destruct s as [l|lo hi|off num|l|n c d]; cbn [KrlReadSpec.sub_ok] in *.
        + destruct (Forall_dec (fun n => 1 <= n) (fun n => Z_le_dec 1 n) l); tauto.
        + lia.
        + lia || (destruct (Z_lt_dec (hd 0 num) 128), (Z_le_dec (zlen num) 2048), (Z.eq_dec (zlen num) 2049), (Z.eq_dec (hd 0 num) 0), (Z_lt_dec (off + Z.log2 (be_dec num)) U64), (Z.eq_dec off 0), (Z.testbit (be_dec num) 0); tauto || (exfalso; apply X; intros K; intuition congruence)).
        + assert (Dt : forall i, {text_ok i} + {~ text_ok i}) by (intros i; destruct (nul_ok i) eqn:En; [left; now apply text_nul|right; rewrite <- text_nul; congruence]). destruct (Forall_dec text_ok Dt l); tauto.
        + assert (Dt : {text_ok n} + {~ text_ok n}) by (destruct (nul_ok n) eqn:En; [left; now apply text_nul|right; rewrite <- text_nul; congruence]). destruct Dt, (Z.eq_dec c 0); tauto.
      - split; [reflexivity|]. intros K. specialize (P1 K). congruence.
      - exact (parse_sub_fuel _ _ _ _ E). }
    destruct D as [D|[D1 D2]].
    + rewrite (P1 D). destruct (IH f ca (kruns k (sub_says ca s))) as [I1 I2]; [lia|assumption|]. split.
      * intros K. apply I1. exact (Forall_inv_tail K).
      * intros K. apply I2. intros K'. apply K. now constructor.
    + rewrite D1. split; [intros K; exfalso; exact (D2 (Forall_inv K))|reflexivity].
Qed.
