(** Proofs about the packet cipher. *)
From Coq Require Import String.
From Verif Require Import Base Bits PolyModel PolySpec PolyProof PolyProof3 ChachaModel ChachaSpec ChachaProof ChachaProof2.
Local Open Scope Z_scope.

(** ** The specification determines its results *)
Lemma nth_eq : forall a b : list Z, length a = length b -> (forall i, (i < length a)%nat -> nth i a 0 = nth i b 0) -> a = b.
Proof.
  induction a as [|x a IH]; intros [|y b] L H; cbn [length] in *; try lia; [reflexivity|].
  f_equal; [exact (H 0%nat ltac:(lia))|]. apply IH; [lia|]. intros i Hi. exact (H (S i) ltac:(lia)).
Qed.
Lemma ciphers_fun : forall key n ctr m a b, ciphers key n ctr m a -> ciphers key n ctr m b -> a = b.
Proof.
  intros key n ctr m a b [La Ha] [Lb Hb]. apply nth_eq; [unfold zlen in *; lia|]. intros i Hi.
  specialize (Ha (Z.of_nat i)). specialize (Hb (Z.of_nat i)). rewrite Nat2Z.id in *. rewrite Ha, Hb by (unfold zlen in *; lia). reflexivity.
Qed.
Lemma ciphers_inv : forall key n ctr m c, ciphers key n ctr m c -> ciphers key n ctr c m.
Proof.
  intros key n ctr m c [L H]. split; [now symmetry|]. intros i Hi. rewrite H by lia.
  rewrite Z.lxor_assoc, Z.lxor_nilpotent, Z.lxor_0_r. reflexivity.
Qed.
Lemma cut16_fun : forall m a, cut16 m a -> forall b, cut16 m b -> a = b.
Proof.
  intros m a H. induction H as [|m L|x m bl L H IH]; intros b Hb.
  - inversion Hb as [| |x m bl L H E]; subst; [reflexivity| |].
    + rewrite zlen_nil in *. lia.
    + apply (f_equal zlen) in E. rewrite zlen_app, zlen_nil in E. pose proof (zlen_nonneg _ m). lia.
  - inversion Hb as [| |x m' bl L' H E]; subst.
    + rewrite zlen_nil in *. lia.
    + reflexivity.
    + rewrite zlen_app in L. pose proof (zlen_nonneg _ m'). lia.
  - inversion Hb as [E|m' L' E|x' m' bl' L' H' E]; subst.
    + symmetry in E. apply (f_equal zlen) in E. rewrite zlen_app, zlen_nil in E. pose proof (zlen_nonneg _ m). lia.
    + rewrite zlen_app in L'. pose proof (zlen_nonneg _ m). lia.
    + assert (x' = x) as -> by (rewrite <- (ztake_app_exact _ 16 x' m' ltac:(lia)), E; apply ztake_app_exact; lia).
      apply app_inv_head in E. subst. f_equal. now apply IH.
Qed.
Lemma poly_tag_fun : forall key m a b, poly_tag key m a -> poly_tag key m b -> a = b.
Proof. intros key m a b (l & A & ->) (l' & B & ->). now rewrite (cut16_fun _ _ A _ B). Qed.
Lemma poly_tag_len : forall key m t, poly_tag key m t -> zlen t = 16.
Proof. intros key m t (l & A & ->). unfold zlen. now rewrite le_bytes_len. Qed.
Lemma le_bytes_bytes : forall n v, is_bytes (le_bytes n v).
Proof. induction n; intros v; cbn [le_bytes]; constructor; [|apply IHn]. unfold is_byte. apply Z.mod_pos_bound. lia. Qed.

(** ** Comparing tags *)
Lemma bcmp_ok : forall a b r, length a = length b -> 0 <= r -> is_bytes a -> is_bytes b -> (bcmp_acc r a b = 0 <-> r = 0 /\ a = b).
Proof.
  induction a as [|x a IH]; intros [|y b] r L Hr Ha Hb; cbn [length] in L; try lia; cbn [bcmp_acc]; [tauto|].
  inversion Ha; inversion Hb; subst. unfold is_byte in *.
  assert (0 <= Z.lxor x y) by (apply Z.lxor_nonneg; lia).
  rewrite IH; [|lia|apply Z.lor_nonneg; lia|assumption|assumption]. rewrite Z.lor_eq_0_iff, Z.lxor_eq_0_iff.
  split; intros H0; [destruct H0 as [[-> ->] ->]; auto|destruct H0 as [-> E]; injection E as -> ->; auto].
Qed.
Lemma bcmp_false : forall a b, length a = length b -> is_bytes a -> is_bytes b -> (timingsafe_bcmp a b = false <-> a = b).
Proof.
  intros a b L Ha Hb. unfold timingsafe_bcmp. rewrite negb_false_iff, Z.eqb_eq, bcmp_ok by (assumption || lia). tauto.
Qed.

(** ** Contexts in use *)
Definition ctx_ok (key : list Z) (ctx : chachapoly_ctx) : Prop := keyed (ztake 32 key) (main_ctx ctx) /\ keyed (zdrop 32 key) (header_ctx ctx).
Definition good_key (key : list Z) : Prop := is_bytes key /\ zlen key = 64.
Definition junk (t : list Z) : Prop := is_bytes t /\ zlen t = 64.
Lemma seq_ok : forall s, is_bytes (seq_bytes s) /\ zlen (seq_bytes s) = 8.
Proof. intros s. split; [apply be_enc_bytes|apply zlen_be_enc]. Qed.
Lemma one_ok : forall c, Some one = Some c -> is_bytes c /\ zlen c = 8.
Proof. intros c E. injection E as <-. split; [|reflexivity]. repeat (apply Forall_cons; [unfold is_byte; lia|]). apply Forall_nil. Qed.
Lemma zero_bytes : forall n, is_bytes (repeat 0 n).
Proof. intros n. apply Forall_forall. intros x H. apply repeat_spec in H. subst. unfold is_byte. lia. Qed.

Lemma load_take : forall key n i, 0 <= i -> i + 4 <= n -> load32 (ztake n key) i = load32 key i.
Proof.
  intros key n i Hi Hn. unfold load32, at_. rewrite !nth_ztake by lia. reflexivity.
Qed.
Lemma load_drop_take : forall key n d i, 0 <= d -> 0 <= i -> d + i + 4 <= n -> load32 (zdrop d (ztake n key)) i = load32 (zdrop d key) i.
Proof. intros key n d i Hd Hi Hn. rewrite !load32_drop by lia. apply load_take; lia. Qed.
Lemma keysetup_take : forall x key, chacha_keysetup x key 256 = chacha_keysetup x (ztake 32 key) 256.
Proof.
  intros x key. unfold chacha_keysetup. change (256 =? 256) with true. cbv iota. rewrite !load_take by lia. rewrite !load_drop_take by lia. reflexivity.
Qed.
Lemma zero_wordy : wordy zero_ctx.
Proof. unfold wordy, list_of, zero_ctx. cbn. repeat (apply Forall_cons; [unfold isw; lia|]). apply Forall_nil. Qed.
Lemma new_ok : forall key mem ctx, is_bytes key -> chachapoly_new key mem = Some ctx -> good_key key /\ ctx_ok key ctx.
Proof.
  intros key mem ctx Hk E. unfold chachapoly_new in E. destruct (zlen key =? 32 + 32) eqn:L; [|discriminate]. apply Z.eqb_eq in L.
  destruct mem; [|discriminate]. cbn [negb] in E. injection E as <-. split; [split; [exact Hk|lia]|].
  assert (L1 : zlen (ztake 32 key) = 32) by (apply zlen_ztake; lia). assert (L2 : zlen (zdrop 32 key) = 32) by (rewrite zlen_zdrop; lia).
  split; cbn [main_ctx header_ctx].
  - rewrite keysetup_take. pose proof (keysetup_ok zero_ctx (ztake 32 key) zero_wordy (is_bytes_ztake _ _ Hk) (or_introl L1)) as Q.
    rewrite L1 in Q. exact Q.
  - pose proof (keysetup_ok zero_ctx (zdrop 32 key) zero_wordy (is_bytes_zdrop _ _ Hk) (or_introl L2)) as Q.
    rewrite L2 in Q. exact Q.
Qed.

Section Key.
Variable key : list Z.
Hypothesis HK : good_key key.
Notation K2 := (ztake 32 key).
Notation K1 := (zdrop 32 key).
Lemma k2_front : length (front K2) = 12%nat.
Proof. destruct HK as [B L]. apply front_len; [now apply is_bytes_ztake|left; apply zlen_ztake; lia]. Qed.
Lemma k1_front : length (front K1) = 12%nat.
Proof. destruct HK as [B L]. apply front_len; [now apply is_bytes_zdrop|left; rewrite zlen_zdrop; lia]. Qed.
Lemma run_cipher : forall k x s co m tmp, length (front k) = 12%nat -> keyed k x -> is_bytes m -> junk tmp ->
  (forall c, co = Some c -> is_bytes c /\ zlen c = 8) ->
  exists x' c, chacha_encrypt_bytes (chacha_ivsetup x (seq_bytes s) co) m tmp = Some (x', c) /\ is_bytes c /\ keyed k x' /\
    ciphers k (be_enc 8 s) (match co with None => 0 | Some c => le c end) m c.
Proof.
  intros k x s co m tmp F Kx Hm [Ht Lt] Hc. destruct (seq_ok s) as [S1 S2].
  pose proof (ivsetup_ok k x (seq_bytes s) co Kx S1 S2 Hc) as St.
  destruct (encrypt_ok _ _ _ _ m tmp F Hm Ht Lt St) as (x' & c & E1 & E2 & E3 & E4).
  exists x', c. split; [exact E1|]. split; [exact E3|]. split; [eapply starts_keyed; eassumption|exact E2].
Qed.
Lemma crypt_ok : forall ctx s src len aadlen (enc : bool) t1 t2 t3, ctx_ok key ctx -> is_bytes src -> 0 <= len -> 0 <= aadlen ->
  len + aadlen + (if enc then 0 else 16) <= zlen src -> len + aadlen < U32 -> junk t1 -> junk t2 -> junk t3 ->
  exists pk h c t, ciphers K2 (be_enc 8 s) 0 (repeat 0 32) pk /\ ciphers K1 (be_enc 8 s) 0 (ztake aadlen src) h /\
    ciphers K2 (be_enc 8 s) 1 (ztake len (zdrop aadlen src)) c /\
    poly_tag pk (if enc then h ++ c else ztake (aadlen + len) src) t /\
    exists ctx', ctx_ok key ctx' /\
    chachapoly_crypt ctx s src len aadlen enc t1 t2 t3 =
      (ctx', if enc then CrOk (h ++ c ++ t) else if beqb t (ztake 16 (zdrop (aadlen + len) src)) then CrOk (h ++ c) else CrMac).
Proof.
  intros ctx s src len aadlen enc t1 t2 t3 [C1 C2] Hs Hl Ha Hsum H32 J1 J2 J3.
  unfold chachapoly_crypt.
  destruct (run_cipher K2 (main_ctx ctx) s None (repeat 0 32) t1 k2_front C1 (zero_bytes 32) J1) as (mc & pk & R1 & Bpk & Kmc & Cpk); [discriminate|].
  rewrite R1. cbn [main_ctx header_ctx].
  assert (Lpk : zlen pk = 32) by (destruct Cpk as [L _]; rewrite L; reflexivity).
  rewrite (u32_id (aadlen + len)) by lia.
  assert (Head : exists hc h, (if aadlen =? 0 then Some (header_ctx ctx, [])
    else chacha_encrypt_bytes (chacha_ivsetup (header_ctx ctx) (seq_bytes s) None) (ztake aadlen src) t2) = Some (hc, h) /\ is_bytes h /\
    keyed K1 hc /\ ciphers K1 (be_enc 8 s) 0 (ztake aadlen src) h).
  { destruct (aadlen =? 0) eqn:E.
    - apply Z.eqb_eq in E. subst aadlen. exists (header_ctx ctx), []. split; [reflexivity|]. split; [constructor|]. split; [exact C2|].
      rewrite ztake_0. split; [reflexivity|]. intros i Hi. rewrite zlen_nil in Hi. lia.
    - destruct (run_cipher K1 (header_ctx ctx) s None (ztake aadlen src) t2 k1_front C2 (is_bytes_ztake _ _ Hs) J2) as (hc & h & R & B & K & C); [discriminate|].
      exists hc, h. auto. }
  destruct Head as (hc & h & RH & Bh & Khc & Ch).
  destruct (run_cipher K2 mc s (Some one) (ztake len (zdrop aadlen src)) t3 k2_front Kmc (is_bytes_ztake _ _ (is_bytes_zdrop _ _ Hs)) J3 one_ok)
    as (mc' & c & RB & Bc & Kmc' & Cc). change (le one) with 1 in Cc.
  destruct enc.
  - assert (Bhc : is_bytes (h ++ c)) by (apply is_bytes_app; now split).
    assert (Lhc : zlen (h ++ c) = aadlen + len).
    { rewrite zlen_app. destruct Ch as [L1 _]. destruct Cc as [L2 _]. rewrite L1, L2. rewrite !zlen_ztake by (rewrite ?zlen_zdrop; lia). reflexivity. }
    destruct (poly_ok (h ++ c) pk Bhc Bpk Lpk) as (t & P1 & P2).
    exists pk, h, c, t. do 4 (split; [assumption|]). exists (CP mc' hc). split; [split; assumption|].
    rewrite RH, RB. rewrite (ztake_all _ _ (h ++ c)) by lia. rewrite P1. now rewrite app_assoc.
  - destruct (poly_ok (ztake (aadlen + len) src) pk (is_bytes_ztake _ _ Hs) Bpk Lpk) as (t & P1 & P2).
    exists pk, h, c, t. do 4 (split; [assumption|]). rewrite P1.
    assert (Lt : zlen (ztake 16 (zdrop (aadlen + len) src)) = 16) by (apply zlen_ztake; rewrite zlen_zdrop; lia).
    pose proof (bcmp_false t (ztake 16 (zdrop (aadlen + len) src))) as B.
    assert (timingsafe_bcmp t (ztake 16 (zdrop (aadlen + len) src)) = false <-> t = ztake 16 (zdrop (aadlen + len) src)) as B'.
    { apply B; [apply poly_tag_len in P2; unfold zlen in *; lia| |apply is_bytes_ztake, is_bytes_zdrop, Hs].
      destruct P2 as (l & _ & ->). apply le_bytes_bytes. }
    clear B. destruct (beqb t (ztake 16 (zdrop (aadlen + len) src))) eqn:Eb.
    + apply beqb_eq in Eb. apply B' in Eb. rewrite Eb. cbn [negb]. rewrite RH, RB. exists (CP mc' hc). split; [split; assumption|reflexivity].
    + apply beqb_neq in Eb. destruct (timingsafe_bcmp t (ztake 16 (zdrop (aadlen + len) src))); [|tauto]. cbn [negb].
      exists (CP mc (header_ctx ctx)). split; [split; assumption|reflexivity].
Qed.
Lemma len_ok : forall ctx s cp t, ctx_ok key ctx -> is_bytes cp -> junk t ->
  exists ctx', ctx_ok key ctx' /\
  ((zlen cp < 4 /\ chachapoly_get_length ctx s cp t = (ctx', LenShort)) \/
   (4 <= zlen cp /\ exists p, ciphers K1 (be_enc 8 s) 0 (ztake 4 cp) p /\ chachapoly_get_length ctx s cp t = (ctx', LenOk (be_dec p)))).
Proof.
  intros ctx s cp t [C1 C2] Hc J. unfold chachapoly_get_length. destruct (zlen cp <? 4) eqn:E.
  - exists ctx. split; [split; assumption|]. left. split; [lia|reflexivity].
  - destruct (run_cipher K1 (header_ctx ctx) s None (ztake 4 cp) t k1_front C2 (is_bytes_ztake _ _ Hc) J) as (hc & h & R & B & K & C); [discriminate|].
    rewrite R. exists (CP (main_ctx ctx) hc). split; [split; assumption|]. right. split; [lia|]. exists h. auto.
Qed.
End Key.
