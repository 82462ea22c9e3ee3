From Coq Require Import String.
From Verif Require Import Base Bits SshbufModel SshbufSpec SshbufProof WireSpec WireProof Dec MiscNumModel AuthOptModel AuthOptProof BitmapModel BitmapSpec BitmapProof KrlModel KrlSpec KrlProof KrlProof2 KrlProof3 KrlProof4 KrlProof5 KrlReadSpec KrlReadProof.
Local Open Scope Z_scope.

Definition sbody_of (s : dsect) : Z * list Z :=
  match s with
  | DCerts ca r subs => (1, enc_string ca ++ enc_string r ++ concat (map sub_bytes subs))
  | DKeys l => (2, strings l)
  | DSha1 l => (3, strings l)
  | DSha256 l => (5, strings l)
  | DSignature k s => (4, k)
  | DExtension n c d => (255, enc_string n ++ [c] ++ enc_string d)
  end.
Lemma enc_string_len : forall s, zlen (enc_string s) = 4 + zlen s.
Proof. intros. unfold enc_string. rewrite zlen_app, zlen_be_enc. lia. Qed.
Lemma sect_bytes_eq : forall s, fst (sbody_of s) <> 4 -> sect_bytes s = be_enc 1 (fst (sbody_of s)) ++ enc_string (snd (sbody_of s)).
Proof. intros [] H; try reflexivity. now cbn in H. Qed.
Lemma sect_body_small : forall s, sect_fits s -> zlen (snd (sbody_of s)) <= 134217724.
Proof.
  assert (G : forall s, fst (sbody_of s) <> 4 -> zlen (sect_bytes s) <= 134217729 -> zlen (snd (sbody_of s)) <= 134217724) by (intros s H L; rewrite sect_bytes_eq, zlen_app, zlen_be_enc, enc_string_len in L by exact H; lia).
  intros s H. destruct s; [apply G; [cbn; lia|apply H]..| |]; [apply H|apply G; [cbn; lia|apply H]].
Qed.

Section R.
Variable kfb : list Z -> option (list Z).
Lemma parse_section_eq : forall s k, sect_fits s -> fst (sbody_of s) <> 4 ->
  (sect_ok kfb s -> parse_section kfb (fst (sbody_of s)) (snd (sbody_of s)) k = POk (kruns k (sect_says kfb s))) /\
  (~ sect_ok kfb s -> parse_section kfb (fst (sbody_of s)) (snd (sbody_of s)) k = PErr).
Proof.
  intros s k Hf Hs. destruct s as [ca r subs|l|l|l|sk ss|n c d]; cbn [sbody_of fst snd sect_ok sect_says sect_fits] in *; unfold parse_section; try contradiction.
  - change (1 =? SECT_CERTIFICATES) with true. cbv iota. destruct Hf as ([_ F1] & [_ F2] & F3 & F4). unfold parse_revoked_certs. rewrite get_str_enc, get_str_enc by assumption.
    unfold ca_of. destruct ca as [|c0 ca'].
    + change (zlen (@nil Z) =? 0) with true. cbv iota. destruct (parse_subs_eq subs (length (concat (map sub_bytes subs))) None k) as [P1 P2]; [lia|assumption|]. split.
      * intros [_ K]. now apply P1.
      * intros K. apply P2. intros K'. apply K. split; [congruence|assumption].
    + set (ca := c0 :: ca') in *. replace (zlen ca =? 0) with false by (unfold ca; rewrite zlen_cons; pose proof (zlen_nonneg _ ca'); lia). destruct (kfb ca) as [cak|] eqn:Ek.
      * destruct (parse_subs_eq subs (length (concat (map sub_bytes subs))) (Some cak) k) as [P1 P2]; [lia|assumption|]. split.
        -- intros [_ K]. now apply P1.
        -- intros K. apply P2. intros K'. apply K. split; [congruence|assumption].
      * split; [|reflexivity]. intros [K _]. exfalso. now apply K.
  - change (2 =? SECT_CERTIFICATES) with false. change (2 =? SECT_EXPLICIT_KEY) with true. cbv iota. destruct Hf as [F1 F2].
    destruct (blob_section_eq l (length (strings l)) (k_keys k) 0) as [P1 _]; [lia|assumption|]. rewrite P1 by now left. rewrite keys_runs. split; [reflexivity|tauto].
  - change (3 =? SECT_CERTIFICATES) with false. change (3 =? SECT_EXPLICIT_KEY) with false. change (3 =? SECT_FINGERPRINT_SHA1) with true. cbv iota. destruct Hf as [F1 F2].
    destruct (blob_section_eq l (length (strings l)) (k_sha1s k) 20) as [P1 P2]; [lia|assumption|]. split; intros K; [rewrite P1 by (right; exact K); rewrite sha1_runs by exact K; reflexivity|rewrite P2 by (lia || exact K); reflexivity].
  - change (5 =? SECT_CERTIFICATES) with false. change (5 =? SECT_EXPLICIT_KEY) with false. change (5 =? SECT_FINGERPRINT_SHA1) with false. change (5 =? SECT_FINGERPRINT_SHA256) with true. cbv iota. destruct Hf as [F1 F2].
    destruct (blob_section_eq l (length (strings l)) (k_sha256s k) 32) as [P1 P2]; [lia|assumption|]. split; intros K; [rewrite P1 by (right; exact K); rewrite sha256_runs by exact K; reflexivity|rewrite P2 by (lia || exact K); reflexivity].
  - change (255 =? SECT_CERTIFICATES) with false. change (255 =? SECT_EXPLICIT_KEY) with false. change (255 =? SECT_FINGERPRINT_SHA1) with false. change (255 =? SECT_FINGERPRINT_SHA256) with false. change (255 =? SECT_EXTENSION) with true. cbv iota.
    destruct Hf as (F1 & F2 & F3 & _). rewrite extension_eq by assumption. rewrite <- text_nul. destruct (nul_ok n), (c =? 0) eqn:Ec; cbn [andb]; (split; [intros [K1 K2]; first [reflexivity|discriminate|lia]|intros K; first [reflexivity|exfalso; apply K; split; [reflexivity|lia]]]).
Qed.
Lemma parse_sections_eq : forall sects fuel k, (length (concat (map sect_bytes sects)) <= fuel)%nat -> Forall sect_fits sects ->
  (Forall (sect_ok kfb) sects -> parse_sections kfb fuel (concat (map sect_bytes sects)) k = POk (kruns k (flat_map (sect_says kfb) sects))) /\
  (~ Forall (sect_ok kfb) sects -> parse_sections kfb fuel (concat (map sect_bytes sects)) k = PErr).
Proof.
  induction sects as [|s sects IH]; intros fuel k F N.
  - split; [intros _; destruct fuel; reflexivity|intros K; exfalso; apply K; constructor].
  - cbn [map concat flat_map] in *. apply Forall_cons_iff in N. destruct N as [N1 N2]. pose proof (sect_body_small s N1) as Sm.
    destruct (Z.eq_dec (fst (sbody_of s)) 4) as [E4|E4].
    + destruct s as [| | | |sk ss|]; cbn in E4; try lia. cbn [sect_bytes sect_says sbody_of snd] in *. rewrite kruns_app. rewrite !app_length in F. cbn [length] in F. destruct fuel as [|f]; [lia|].
      destruct N1 as [[_ S1] [_ S2]]. cbn [app parse_sections]. change (4 :: (enc_string sk ++ enc_string ss) ++ concat (map sect_bytes sects)) with (be_enc 1 4 ++ (enc_string sk ++ enc_string ss) ++ concat (map sect_bytes sects)).
      rewrite get_int_enc by (cbn; lia). rewrite <- app_assoc, get_str_enc by exact S1. change (4 =? SECT_SIGNATURE) with true. cbv iota. rewrite get_str_enc by exact S2.
      destruct (IH f k) as [I1 I2]; [lia|assumption|]. cbn [kruns fold_left]. split.
      * intros K. apply I1. exact (Forall_inv_tail K).
      * intros K. apply I2. intros K'. apply K. constructor; [exact I|assumption].
    + rewrite sect_bytes_eq in * by exact E4. rewrite !app_length, be_enc_length in F. destruct fuel as [|f]; [lia|]. rewrite kruns_app.
      rewrite parse_sections_cons; [|destruct s; cbn; lia|exact E4|exact Sm]. destruct (parse_section_eq s k N1 E4) as [P1 P2].
      destruct (parse_section kfb (fst (sbody_of s)) (snd (sbody_of s)) k) as [k'| |] eqn:E; [| |exfalso; exact (parse_section_fuel _ _ _ _ E)].
      * assert (Ok : sect_ok kfb s).
        { assert (X : ~ ~ sect_ok kfb s) by (intros K; specialize (P2 K); congruence). clear - X.
          destruct s as [ca r subs|l|l|l|sk ss|n c d]; cbn [sect_ok] in *; try exact I.
          - assert (D : Forall KrlReadSpec.sub_ok subs \/ ~ Forall KrlReadSpec.sub_ok subs).
            { clear X. induction subs as [|s subs [IH|IH]]; [left; constructor| |right; intros K; apply IH; exact (Forall_inv_tail K)].
              assert (D : KrlReadSpec.sub_ok s \/ ~ KrlReadSpec.sub_ok s).
              { clear. destruct s as [l|lo hi|off num|l|n c d]; cbn [KrlReadSpec.sub_ok] in *.
                - destruct (Forall_dec (fun n => 1 <= n) (fun n => Z_le_dec 1 n) l); tauto.
                - lia.
                - destruct (Z_lt_dec (hd 0 num) 128), (Z_le_dec (zlen num) 2048), (Z.eq_dec (zlen num) 2049), (Z.eq_dec (hd 0 num) 0), (Z_lt_dec (off + Z.log2 (be_dec num)) U64), (Z.eq_dec off 0), (Z.testbit (be_dec num) 0); tauto || (right; intros K; intuition congruence) || (left; intuition congruence).
                - assert (Dt : forall i, {text_ok i} + {~ text_ok i}) by (intros i; destruct (nul_ok i) eqn:En; [left; now apply text_nul|right; rewrite <- text_nul; congruence]). destruct (Forall_dec text_ok Dt l); tauto.
                - assert (Dt : {text_ok n} + {~ text_ok n}) by (destruct (nul_ok n) eqn:En; [left; now apply text_nul|right; rewrite <- text_nul; congruence]). destruct Dt, (Z.eq_dec c 0); tauto. }
              destruct D; [left; now constructor|right; intros K; exact (H (Forall_inv K))]. }
            destruct D; [|tauto]. split; [|assumption]. intros Hc Hn. apply X. intros [K _]. now apply K.
          - destruct (Forall_dec (fun h => zlen h = 20) (fun h => Z.eq_dec (zlen h) 20) l); tauto.
          - destruct (Forall_dec (fun h => zlen h = 32) (fun h => Z.eq_dec (zlen h) 32) l); tauto.
          - assert (Dt : {text_ok n} + {~ text_ok n}) by (destruct (nul_ok n) eqn:En; [left; now apply text_nul|right; rewrite <- text_nul; congruence]). destruct Dt, (Z.eq_dec c 0); tauto. }
        specialize (P1 Ok). injection P1 as ->. destruct (IH f (kruns k (sect_says kfb s))) as [I1 I2]; [lia|assumption|]. split.
        -- intros K. apply I1. exact (Forall_inv_tail K).
        -- intros K. apply I2. intros K'. apply K. now constructor.
      * split; [intros K; specialize (P1 (Forall_inv K)); congruence|reflexivity].
Qed.
Definition blank (d : document) : krl := mkK (d_version d) (d_date d) (d_flags d) (Some (text (d_comment d))) [] [] [] [].
Lemma from_blob_eq : forall d, doc_fits d ->
  (doc_ok kfb d -> ssh_krl_from_blob kfb (doc_bytes d) = POk (kruns (blank d) (doc_says kfb d))) /\
  (~ doc_ok kfb d -> ssh_krl_from_blob kfb (doc_bytes d) = PErr).
Proof.
  intros [v dt fl rs cm sects] (F1 & F2 & F3 & [_ F4] & [_ F5] & F6). unfold doc_bytes, doc_ok, doc_says, blank, n64 in *. cbn [d_version d_date d_flags d_reserved d_comment d_sects] in *. unfold ssh_krl_from_blob.
  change (bs "SSHKRL" ++ [10; 0] ++ ?x) with (KRL_MAGIC ++ x). rewrite ztake_app_exact, zdrop_app_exact by reflexivity. rewrite beqb_refl. cbn [negb].
  rewrite get_int_enc by (cbn; lia). change (negb (1 =? KRL_FORMAT_VERSION)) with false. cbv iota.
  rewrite !get_int_enc by (change (256 ^ Z.of_nat 8) with U64; lia). rewrite get_str_enc by exact F4. rewrite get_cstr_text by exact F5. rewrite <- text_nul.
  destruct (nul_ok cm) eqn:En.
  - destruct (parse_sections_eq sects (length (concat (map sect_bytes sects))) (mkK v dt fl (Some (text cm)) [] [] [] [])) as [P1 P2]; [lia|assumption|]. split; [intros [_ K]; now apply P1|].
    intros K. apply P2. intros K'. apply K. now split.
  - split; [intros [K _]; discriminate|reflexivity].
Qed.
End R.

(** The answers only depend on the contents. *)
Definition norm (k : krl) : krl := mkK 0 0 0 None (k_keys k) (k_sha1s k) (k_sha256s k) (k_certs k).
Lemma check_norm : forall k q, ssh_krl_check_key k q = ssh_krl_check_key (norm k) q.
Proof. reflexivity. Qed.
Lemma norm_step : forall k o, norm (kstep k o) = norm (kstep (norm k) o).
Proof.
  intros k o. destruct o as [v|c|ca lo hi|ca id|q|h|h|q]; try reflexivity; cbn [kstep].
  - unfold ssh_krl_revoke_cert_by_serial_range. destruct (_ || _); reflexivity.
  - unfold ssh_krl_revoke_key_explicit. destruct (q_plain q); reflexivity.
  - unfold ssh_krl_revoke_key_sha1. destruct (negb _); reflexivity.
  - unfold ssh_krl_revoke_key_sha256. destruct (negb _); reflexivity.
  - unfold ssh_krl_revoke_key. destruct (q_cert q) as [[[s i] ca]|].
    + destruct (s =? 0); [reflexivity|]. unfold ssh_krl_revoke_cert_by_serial, ssh_krl_revoke_cert_by_serial_range. destruct (_ || _); reflexivity.
    + unfold ssh_krl_revoke_key_explicit. destruct (q_plain q); reflexivity.
Qed.
Lemma norm_runs : forall ops k, norm (kruns k ops) = norm (kruns (norm k) ops).
Proof. induction ops as [|o ops IH]; intros k; [reflexivity|]. rewrite !kruns_cons. rewrite IH, (IH (kstep (norm k) o)). now rewrite norm_step. Qed.

(** What documents say is within the reach of the revocation calls. *)
Lemma says_ok : forall kfb d, (forall b c, kfb b = Some c -> c <> []) -> doc_fits d -> doc_ok kfb d -> Forall kop_ok (doc_says kfb d).
Proof.
  intros kfb d Hk (_ & _ & _ & _ & _ & F) [_ O]. unfold doc_says. apply Forall_flat_map. rewrite Forall_forall in *. intros s Hs. specialize (F s Hs). specialize (O s Hs). destruct s as [ca r subs|l|l|l|sk ss|n c d0]; cbn [sect_says sect_ok sect_fits] in *.
  - apply Forall_flat_map. destruct F as (_ & _ & F & _). destruct O as [O1 O2]. rewrite Forall_forall in *. intros s Hs'. specialize (F s Hs'). specialize (O2 s Hs').
    assert (Ca : ca_arg (ca_of kfb ca)). { unfold ca_of, ca_arg. destruct ca; [exact I|]. destruct (kfb _) eqn:E; [now apply Hk in E|exact I]. }
    destruct F as [_ F]. destruct s as [l|lo hi|off num|l|n c d0]; cbn [sub_says KrlReadSpec.sub_ok] in *.
    + apply Forall_map. rewrite Forall_forall in *. intros x Hx. cbn [kop_ok]. specialize (F x Hx). unfold n64 in F. auto.
    + repeat constructor; auto; apply F.
    + apply Forall_map. apply Forall_forall. intros i Hi. unfold bits_of in Hi. apply filter_In in Hi. destruct Hi as [Hi Ht]. apply in_map_iff in Hi. destruct Hi as (j & <- & Hj). apply in_seq in Hj. cbn [kop_ok].
      pose proof (Z.log2_nonneg (be_dec num)). destruct F as [F _]. unfold n64 in F. split; [exact Ca|]. lia.
    + apply Forall_map. rewrite Forall_forall in *. intros x Hx. cbn [kop_ok]. split; [exact Ca|]. exact (O2 x Hx).
    + constructor.
  - apply Forall_map. apply Forall_forall. intros; exact I.
  - apply Forall_map. apply Forall_forall. intros; exact I.
  - apply Forall_map. apply Forall_forall. intros; exact I.
  - constructor.
  - constructor.
Qed.
Lemma read_check : forall kfb d q, (forall b c, kfb b = Some c -> c <> []) -> doc_fits d -> doc_ok kfb d ->
  match ssh_krl_check_key (kruns (blank d) (doc_says kfb d)) q with KRevoked => matches (doc_says kfb d) q | KOk => ~ matches (doc_says kfb d) q | KError => ~ checkable q end.
Proof.
  intros kfb d q Hk F O. rewrite check_norm, norm_runs. change (norm (blank d)) with ssh_krl_init. rewrite <- check_norm.
  pose proof (check_spec (doc_says kfb d) _ q (holds_runs _ (says_ok kfb d Hk F O))) as C. destruct (ssh_krl_check_key _ q); tauto.
Qed.

(** Only documents are read. *)
Section Inv.
Variable kfb : list Z -> option (list Z).
Lemma list_inv : forall fuel ca s k k', is_bytes s -> parse_list fuel ca s k = POk k' -> exists l, s = concat (map (be_enc 8) l) /\ Forall n64 l.
Proof.
  induction fuel as [|f IH]; intros ca s k k' B H; (destruct s as [|c s]; [exists []; split; [reflexivity|constructor]|]); [discriminate|]. cbn [parse_list] in H.
  destruct (get_int 8 (c :: s)) as [[n r]|] eqn:E; [|discriminate]. apply get_int_spec in E; [|assumption]. destruct E as (E & R & B'). destruct (ssh_krl_revoke_cert_by_serial k ca n); [|discriminate].
  apply IH in H; [|assumption]. destruct H as (l & -> & F). exists (n :: l). split; [exact E|]. constructor; assumption.
Qed.
Lemma ids_inv : forall fuel ca s k k', is_bytes s -> parse_ids fuel ca s k = POk k' -> exists l, s = strings l /\ Forall str_fits l.
Proof.
  induction fuel as [|f IH]; intros ca s k k' B H; (destruct s as [|c s]; [exists []; split; [reflexivity|constructor]|]); [discriminate|]. cbn [parse_ids] in H.
  destruct (get_cstr (c :: s)) as [[n r]|] eqn:E; [|discriminate]. apply get_cstr_str in E. destruct E as (n' & E & _). apply get_str_spec in E; [|assumption]. destruct E as (E & R & B1 & B2).
  apply IH in H; [|assumption]. destruct H as (l & -> & F). exists (n' :: l). split; [exact E|]. constructor; [split|]; assumption.
Qed.
Lemma blobs_inv : forall fuel s t ex t', is_bytes s -> blob_section fuel s t ex = POk t' -> exists l, s = strings l /\ Forall str_fits l.
Proof.
  induction fuel as [|f IH]; intros s t ex t' B H; (destruct s as [|c s]; [exists []; split; [reflexivity|constructor]|]); [discriminate|]. cbn [blob_section] in H.
  destruct (get_str (c :: s)) as [[n r]|] eqn:E; [|discriminate]. apply get_str_spec in E; [|assumption]. destruct E as (E & R & B1 & B2). destruct (_ && _); [discriminate|].
  apply IH in H; [|assumption]. destruct H as (l & -> & F). exists (n :: l). split; [exact E|]. constructor; [split|]; assumption.
Qed.
Lemma extension_inv : forall s, is_bytes s -> extension_ok s = true -> exists n c d, s = enc_string n ++ [c] ++ enc_string d /\ str_fits n /\ is_byte c /\ str_fits d.
Proof.
  intros s B H. unfold extension_ok in H. destruct (get_cstr s) as [[n s1]|] eqn:E1; [|discriminate]. apply get_cstr_str in E1. destruct E1 as (n' & E1 & _). apply get_str_spec in E1; [|assumption]. destruct E1 as (-> & L1 & B1 & B2).
  destruct (get_int 1 s1) as [[c s2]|] eqn:E2; [|discriminate]. apply get_int_spec in E2; [|assumption]. destruct E2 as (-> & R & B3). destruct (get_str s2) as [[d r]|] eqn:E3; [|discriminate]. apply get_str_spec in E3; [|assumption]. destruct E3 as (-> & L3 & B4 & B5).
  apply andb_prop in H. destruct H as [H _]. assert (r = []) as -> by (apply zlen_zero_nil; lia). exists n', c, d. rewrite app_nil_r, byte_enc by exact R. split; [reflexivity|split; [now split|split; [exact R|now split]]].
Qed.
Lemma sub_inv : forall ca t s k k', is_bytes s -> zlen s <= 134217724 -> parse_sub ca t s k = POk k' -> exists d, sub_fits d /\ t = fst (body_of d) /\ s = snd (body_of d).
Proof.
  intros ca t s k k' B L H. assert (G : forall d, t = fst (body_of d) -> s = snd (body_of d) -> zlen (sub_bytes d) <= 134217729).
  { intros d _ ->. rewrite sub_bytes_eq, zlen_app, zlen_be_enc, enc_string_len. lia. }
  unfold parse_sub in H.
  destruct (t =? CERT_SERIAL_LIST) eqn:E1. { apply list_inv in H; [|assumption]. destruct H as (l & El & F). unfold CERT_SERIAL_LIST in E1. exists (DSerials l). split; [split; [apply G; [cbn; lia|exact El]|exact F]|]. split; [cbn; lia|exact El]. }
  destruct (t =? CERT_SERIAL_RANGE) eqn:E2.
  { destruct (get_int 8 s) as [[lo s1]|] eqn:Ea; [|discriminate]. apply get_int_spec in Ea; [|assumption]. destruct Ea as (Ea & Ra & Ba). destruct (get_int 8 s1) as [[hi s2]|] eqn:Eb; [|discriminate]. apply get_int_spec in Eb; [|assumption]. destruct Eb as (Eb & Rb & Bb).
    destruct (ssh_krl_revoke_cert_by_serial_range k ca lo hi); [|discriminate]. destruct (0 <? zlen s2) eqn:Ez; [discriminate|]. pose proof (zlen_nonneg _ s2). assert (s2 = []) as -> by (apply zlen_zero_nil; lia). rewrite app_nil_r in Eb.
    unfold CERT_SERIAL_RANGE in E2. assert (Es : s = snd (body_of (DRange lo hi))) by (cbn [body_of snd]; now rewrite <- Eb). exists (DRange lo hi). split; [split; [apply G; [cbn; lia|exact Es]|now split]|]. split; [cbn; lia|exact Es]. }
  destruct (t =? CERT_SERIAL_BITMAP) eqn:E3.
  { destruct (get_int 8 s) as [[lo s1]|] eqn:Ea; [|discriminate]. apply get_int_spec in Ea; [|assumption]. destruct Ea as (Ea & Ra & Ba). destruct (get_bignum s1) as [[blob s2]|] eqn:Eb; [|discriminate].
    assert (exists num, s1 = enc_string num ++ s2 /\ str_fits num) as (num & En & Fn).
    { unfold get_bignum, dec_mpint in Eb. destruct (dec_string s1) as [[v r]|] eqn:Ed; [|discriminate]. destruct (msb v); [discriminate|]. destruct (_ || _); [discriminate|]. injection Eb as <- <-.
      assert (Eg : get_str s1 = Some (v, r)) by (unfold get_str; now rewrite Ed). apply get_str_spec in Eg; [|assumption]. destruct Eg as (-> & ? & ? & ?). exists v. now split. }
    destruct (bitmap_from_string true bitmap_new blob) as [[[] b]|]; try discriminate. destruct (bitmap_nbits b) as [[n b']|]; [|discriminate]. destruct (parse_bits _ _ _ _ _ _); try discriminate.
    destruct (0 <? zlen s2) eqn:Ez; [discriminate|]. pose proof (zlen_nonneg _ s2). assert (s2 = []) as -> by (apply zlen_zero_nil; lia). rewrite app_nil_r in En.
    unfold CERT_SERIAL_BITMAP in E3. assert (Es : s = snd (body_of (DBits lo num))) by (cbn [body_of snd]; now rewrite <- En). exists (DBits lo num). split; [split; [apply G; [cbn; lia|exact Es]|now split]|]. split; [cbn; lia|exact Es]. }
  destruct (t =? CERT_KEY_ID) eqn:E4. { apply ids_inv in H; [|assumption]. destruct H as (l & El & F). unfold CERT_KEY_ID in E4. exists (DIds l). split; [split; [apply G; [cbn; lia|exact El]|exact F]|]. split; [cbn; lia|exact El]. }
  destruct (t =? CERT_EXTENSION) eqn:E5; [|discriminate]. destruct (extension_ok s) eqn:Ee; [|discriminate]. apply extension_inv in Ee; [|assumption]. destruct Ee as (n & c & d & Es & F1 & F2 & F3). unfold CERT_EXTENSION in E5.
  exists (DOption n c d). split; [split; [apply G; [cbn; lia|exact Es]|auto]|]. split; [cbn; lia|exact Es].
Qed.
Lemma subs_inv : forall fuel ca s k k', is_bytes s -> parse_subs fuel ca s k = POk k' -> exists l, s = concat (map sub_bytes l) /\ Forall sub_fits l.
Proof.
  induction fuel as [|f IH]; intros ca s k k' B H; (destruct s as [|c s]; [exists []; split; [reflexivity|constructor]|]); [discriminate|]. cbn [parse_subs] in H.
  destruct (get_int 1 (c :: s)) as [[t s1]|] eqn:E; [|discriminate]. apply get_int_spec in E; [|assumption]. destruct E as (E & R & B1). destruct (get_str s1) as [[body s2]|] eqn:E2; [|discriminate]. apply get_str_spec in E2; [|assumption]. destruct E2 as (-> & L & B2 & B3).
  destruct (parse_sub ca t body k) eqn:Ep; try discriminate. apply sub_inv in Ep; [|assumption..]. destruct Ep as (d & Fd & -> & ->). apply IH in H; [|assumption]. destruct H as (l & -> & F).
  exists (d :: l). split; [|now constructor]. cbn [map concat]. rewrite sub_bytes_eq, <- app_assoc. exact E.
Qed.
Lemma section_inv : forall t s k k', is_bytes s -> zlen s <= 134217724 -> parse_section kfb t s k = POk k' -> exists d, sect_fits d /\ fst (sbody_of d) <> 4 /\ t = fst (sbody_of d) /\ s = snd (sbody_of d).
Proof.
  intros t s k k' B L H. assert (G : forall d, fst (sbody_of d) <> 4 -> s = snd (sbody_of d) -> zlen (sect_bytes d) <= 134217729).
  { intros d Hd ->. rewrite sect_bytes_eq, zlen_app, zlen_be_enc, enc_string_len by exact Hd. lia. }
  unfold parse_section in H.
  destruct (t =? SECT_CERTIFICATES) eqn:E1.
  { unfold parse_revoked_certs in H. destruct (get_str s) as [[ca s1]|] eqn:Ea; [|discriminate]. apply get_str_spec in Ea; [|assumption]. destruct Ea as (Ea & La & Ba & Ba').
    destruct (get_str s1) as [[r s2]|] eqn:Eb; [|discriminate]. apply get_str_spec in Eb; [|assumption]. destruct Eb as (Eb & Lb & Bb & Bb').
    assert (exists l, s2 = concat (map sub_bytes l) /\ Forall sub_fits l) as (l & El & Fl).
    { destruct (zlen ca =? 0); [now apply subs_inv in H|]. destruct (kfb ca); [|discriminate]. now apply subs_inv in H. }
    unfold SECT_CERTIFICATES in E1. assert (Es : s = snd (sbody_of (DCerts ca r l))) by (cbn [sbody_of snd]; now rewrite <- El, <- Eb).
    exists (DCerts ca r l). split; [split; [now split|split; [now split|split; [assumption|apply G; [cbn; lia|exact Es]]]]|]. split; [cbn; lia|]. split; [cbn; lia|exact Es]. }
  destruct (t =? SECT_EXPLICIT_KEY) eqn:E2.
  { destruct (blob_section _ _ _ _) eqn:Eb; try discriminate. apply blobs_inv in Eb; [|assumption]. destruct Eb as (l & El & F). unfold SECT_EXPLICIT_KEY in E2. exists (DKeys l). split; [split; [exact F|apply G; [cbn; lia|exact El]]|]. split; [cbn; lia|]. split; [cbn; lia|exact El]. }
  destruct (t =? SECT_FINGERPRINT_SHA1) eqn:E3.
  { destruct (blob_section _ _ _ _) eqn:Eb; try discriminate. apply blobs_inv in Eb; [|assumption]. destruct Eb as (l & El & F). unfold SECT_FINGERPRINT_SHA1 in E3. exists (DSha1 l). split; [split; [exact F|apply G; [cbn; lia|exact El]]|]. split; [cbn; lia|]. split; [cbn; lia|exact El]. }
  destruct (t =? SECT_FINGERPRINT_SHA256) eqn:E4.
  { destruct (blob_section _ _ _ _) eqn:Eb; try discriminate. apply blobs_inv in Eb; [|assumption]. destruct Eb as (l & El & F). unfold SECT_FINGERPRINT_SHA256 in E4. exists (DSha256 l). split; [split; [exact F|apply G; [cbn; lia|exact El]]|]. split; [cbn; lia|]. split; [cbn; lia|exact El]. }
  destruct (t =? SECT_EXTENSION) eqn:E5; [|discriminate]. destruct (extension_ok s) eqn:Ee; [|discriminate]. apply extension_inv in Ee; [|assumption]. destruct Ee as (n & c & d & Es & F1 & F2 & F3). unfold SECT_EXTENSION in E5.
  exists (DExtension n c d). split; [split; [exact F1|split; [exact F2|split; [exact F3|apply G; [cbn; lia|exact Es]]]]|]. split; [cbn; lia|]. split; [cbn; lia|exact Es].
Qed.
Lemma sections_inv : forall fuel s k k', is_bytes s -> parse_sections kfb fuel s k = POk k' -> exists l, s = concat (map sect_bytes l) /\ Forall sect_fits l.
Proof.
  induction fuel as [|f IH]; intros s k k' B H; (destruct s as [|c s]; [exists []; split; [reflexivity|constructor]|]); [discriminate|]. cbn [parse_sections] in H.
  destruct (get_int 1 (c :: s)) as [[t s1]|] eqn:E; [|discriminate]. apply get_int_spec in E; [|assumption]. destruct E as (E & R & B1). destruct (get_str s1) as [[body s2]|] eqn:E2; [|discriminate]. apply get_str_spec in E2; [|assumption]. destruct E2 as (-> & L & B2 & B3).
  destruct (t =? SECT_SIGNATURE) eqn:E4.
  - destruct (get_str s2) as [[sg s3]|] eqn:E5; [|discriminate]. apply get_str_spec in E5; [|assumption]. destruct E5 as (-> & L5 & B4 & B5). apply IH in H; [|assumption]. destruct H as (l & -> & F). unfold SECT_SIGNATURE in E4. assert (t = 4) as -> by lia.
    exists (DSignature body sg :: l). split; [|constructor; [split; split|]; assumption]. cbn [map concat sect_bytes]. rewrite <- !app_assoc. exact E.
  - destruct (parse_section kfb t body k) eqn:Ep; try discriminate. apply section_inv in Ep; [|assumption..]. destruct Ep as (d & Fd & Hd & -> & ->). apply IH in H; [|assumption]. destruct H as (l & -> & F).
    exists (d :: l). split; [|now constructor]. cbn [map concat]. rewrite sect_bytes_eq by exact Hd. rewrite <- app_assoc. exact E.
Qed.
Lemma from_blob_inv : forall b k, is_bytes b -> ssh_krl_from_blob kfb b = POk k -> exists d, doc_fits d /\ b = doc_bytes d.
Proof.
  intros b k B H. unfold ssh_krl_from_blob in H. destruct (beqb (ztake 8 b) KRL_MAGIC) eqn:Em; cbn [negb] in H; [|discriminate]. apply beqb_eq in Em. pose proof (is_bytes_zdrop 8 b B) as B0. assert (Eb : b = KRL_MAGIC ++ zdrop 8 b) by (rewrite <- Em; symmetry; apply ztake_zdrop).
  destruct (get_int 4 (zdrop 8 b)) as [[fm s0]|] eqn:E0; [|discriminate]. apply get_int_spec in E0; [|assumption]. destruct E0 as (E0 & R0 & B1). destruct (fm =? KRL_FORMAT_VERSION) eqn:Ef; cbn [negb] in H; [|discriminate].
  destruct (get_int 8 s0) as [[v s1]|] eqn:E1; [|discriminate]. apply get_int_spec in E1; [|assumption]. destruct E1 as (-> & R1 & B2).
  destruct (get_int 8 s1) as [[dt s2]|] eqn:E2; [|discriminate]. apply get_int_spec in E2; [|assumption]. destruct E2 as (-> & R2 & B3).
  destruct (get_int 8 s2) as [[fl s3]|] eqn:E3; [|discriminate]. apply get_int_spec in E3; [|assumption]. destruct E3 as (-> & R3 & B4).
  destruct (get_str s3) as [[rs s4]|] eqn:E4; [|discriminate]. apply get_str_spec in E4; [|assumption]. destruct E4 as (-> & L4 & B5 & B6).
  destruct (get_cstr s4) as [[cm s5]|] eqn:E5; [|discriminate]. apply get_cstr_str in E5. destruct E5 as (cm' & E5 & _). apply get_str_spec in E5; [|assumption]. destruct E5 as (-> & L5 & B7 & B8).
  apply sections_inv in H; [|assumption]. destruct H as (l & -> & F). exists (mkDoc v dt fl rs cm' l). split; [split; [exact R1|split; [exact R2|split; [exact R3|split; [now split|split; [now split|exact F]]]]]|].
  unfold doc_bytes. cbn [d_version d_date d_flags d_reserved d_comment d_sects]. rewrite Eb, E0. unfold KRL_FORMAT_VERSION in Ef. assert (fm = 1) as -> by lia. reflexivity.
Qed.
End Inv.

(** Revocations leave the header alone. *)
Definition plain_op (o : kop) : Prop := match o with KVersion _ | KComment _ => False | _ => True end.
Lemma says_plain : forall kfb d, Forall plain_op (doc_says kfb d).
Proof.
  intros. unfold doc_says. apply Forall_flat_map, Forall_forall. intros s _. destruct s; cbn [sect_says]; try constructor; try (apply Forall_map, Forall_forall; intros; exact I).
  apply Forall_flat_map, Forall_forall. intros u _. destruct u; cbn [sub_says]; try (apply Forall_map, Forall_forall; intros; exact I); repeat constructor.
Qed.
Lemma says_header : forall ops k, Forall plain_op ops -> k_version (kruns k ops) = k_version k /\ k_comment (kruns k ops) = k_comment k.
Proof.
  induction ops as [|o ops IH]; intros k H; [auto|]. rewrite kruns_cons. destruct (IH (kstep k o) (Forall_inv_tail H)) as [-> ->]. apply Forall_inv in H.
  destruct o as [v|c|ca lo hi|ca id|q|h|h|q]; try contradiction; cbn [kstep]; try (split; reflexivity).
  - unfold ssh_krl_revoke_cert_by_serial_range. destruct (_ || _); split; reflexivity.
  - unfold ssh_krl_revoke_key_explicit. destruct (q_plain q); split; reflexivity.
  - unfold ssh_krl_revoke_key_sha1. destruct (negb _); split; reflexivity.
  - unfold ssh_krl_revoke_key_sha256. destruct (negb _); split; reflexivity.
  - unfold ssh_krl_revoke_key. destruct (q_cert q) as [[[s i] ca]|].
    + destruct (s =? 0); [split; reflexivity|]. unfold ssh_krl_revoke_cert_by_serial, ssh_krl_revoke_cert_by_serial_range. destruct (_ || _); split; reflexivity.
    + unfold ssh_krl_revoke_key_explicit. destruct (q_plain q); split; reflexivity.
Qed.
