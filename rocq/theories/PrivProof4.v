(** Proofs for C78: writing a file. *)
From Coq Require Import String.
From Verif Require Import Base Text SshbufModel SshbufSpec SshbufProof WireSpec WireProof AddrModel MiscNumModel AuthOptModel Dec CertModel CertSpec CertProof AuthOptProof SigModel SigProof2 SigProof3 Base64Model Base64Spec Base64Proof Base64Props KeyModel KeySpec KeyProof KeyProof2 KeyProof3 PrivModel PrivSpec PrivProof PrivProof2 PrivProof3.
Local Open Scope Z_scope.

Lemma fits_r : forall (a b : list Z), zlen (a ++ enc_string b) <= 134217728 -> zlen b <= 134217724.
Proof. intros a b. rewrite zlen_app, zlen_enc_string. pose proof (zlen_nonneg _ a). lia. Qed.
Lemma fits_l : forall (a b : list Z) n, zlen (a ++ b) <= n -> zlen a <= n.
Proof. intros a b n. rewrite zlen_app. pose proof (zlen_nonneg _ b). lia. Qed.
Lemma folded_in : forall col s t c, folded col s t -> In c t -> In c s \/ c = 10.
Proof.
  intros col s t c F. induction F as [|col H|col x s t H F IH|x s t F IH]; cbn [In]; intros I; [contradiction|destruct I as [<-|[]]; auto| |].
  - destruct I as [<-|I]; [auto|]. apply IH in I. tauto.
  - destruct I as [<-|[<-|I]]; auto. apply IH in I. tauto.
Qed.
Lemma cstr_id : forall l, ~ In 0 l -> cstr l = l.
Proof. induction l as [|c l IH]; intros H; [reflexivity|]. cbn [cstr]. destruct (c =? 0) eqn:E; [exfalso; apply H; left; lia|]. f_equal. apply IH. intros I. apply H. now right. Qed.
Lemma written_text : forall d b out, is_bytes d -> d <> [] -> zlen d <= 134217728 -> sshbuf_dtob64 d MARK_BEGIN true = BOk b -> AuthOptModel.put MARK_END (Some b) = Some out -> text_of out d /\ zlen out <= 134217728.
Proof.
  intros d b out Hd Hn Hl H P. apply put_iff in P as (-> & LO). split; [|assumption]. rewrite dtob64_cases in H by (assumption || lia). destruct d as [|d0 d1] eqn:Ed; [contradiction|]. rewrite <- Ed in *. replace (zlen d =? 0) with false in H by (rewrite Ed, zlen_cons; pose proof (zlen_nonneg _ d1); lia).
  unfold of_put in H. destruct (wrap_go (base64 d) 0 (Some MARK_BEGIN)) as [b'|] eqn:Wr; [|discriminate]. assert (b' = b) by congruence. subst b'. clear H.
  assert (Lb : 0 < zlen (base64 d)). { pose proof (base64_long d Hd). rewrite Ed, zlen_cons in *. pose proof (zlen_nonneg _ d1). lia. }
  apply wrap_folded in Wr as (t & F & ->); [|lia|split; [lia|rewrite zlen_base64 by assumption; lia]]. change (0 mod 70) with 0 in F.
  pose proof (folded_squeeze _ _ _ F) as Sq. apply folded_last in F as FL; [|left; intros E; rewrite E in Lb; vm_compute in Lb; discriminate]. destruct FL as (t' & ->).
  assert (Nice : forall c, In c t' -> c <> 0 /\ c <> 45). { intros c Hc. destruct (folded_in _ _ _ c F) as [I|I]; [apply in_or_app; now left| |lia]. apply (base64_nice d) in I; [tauto|assumption]. }
  exists t', []. rewrite app_nil_r. change MARK_BEGIN with begin_line. change MARK_END with end_line. rewrite <- !app_assoc. splits; auto.
  - intros x y z E Q. destruct y as [|c y]; [discriminate Q|]. cbn [app] in Q. assert (Hc : c = 45) by (change end_line with (45 :: tl end_line) in Q; cbn [app] in Q; congruence). apply (proj2 (Nice c ltac:(rewrite E; apply in_or_app; right; right; now left))). assumption.
  - rewrite cstr_id by (intros I; now apply (proj1 (Nice 0 I))). rewrite squeeze_app in Sq. change (squeeze [10]) with (@nil Z) in Sq. rewrite app_nil_r in Sq. rewrite Sq. apply squeeze_id. apply Forall_forall. intros c Hc.
    apply C54_stray in Hc; [|assumption]. destruct Hc as [Hc| ->]; [|reflexivity].
    assert (G : forallb (fun c => negb (isspace c)) alphabet = true) by reflexivity. rewrite forallb_forall in G. specialize (G c Hc). now destruct (isspace c).
Qed.
Lemma put_sk_spec : forall app fl h r m b', ~ In 0 app -> is_bytes app -> 0 <= fl < 256 -> is_bytes h -> is_bytes r -> put_sk app fl h r m = Some b' ->
  exists b w, m = Some b /\ b' = b ++ w /\ token app fl h r w /\ is_bytes w.
Proof.
  intros app fl h r m b' N B F Bh Br H. unfold put_sk in H. apply put_str_fits_m in H as (b1 & H & -> & L1). apply put_str_fits_m in H as (b2 & H & -> & L2). apply put_m in H as (b3 & H & -> & L3). apply put_str_fits_m in H as (b4 & -> & -> & L4).
  exists b4, (enc_string app ++ [fl] ++ enc_string h ++ enc_string r). splits; auto; [rewrite <- !app_assoc; reflexivity| |].
  - exists (enc_string app). splits; auto; try lia; [apply ctext_enc; [assumption|now apply fits_r in L4]|now apply fits_r in L2|now apply fits_r in L1].
  - apply is_bytes_app. split; [now apply enc_bytes|]. apply is_bytes_app. split; [constructor; [unfold is_byte; lia|constructor]|]. apply is_bytes_app. split; now apply enc_bytes.
Qed.
Lemma put_mpint_spec : forall v m b', scalar v -> put_mpint v m = Some b' -> exists b w, m = Some b /\ b' = b ++ w /\ mpint w v /\ is_bytes w.
Proof.
  intros v m b' (M & B & L) H. unfold put_mpint in H. destruct (SSHBUF_MAX_BIGNUM <? zlen v); [discriminate|]. apply put_str_fits_m in H as (b & -> & -> & _). exists b, (enc_string (mpint_body v)). splits; auto; [now apply mpint_canon|]. apply enc_bytes. now apply mpint_body_bytes.
Qed.

Section Priv.
Variable point_ok : curve -> list Z -> bool.
Variable ver : kpub -> list Z -> list Z -> bool.
Variable scalar_ok : curve -> list Z -> bool.
Variable rsa_ok : list Z -> list Z -> list Z -> list Z -> list Z -> list Z -> bool.

Lemma put_ec_spec : forall c pt m b', point point_ok c pt -> is_bytes pt -> put_point pt (put_str (curve_nid_to_name c) m) = Some b' -> exists b w, m = Some b /\ b' = b ++ w /\ material point_ok (PEc c pt) w /\ is_bytes w.
Proof.
  intros c pt m b' P B H. destruct (ser_spec point_ok (PEc c pt) m b' (conj P B) H) as (b & w & -> & -> & M & Bw & _). eauto 6.
Qed.
Lemma ser_priv : forall p c s m b', proper point_ok p -> proper_secret scalar_ok rsa_ok p s -> serialize_private (mkKey p c) s m = Some b' ->
  exists b w, m = Some b /\ b' = b ++ w /\ part point_ok scalar_ok rsa_ok (mkKey p c) s w /\ is_bytes w.
Proof.
  intros p c s m b' W Ws H. unfold serialize_private, part, certified in *. cbn [key_pub key_cert] in *. destruct p as [pk|pk app|cv pt|cv pt app|e n], s as [sk|fl h r|d|d iqmp p q]; cbn [proper proper_secret] in *; try contradiction.
  - destruct W as (L & B). destruct Ws as (Ls & Bs). apply put_str_fits_m in H as (b1 & H & -> & _). apply put_str_fits_m in H as (b & -> & -> & _). exists b, (enc_string pk ++ enc_string sk). rewrite app_assoc. splits; auto. apply is_bytes_app. split; now apply enc_bytes.
  - destruct W as (L & B & N & A). destruct Ws as (F & Bh & Br). apply put_sk_spec in H as (b1 & w & H & -> & T & Bw); auto. apply put_str_fits_m in H as (b & -> & -> & _). exists b, (enc_string pk ++ w). rewrite app_assoc. splits; auto; [exists w; auto|]. apply is_bytes_app. split; [now apply enc_bytes|assumption].
  - destruct W as (P & B). destruct Ws as (Sd & So). apply put_mpint_spec in H as (b1 & w & H & -> & M & Bw); [|assumption]. destruct c as [kc|].
    + exists b1, w. splits; auto. exists [], w. auto.
    + apply put_ec_spec in H as (b & w0 & -> & -> & M0 & B0); auto. exists b, (w0 ++ w). rewrite app_assoc. splits; auto; [exists w0, w; auto|]. apply is_bytes_app. auto.
  - destruct W as (-> & P & B & N & A). destruct Ws as (F & Bh & Br). apply put_sk_spec in H as (b1 & w & H & -> & T & Bw); auto. destruct c as [kc|].
    + exists b1, w. splits; auto. exists [], w. auto.
    + apply put_ec_spec in H as (b & w0 & -> & -> & M0 & B0); auto. exists b, (w0 ++ w). rewrite app_assoc. splits; auto; [exists w0, w; auto|]. apply is_bytes_app. auto.
  - destruct W as (E1 & E2 & E3 & N1 & N2 & N3 & LG). destruct Ws as (S1 & S2 & S3 & S4 & R). apply put_mpint_spec in H as (b4 & w4 & H & -> & M4 & Bw4); [|assumption]. apply put_mpint_spec in H as (b3 & w3 & H & -> & M3 & Bw3); [|assumption].
    apply put_mpint_spec in H as (b2 & w2 & H & -> & M2 & Bw2); [|assumption]. apply put_mpint_spec in H as (b1 & w1 & H & -> & M1 & Bw1); [|assumption]. destruct c as [kc|].
    + exists b1, (w1 ++ w2 ++ w3 ++ w4). rewrite !app_assoc. splits; auto; [|rewrite <- !app_assoc; rewrite !is_bytes_app; auto]. exists [], w1, w2, w3, w4. rewrite <- !app_assoc. cbn [app]. splits; auto.
    + apply put_mpint_spec in H as (b0 & we & H & -> & Me & Be); [|unfold scalar; auto]. apply put_mpint_spec in H as (b & wn & -> & -> & Mn & Bn); [|unfold scalar; auto].
      exists b, ((wn ++ we) ++ w1 ++ w2 ++ w3 ++ w4). splits; auto; [rewrite <- !app_assoc; reflexivity| |rewrite !is_bytes_app; auto 8]. exists (wn ++ we), w1, w2, w3, w4. splits; auto. exists wn, we. auto.
Qed.
Lemma private_out : forall k s w, sound point_ok ver k -> proper_secret scalar_ok rsa_ok (key_pub k) s -> private_serialize k s = Some w -> private_part point_ok ver scalar_ok rsa_ok k s w /\ is_bytes w.
Proof.
  intros [p c] s w (W & Wc) Ws H. unfold private_serialize in H. cbn [key_pub key_cert] in *. destruct (name_text (key_type (mkKey p c)) (nid_of p)) as (N1 & N2 & N3 & _).
  assert (Cn : ctext (enc_string (ssh_name (mkKey p c))) (ssh_name (mkKey p c))) by (apply ctext_enc; [assumption|unfold ssh_name; unfold key_type in N1; cbn [key_pub key_cert] in *; lia]).
  assert (EC : match p with PEcSk c0 _ _ => c0 = P256 | _ => True end) by (destruct p; auto; cbn [proper] in W; tauto).
  assert (Bn : is_bytes (enc_string (ssh_name (mkKey p c)))) by (apply enc_bytes; exact N3). destruct c as [kc|].
  - destruct Wc as (Bb & F). destruct (zlen (kc_blob kc) =? 0); [discriminate|]. apply ser_priv in H as (b & v & H & -> & P & Bv); auto. apply put_str_fits_m in H as (b0 & H & -> & L). apply put_str_fits in H as (-> & _). cbn [app] in *. rewrite <- app_assoc. split; [|rewrite !is_bytes_app; splits; auto; now apply enc_bytes].
    exists (enc_string (ssh_name (mkKey p (Some kc)))), (ssh_name (mkKey p (Some kc))), v. cbn [key_cert key_pub]. splits; auto.
    + exists p. split; [destruct p; exact I|]. apply (name_first p true EC).
    + exists (kc_blob kc). splits; auto; [now apply fits_r in L|]. now apply from_blob_iff in F as (_ & F).
  - apply ser_priv in H as (b & v & H & -> & P & Bv); auto. apply put_str_fits in H as (-> & _). cbn [app] in *. split; [|rewrite !is_bytes_app; auto]. exists (enc_string (ssh_name (mkKey p None))), (ssh_name (mkKey p None)), v. cbn [key_cert key_pub]. splits; auto. apply (name_first p false EC).
Qed.
Lemma blob_out : forall k b, sound point_ok ver k -> to_blob false k = Some b -> is_bytes b /\ from_blob point_ok ver b = Some k.
Proof.
  intros [p c] b (W & Wc) H. cbn [key_pub key_cert] in *. destruct c as [kc|].
  - destruct Wc as (Bb & F). unfold to_blob in H. cbn [key_cert] in H. destruct (zlen (kc_blob kc) =? 0); [discriminate|]. apply put_iff in H as (-> & _). auto.
  - apply to_blob_plain with (point_ok := point_ok) in H as (P & B & L); [|assumption|now right]. split; [assumption|]. apply from_blob_iff; [assumption|]. cbn [key_cert key_pub]. auto.
Qed.

Variable kdf : list Z -> list Z -> Z -> Z -> option (list Z).
Variable enc : list Z -> list Z -> list Z -> option (list Z).
Variable dec : list Z -> list Z -> list Z -> dres.
Lemma u32_range : forall v, 0 <= u32 v < 4294967296.
Proof. intros v. unfold u32. apply Z.mod_pos_bound. lia. Qed.
Lemma padded_bytes : forall p, padding p -> is_bytes p.
Proof. intros p ->. apply Forall_forall. intros x Hx. apply in_map_iff in Hx as (i & <- & _). unfold is_byte. apply Z.mod_pos_bound. lia. Qed.
Lemma none_bytes : is_bytes (bs "none") /\ is_bytes (bs "bcrypt"). Proof. split; apply bs_bytes; reflexivity. Qed.

Lemma out_holds : forall salt check k s pass comment cipher rounds out, sound point_ok ver k -> proper_secret scalar_ok rsa_ok (key_pub k) s -> is_bytes salt -> is_bytes comment -> ~ In 0 comment -> rounds < 2147483648 -> inverse dec enc ->
  private_to_blob2 kdf enc salt check k s pass comment cipher rounds = Some out ->
  holds point_ok ver scalar_ok rsa_ok kdf dec out pass k s comment /\ zlen out <= 134217728.
Proof.
  intros salt check k s pass comment cipher rounds out W Ws Bs Bc N0 LR IV H. unfold private_to_blob2 in H. cbv zeta in H.
  set (rd := if rounds <=? 0 then DEFAULT_ROUNDS else rounds) in *. assert (Lrd : 0 <= rd < 2147483648) by (unfold rd, DEFAULT_ROUNDS; destruct (rounds <=? 0) eqn:E; lia).
  set (cn := if is_nil pass then bs "none" else match cipher with Some c => c | None => bs "aes256-ctr" end) in *. set (kn := if is_nil pass then bs "none" else bs "bcrypt") in *.
  destruct (cipher_by_name cn) as [ci|] eqn:Ci; [|discriminate]. apply cipher_sizes in Ci. destruct (sizes_pos _ _ _ _ Ci) as (Sb & St & _). destruct (sizes_name _ _ _ _ Ci) as (Cn1 & Cn2 & Cn3).
  match type of H with match ?e with _ => _ end = _ => destruct e as [[key kd]|] eqn:K; [|discriminate] end.
  destruct (to_blob false k) as [pb|] eqn:TB; [|discriminate]. destruct (blob_out k pb W TB) as (Bp & F).
  match type of H with match ?e with _ => _ end = _ => destruct e as [m|] eqn:M; [|discriminate] end.
  destruct (private_serialize k s) as [prv|] eqn:PS; [|discriminate]. destruct (private_out k s prv W Ws PS) as (PP & Bprv).
  match type of H with match pad_go _ _ _ ?e with _ => _ end = _ => destruct e as [x0|] eqn:X0; [|discriminate] end.
  apply put_str_fits_m in X0 as (x1 & X1 & -> & L0). apply put_m in X1 as (x2 & X2 & -> & _). apply put_m in X2 as (x3 & X3 & -> & _). apply put_iff in X3 as (-> & _). cbn [app] in *.
  match type of H with match ?e with _ => _ end = _ => destruct e as [plain|] eqn:PG; [|discriminate] end.
  match type of PG with pad_go _ _ _ (Some ?b) = _ => rewrite <- (app_nil_r b) in PG at 1; change 0 with (zlen (@nil Z)) in PG end. apply pad_go_spec in PG as (pad & EP & PO & MD); [|lia|reflexivity]. apply padding_iff in PO. pose proof (padded_bytes pad PO) as Bpad.
  destruct (AuthOptModel.put (be_enc 4 (u32 (zlen plain))) (Some m)) as [m1|] eqn:M1; [|discriminate]. apply put_iff in M1 as (-> & L1). destruct (encrypt enc cn key plain) as [ct|] eqn:EN; [|discriminate].
  destruct (AuthOptModel.put ct (Some (m ++ be_enc 4 (u32 (zlen plain))))) as [m2|] eqn:M2; [|discriminate]. apply put_iff in M2 as (-> & L2). destruct (sshbuf_dtob64 _ MARK_BEGIN true) as [b| |] eqn:DB; try discriminate.
  apply put_str_fits_m in M as (a1 & A & -> & Lpb). apply put_m in A as (a2 & A & -> & _). apply put_str_fits_m in A as (a3 & A & -> & Lkd). apply put_str_fits_m in A as (a4 & A & -> & _). apply put_str_fits_m in A as (a5 & A & -> & _). apply put_iff in A as (-> & _). cbn [app] in *. change AUTH_MAGIC with magic in *.
  assert (Bplain : is_bytes plain). { rewrite EP, !is_bytes_app. splits; auto; try apply be_enc_bytes. now apply enc_bytes. }
  assert (Hct : is_bytes ct /\ zlen ct = zlen plain + ci_auth ci /\ if beqb cn (bs "none") then plain = ct else dec cn key ct = DOk plain).
  { unfold encrypt in EN. destruct (beqb cn (bs "none")) eqn:CN; [|exact (IV cn _ _ _ key plain ct Ci Bplain EN)]. assert (ct = plain) by congruence. subst ct. splits; auto. apply beqb_eq in CN. rewrite CN in Ci.
    assert (S0 : sizes (bs "none") 8 8 0) by (unfold sizes; cbn [In]; auto 20). destruct (sizes_fun _ _ _ _ _ _ _ Ci S0) as (_ & _ & ->). lia. }
  destruct Hct as (Bct & Lct & Dct). pose proof (zlen_nonneg _ plain) as LP0. assert (LP : zlen plain <= 134217728) by (rewrite zlen_app in L2; pose proof (zlen_nonneg _ (((((((magic ++ enc_string cn) ++ enc_string kn) ++ enc_string kd) ++ be_enc 4 1) ++ enc_string pb) ++ be_enc 4 (u32 (zlen plain))))); lia).
  assert (U : u32 (zlen plain) = zlen plain) by (unfold u32; apply Z.mod_small; unfold U32; lia). rewrite U in *.
  assert (Hkd : is_bytes kd /\ opens kdf dec cn kn kd pass ct plain).
  { subst kn. destruct pass as [|p0 pass]; cbn [is_nil] in *.
    - change (beqb (bs "none") (bs "bcrypt")) with false in K. assert (kd = []) by (cbv iota in K; congruence). subst kd. split; [constructor|]. left. subst cn. rewrite beqb_refl in Dct. auto.
    - rewrite beqb_refl in K. destruct (kdf (p0 :: pass) salt rd (ci_key ci + ci_iv ci)) as [x|] eqn:KD; [|discriminate]. destruct (AuthOptModel.put (be_enc 4 (u32 rd)) (put_str salt (Some []))) as [kd'|] eqn:PK; [|discriminate].
      assert (x = key /\ kd' = kd) as (-> & ->) by (split; congruence). apply put_m in PK as (b1 & PK & -> & _). apply put_str_fits in PK as (-> & Ls). cbn [app] in *. assert (Ur : u32 rd = rd) by (unfold u32; apply Z.mod_small; unfold U32; lia). rewrite Ur.
      split; [rewrite is_bytes_app; split; [now apply enc_bytes|apply be_enc_bytes]|]. right. split; [reflexivity|]. split; [discriminate|]. exists key. split; [|destruct (beqb cn (bs "none")); [exact Dct|exact Dct]].
      exists salt, rd, [], (ci_block ci), (ci_key ci + ci_iv ci), (ci_auth ci). rewrite app_nil_r. splits; auto; try lia. rewrite zlen_enc_string in Ls. lia. }
  destruct Hkd as (Bkd & Op). destruct none_bytes as (Bn1 & Bn2).
  assert (Bd : is_bytes (((((((magic ++ enc_string cn) ++ enc_string kn) ++ enc_string kd) ++ be_enc 4 1) ++ enc_string pb) ++ be_enc 4 (zlen plain)) ++ ct)).
  { rewrite !is_bytes_app. splits; auto; try apply be_enc_bytes; try (apply enc_bytes; assumption); [apply magic_bytes|]. apply enc_bytes. unfold kn. destruct (is_nil pass); assumption. }
  destruct (written_text _ _ _ Bd ltac:(discriminate) L2 DB H) as (T & LO). split; [|assumption].
  eexists. exists cn, kn, kd, pb, ct, plain. split; [exact T|]. splits; auto.
  - exists (enc_string cn), (enc_string kn), (zlen plain), (ci_block ci), (ci_key ci + ci_iv ci), (ci_auth ci). splits; auto; try lia.
    + rewrite <- !app_assoc. reflexivity.
    + apply ctext_enc; [assumption|lia].
    + unfold kn. destruct (is_nil pass); (apply ctext_enc; [intros I; vm_compute in I; intuition discriminate|unfold zlen; cbn; lia]).
    + now apply fits_r in Lkd.
    + now apply fits_r in Lpb.
    + assert (zlen plain <> 0). { rewrite EP, !zlen_app. pose proof (zlen_nonneg _ prv). pose proof (zlen_nonneg _ (enc_string comment)). pose proof (zlen_nonneg _ pad). change (zlen (be_enc 4 (u32 check))) with 4. lia. }
      Z.to_euclidean_division_equations. nia.
    + exists (zlen plain / ci_block ci). pose proof (Z.div_mod (zlen plain) (ci_block ci)). lia.
  - exists (u32 check), prv, (enc_string comment), pad. splits; auto; try (pose proof (u32_range check); lia).
    + rewrite EP, <- !app_assoc. reflexivity.
    + apply ctext_enc; [assumption|now apply fits_r in L0].
Qed.

(** ** Two secrets *)
Lemma pad_go_same : forall block fuel i b b', zlen b = zlen b' -> match pad_go fuel i block (Some b), pad_go fuel i block (Some b') with Some x, Some y => zlen x = zlen y | None, None => True | _, _ => False end.
Proof.
  intros block. induction fuel as [|fuel IH]; intros i b b' E; cbn [pad_go]; rewrite <- E; destruct (zlen b mod block =? 0) eqn:Q; auto.
  unfold AuthOptModel.put. rewrite <- E. destruct (SSHBUF_SIZE_MAX <? zlen b + zlen [(i + 1) mod 256]); [destruct fuel; exact I|]. apply IH. rewrite !zlen_app. lia.
Qed.
Lemma put_same : forall x x' b b', zlen x = zlen x' -> zlen b = zlen b' -> match AuthOptModel.put x (Some b), AuthOptModel.put x' (Some b') with Some y, Some y' => zlen y = zlen y' | None, None => True | _, _ => False end.
Proof. intros x x' b b' E E'. unfold AuthOptModel.put. rewrite <- E, <- E'. destruct (_ <? _); [exact I|]. rewrite !zlen_app. lia. Qed.
Lemma put_str_same : forall x x' b b', zlen x = zlen x' -> zlen b = zlen b' -> match put_str x (Some b), put_str x' (Some b') with Some y, Some y' => zlen y = zlen y' | None, None => True | _, _ => False end.
Proof. intros x x' b b' E E'. unfold put_str. rewrite <- E. destruct (_ <? zlen x); [exact I|]. apply put_same; [|assumption]. rewrite !zlen_enc_string. lia. Qed.
Lemma hidden : forall salt k s s' w w' pass comment comment' check check' cipher rounds,
  (forall cn key x y, zlen x = zlen y -> enc cn key x = enc cn key y) -> pass <> [] -> cipher <> Some (bs "none") ->
  private_serialize k s = Some w -> private_serialize k s' = Some w' -> zlen w = zlen w' -> zlen comment = zlen comment' ->
  private_to_blob2 kdf enc salt check k s pass comment cipher rounds = private_to_blob2 kdf enc salt check' k s' pass comment' cipher rounds.
Proof.
  intros salt k s s' w w' pass comment comment' check check' cipher rounds EN NP NC S S' L LC. unfold private_to_blob2. cbv zeta. rewrite S, S'. destruct pass as [|p0 pass]; [congruence|]. cbn [is_nil].
  set (cn := match cipher with Some c => c | None => bs "aes256-ctr" end). assert (CN : beqb cn (bs "none") = false). { destruct (beqb cn (bs "none")) eqn:Q; [|reflexivity]. apply beqb_eq in Q. unfold cn in Q. destruct cipher as [c|]; [congruence|discriminate Q]. }
  destruct (cipher_by_name cn) as [ci|]; [|reflexivity]. match goal with |- match ?e with _ => _ end = _ => destruct e as [[key kd]|]; [|reflexivity] end. destruct (to_blob false k) as [pb|]; [|reflexivity].
  match goal with |- match ?e with _ => _ end = _ => destruct e as [m|]; [|reflexivity] end. unfold encrypt. rewrite CN.
  assert (X : forall c c', match AuthOptModel.put (be_enc 4 (u32 c)) (AuthOptModel.put (be_enc 4 (u32 c)) (Some [])), AuthOptModel.put (be_enc 4 (u32 c')) (AuthOptModel.put (be_enc 4 (u32 c')) (Some [])) with Some a, Some b => zlen a = zlen b | _, _ => False end) by (intros c c'; reflexivity).
  specialize (X check check'). destruct (AuthOptModel.put (be_enc 4 (u32 check)) (AuthOptModel.put _ (Some []))) as [a|]; [|contradiction]. destruct (AuthOptModel.put (be_enc 4 (u32 check')) (AuthOptModel.put _ (Some []))) as [b|]; [|contradiction].
  pose proof (put_same w w' a b L X) as X1. destruct (AuthOptModel.put w (Some a)) as [a1|], (AuthOptModel.put w' (Some b)) as [b1|]; try contradiction; [|unfold put_str, AuthOptModel.put; rewrite LC; destruct (_ <? _); destruct (ci_block ci); reflexivity].
  pose proof (put_str_same comment comment' a1 b1 LC X1) as X2. destruct (put_str comment (Some a1)) as [a2|], (put_str comment' (Some b1)) as [b2|]; try contradiction; [|reflexivity].
  pose proof (pad_go_same (ci_block ci) 16 0 a2 b2 X2) as X3. destruct (pad_go 16 0 (ci_block ci) (Some a2)) as [a3|], (pad_go 16 0 (ci_block ci) (Some b2)) as [b3|]; try contradiction; [|reflexivity].
  rewrite (EN cn key a3 b3 X3), X3. reflexivity.
Qed.
End Priv.
