(** Proofs for C77: writing keys and certificates. *)
From Coq Require Import String.
From Verif Require Import Base Text SshbufModel SshbufSpec SshbufProof WireSpec WireProof AddrModel MiscNumModel AuthOptModel Dec CertModel CertSpec CertProof AuthOptProof SigProof2 SigProof3 Base64Model Base64Spec Base64Proof Base64Props KeyModel KeySpec KeyProof KeyProof2.
Local Open Scope Z_scope.

Lemma put_m : forall x m b', AuthOptModel.put x m = Some b' <-> exists b, m = Some b /\ b' = b ++ x /\ zlen b' <= 134217728.
Proof.
  intros x [b|] b'.
  - rewrite put_iff. split; [intros H; exists b; auto|intros (b0 & E & H); now injection E as <-].
  - unfold AuthOptModel.put. split; [discriminate|intros (b & H & _); discriminate].
Qed.
Lemma enc_bytes : forall v, is_bytes v -> is_bytes (enc_string v).
Proof. intros v H. unfold enc_string. apply is_bytes_app. split; [apply be_enc_bytes|assumption]. Qed.
Lemma bs_bytes : forall s, forallb (fun c => (0 <=? c) && (c <? 256)) (bs s) = true -> is_bytes (bs s).
Proof. intros s H. apply Forall_forall. intros x Hx. rewrite forallb_forall in H. apply H in Hx. unfold is_byte. lia. Qed.
Lemma ctext_enc : forall v, ~ In 0 v -> zlen v <= 134217724 -> ctext (enc_string v) v.
Proof. intros v H L. split; [assumption|]. left. auto. Qed.
Lemma mpint_canon : forall v, magnitude v -> is_bytes v -> zlen v <= 2048 -> mpint (enc_string (mpint_body v)) v.
Proof.
  intros v Hm Hb L. split; [assumption|]. unfold mpint_body. rewrite strip0_id by (intros r ->; now apply Hm). destruct (msb v) eqn:M.
  - exists [0]. cbn [app]. splits; auto; [rewrite zlen_cons; lia|lia].
  - exists []. cbn [app]. splits; auto; [lia|]. destruct v as [|c v]; [exact I|]. cbn [msb] in M. lia.
Qed.
Lemma name_first : forall p cert, (match p with PEcSk c _ _ => c = P256 | _ => True end) -> In (name_of (family_of p, cert) (nid_of p)) (if cert then cert_names p else plain_names p).
Proof. intros [pk|pk app|c pt|c pt app|e n] cert H; try (destruct c; try discriminate); destruct cert; vm_compute; auto. Qed.
Lemma name_text : forall t nid, zlen (name_of t nid) <= 100 /\ ~ In 0 (name_of t nid) /\ is_bytes (name_of t nid) /\ solid (name_of t nid).
Proof.
  assert (G : forall n, ((zlen n <=? 100) && forallb (fun c => (33 <=? c) && (c <? 256)) n) = true -> zlen n <= 100 /\ ~ In 0 n /\ is_bytes n /\ solid n).
  { intros n H. apply andb_prop in H as (L & H). rewrite forallb_forall in H. unfold solid. splits; [lia| | | |]; try (intros K; apply H in K; lia). apply Forall_forall. intros x Hx. apply H in Hx. unfold is_byte. lia. }
  intros [f c] [[]|]; destruct f, c; apply G; reflexivity.
Qed.
Lemma curve_text_ok : forall c, zlen (curve_nid_to_name c) <= 100 /\ ~ In 0 (curve_nid_to_name c) /\ is_bytes (curve_nid_to_name c).
Proof.
  assert (G : forall n, ((zlen n <=? 100) && forallb (fun c => (33 <=? c) && (c <? 256)) n) = true -> zlen n <= 100 /\ ~ In 0 n /\ is_bytes n).
  { intros n H. apply andb_prop in H as (L & H). rewrite forallb_forall in H. splits; [lia|intros K; apply H in K; lia|]. apply Forall_forall. intros x Hx. apply H in Hx. unfold is_byte. lia. }
  intros []; apply G; reflexivity.
Qed.

Section Key.
Variable point_ok : curve -> list Z -> bool.

Lemma ser_spec : forall p m b', proper point_ok p -> serialize_public p m = Some b' -> exists b w, m = Some b /\ b' = b ++ w /\ material point_ok p w /\ is_bytes w /\ zlen b' <= 134217728.
Proof.
  intros p m b' W H. assert (LE : forall (a b : list Z), zlen a <= zlen (a ++ b)) by (intros a b; rewrite zlen_app; pose proof (zlen_nonneg _ b); lia).
  assert (LR : forall (a b : list Z), zlen b <= zlen (a ++ b)) by (intros a b; rewrite zlen_app; pose proof (zlen_nonneg _ a); lia).
  destruct p as [pk|pk app|c pt|c pt app|e n]; cbn [serialize_public proper material] in *.
  - destruct W as (L & B). apply put_str_fits_m in H as (b & -> & -> & Z0). exists b, (enc_string pk). splits; auto. now apply enc_bytes.
  - destruct W as (L & B & N & A). apply put_str_fits_m in H as (b1 & H & -> & Z0). apply put_str_fits_m in H as (b & -> & -> & _). exists b, (enc_string pk ++ enc_string app). rewrite app_assoc. splits; auto.
    + exists (enc_string app). splits; auto. apply ctext_enc; auto. rewrite !zlen_app, !zlen_enc_string in Z0. pose proof (zlen_nonneg _ b). pose proof (zlen_nonneg _ pk). lia.
    + apply is_bytes_app. split; now apply enc_bytes.
  - destruct W as (P & B). unfold put_point in H. destruct (MAX_ECPOINT <? zlen pt); [discriminate|]. apply put_str_fits_m in H as (b1 & H & -> & Z0). apply put_str_fits_m in H as (b & -> & -> & _).
    destruct (curve_text_ok c) as (C1 & C2 & C3). exists b, (enc_string (curve_nid_to_name c) ++ enc_string pt). rewrite app_assoc. splits; auto.
    + exists (enc_string (curve_nid_to_name c)). splits; auto. replace (curve_text c) with (curve_nid_to_name c) by (destruct c; reflexivity). apply ctext_enc; auto. lia.
    + apply is_bytes_app. split; now apply enc_bytes.
  - destruct W as (-> & P & B & N & A). unfold put_point in H. apply put_str_fits_m in H as (b2 & H & -> & Z0). destruct (MAX_ECPOINT <? zlen pt); [discriminate|]. apply put_str_fits_m in H as (b1 & H & -> & _). apply put_str_fits_m in H as (b & -> & -> & _).
    destruct (curve_text_ok P256) as (C1 & C2 & C3). exists b, (enc_string (curve_nid_to_name P256) ++ enc_string pt ++ enc_string app). rewrite !app_assoc. splits; auto.
    + exists (enc_string (curve_nid_to_name P256)), (enc_string app). rewrite <- app_assoc. splits; auto.
      * change (curve_text P256) with (curve_nid_to_name P256). apply ctext_enc; [assumption|lia].
      * apply ctext_enc; auto. rewrite !zlen_app, !zlen_enc_string in Z0. pose proof (zlen_nonneg _ b). pose proof (zlen_nonneg _ (curve_nid_to_name P256)). pose proof (zlen_nonneg _ pt). lia.
    + rewrite <- app_assoc. apply is_bytes_app. split; [now apply enc_bytes|]. apply is_bytes_app. split; now apply enc_bytes.
  - destruct W as (E1 & E2 & E3 & N1 & N2 & N3 & LG). unfold put_mpint in H. destruct (SSHBUF_MAX_BIGNUM <? zlen n); [discriminate|]. apply put_str_fits_m in H as (b1 & H & -> & Z0). destruct (SSHBUF_MAX_BIGNUM <? zlen e); [discriminate|]. apply put_str_fits_m in H as (b & -> & -> & _).
    exists b, (enc_string (mpint_body e) ++ enc_string (mpint_body n)). rewrite app_assoc. splits; auto.
    + exists (enc_string (mpint_body e)), (enc_string (mpint_body n)). splits; auto; now apply mpint_canon.
    + apply is_bytes_app. split; apply enc_bytes; now apply mpint_body_bytes.
Qed.
Definition short_app (p : kpub) : Prop := match p with PEdSk _ app => zlen app <= 100000000 | PEcSk _ _ app => zlen app <= 100000000 | _ => True end.
Lemma ser_total : forall p b, proper point_ok p -> short_app p -> zlen b <= 30000000 -> exists b', serialize_public p (Some b) = Some b'.
Proof.
  assert (PS : forall x b, zlen b + zlen x <= 134217724 -> put_str x (Some b) = Some (b ++ enc_string x)).
  { intros x b L. apply put_str_fits. split; [reflexivity|]. rewrite zlen_app, zlen_enc_string. lia. }
  assert (ML : forall v, zlen (mpint_body v) <= zlen v + 1).
  { intros v. unfold mpint_body. pose proof (strip0_len v). destruct (msb (strip0 v)); [rewrite zlen_cons|]; lia. }
  intros p b W S L. pose proof (zlen_nonneg _ b) as L0. destruct p as [pk|pk app|c pt|c pt app|e n]; cbn [serialize_public proper short_app] in *; unfold put_point, put_mpint, MAX_ECPOINT.
  - rewrite PS by lia. eauto.
  - rewrite PS by lia. rewrite PS by (rewrite zlen_app, zlen_enc_string; lia). eauto.
  - destruct W as ((_ & P & _) & _). replace (133 <? zlen pt) with false by lia. destruct (curve_text_ok c) as (C1 & _). rewrite PS by lia. rewrite PS by (rewrite zlen_app, zlen_enc_string; lia). eauto.
  - destruct W as (_ & (_ & P & _) & _). replace (133 <? zlen pt) with false by lia. destruct (curve_text_ok c) as (C1 & _). rewrite PS by lia. rewrite PS by (rewrite zlen_app, zlen_enc_string; lia). rewrite PS by (rewrite !zlen_app, !zlen_enc_string; lia). eauto.
  - destruct W as (_ & _ & E3 & _ & _ & N3 & _). change SSHBUF_MAX_BIGNUM with 2048. replace (2048 <? zlen n) with false by lia. replace (2048 <? zlen e) with false by lia. pose proof (ML e). pose proof (ML n).
    rewrite PS by lia. rewrite PS by (rewrite zlen_app, zlen_enc_string; lia). eauto.
Qed.
Lemma proper_sk : forall p, proper point_ok p -> match p with PEcSk c _ _ => c = P256 | _ => True end.
Proof. intros [pk|pk app|c pt|c pt app|e n] H; try exact I. now destruct H. Qed.
Lemma to_blob_plain : forall p fp c b, proper point_ok p -> (fp = true \/ c = None) -> to_blob fp (mkKey p c) = Some b -> is_plain point_ok b p /\ is_bytes b /\ zlen b <= 134217728.
Proof.
  intros p fp c b W O H. assert (H' : serialize_public p (put_str (name_of (family_of p, false) (nid_of p)) (Some [])) = Some b).
  { unfold to_blob in H. cbn [key_cert key_pub] in H. destruct O as [-> | ->]; [exact H|]. destruct fp; exact H. }
  clear H. apply ser_spec in H' as (b0 & w & H & -> & M & Hw & L); [|assumption]. apply put_str_fits in H as (-> & _). destruct (name_text (family_of p, false) (nid_of p)) as (N1 & N2 & N3 & _).
  cbn [app] in *. splits; auto.
  - exists (enc_string (name_of (family_of p, false) (nid_of p))), (name_of (family_of p, false) (nid_of p)), w. splits; auto; [apply ctext_enc; auto; lia|]. apply (name_first p false). now apply proper_sk.
  - apply is_bytes_app. split; [now apply enc_bytes|assumption].
Qed.
Lemma to_blob_total : forall p fp c, proper point_ok p -> short_app p -> (fp = true \/ c = None) -> exists b, to_blob fp (mkKey p c) = Some b.
Proof.
  intros p fp c W S O. assert (E : to_blob fp (mkKey p c) = serialize_public p (put_str (name_of (family_of p, false) (nid_of p)) (Some []))).
  { unfold to_blob. cbn [key_cert key_pub]. destruct O as [-> | ->]; [reflexivity|]. destruct fp; reflexivity. }
  rewrite E. destruct (name_text (family_of p, false) (nid_of p)) as (N1 & _).
  assert (P : put_str (name_of (family_of p, false) (nid_of p)) (Some []) = Some (enc_string (name_of (family_of p, false) (nid_of p)))). { apply put_str_fits. split; [reflexivity|]. rewrite zlen_enc_string. lia. }
  rewrite P. apply ser_total; auto. rewrite zlen_enc_string. lia.
Qed.

(** ** Certifying *)
Lemma fold_texts : forall l m ps, Forall (fun p => ~ In 0 p /\ is_bytes p) l -> fold_left (fun m p => put_str p m) l m = Some ps ->
  exists b w, m = Some b /\ ps = b ++ w /\ texts w l /\ is_bytes w /\ (l = [] \/ zlen ps <= 134217728).
Proof.
  induction l as [|p l IH]; intros m ps Hl H; cbn [fold_left] in H.
  - exists ps, []. rewrite app_nil_r. splits; auto; constructor.
  - inversion Hl as [|? ? (Hp & Bp) Hl']; subst. apply IH in H as (b1 & w & Hm & -> & T & Bw & L); [|assumption]. apply put_str_fits_m in Hm as (b & -> & -> & L1).
    exists b, (enc_string p ++ w). rewrite <- app_assoc. splits; auto.
    + constructor; [|assumption]. apply ctext_enc; auto. rewrite zlen_app, zlen_enc_string in L1. pose proof (zlen_nonneg _ b). lia.
    + apply is_bytes_app. split; [now apply enc_bytes|assumption].
    + right. destruct L as [->|L]; [|now rewrite <- app_assoc in L]. inversion T; subst. now rewrite app_nil_r.
Qed.
Lemma certify_says : forall signer nonce p t st0 ca alg blob st, proper point_ok p -> proper point_ok ca -> proper_fields t -> is_bytes nonce ->
  certify signer nonce p t st0 ca alg = Some (blob, st) ->
  exists m a sig, signer m a = Some sig /\ says point_ok m p t ca /\ is_bytes m /\ blob = m ++ enc_string sig /\ zlen blob <= 134217728 /\ get_sigtype sig = Some st.
Proof.
  intros signer nonce p t st0 ca alg blob st Wp Wca (T1 & T2 & T3 & T4 & T5 & T6 & T7 & T8 & T9 & T10 & T11 & T12) Bn H. unfold certify in H.
  match type of H with match ?x with Some _ => _ | None => None end = _ => destruct x as [al|] eqn:EA; [|discriminate] end. cbv zeta in H.
  set (al' := match al with Some _ => al | None => match family_of ca with FRsa => Some (bs "rsa-sha2-512") | _ => None end end) in H.
  destruct (to_blob false (mkKey ca None)) as [cab|] eqn:CB; [|discriminate]. apply to_blob_plain in CB as (CB & Bcab & Lcab); [|assumption|now right].
  destruct (fold_left (fun m p => put_str p m) (t_principals t) (Some [])) as [wp|] eqn:FP; [|discriminate]. apply fold_texts in FP as (b0 & w0 & E0 & -> & TX & Bw & _); [|assumption]. injection E0 as <-. cbn [app] in *.
  match type of H with match ?x with Some _ => _ | None => None end = _ => destruct x as [cert|] eqn:EM; [|discriminate] end.
  destruct (signer cert al') as [sig|] eqn:SG; [|discriminate]. destruct (get_sigtype sig) as [st'|] eqn:GS; [|discriminate].
  destruct (match al' with Some a => negb (beqb a st') | None => false end) eqn:AS; [discriminate|]. destruct (put_str sig (Some cert)) as [blob'|] eqn:PB; [|discriminate].
  assert (EBl : blob' = blob) by congruence. assert (Est : match st0 with Some s => s | None => st' end = st) by congruence. clear H. subst blob'.
  exists cert, al', sig. apply put_str_fits in PB as (-> & LB).
  assert (st' = st). { destruct st0 as [s|]; [|assumption]. subst s. assert (AL : al = Some st). { destruct alg as [a|]; [|congruence]. destruct (beqb a st) eqn:BE; [|discriminate]. apply beqb_eq in BE. congruence. } subst al. cbn in al'. subst al'. cbn in AS. destruct (beqb st st') eqn:BE; [|discriminate]. apply beqb_eq in BE. auto. }
  subst st'. clear Est AS EA.
  apply put_str_fits_m in EM as (m1 & EM & -> & L1). apply put_str_fits_m in EM as (m2 & EM & -> & _). apply put_str_fits_m in EM as (m3 & EM & -> & _). apply put_str_fits_m in EM as (m4 & EM & -> & _).
  apply put_m in EM as (m5 & EM & -> & _). apply put_m in EM as (m6 & EM & -> & _). apply put_str_fits_m in EM as (m7 & EM & -> & _). apply put_str_fits_m in EM as (m8 & EM & -> & _).
  apply put_m in EM as (m9 & EM & -> & _). apply put_m in EM as (m10 & EM & -> & _). apply ser_spec in EM as (m11 & w & EM & -> & M & Hw & _); [|assumption].
  apply put_str_fits_m in EM as (m12 & EM & -> & _). apply put_str_fits in EM as (-> & _). destruct (name_text (family_of p, true) (nid_of p)) as (N1 & N2 & N3 & _).
  cbn [app] in *. rewrite <- !app_assoc in *. rewrite !zlen_app, !zlen_enc_string in L1. rewrite ?zlen_be_enc in L1.
  assert (LN : forall l : list Z, 0 <= zlen l) by (intros l; apply zlen_nonneg).
  splits; auto.
  - apply (proj2 (says_split _ _ _ _ _)). exists (enc_string (name_of (family_of p, true) (nid_of p))), (name_of (family_of p, true) (nid_of p)), nonce, w, (enc_string (t_id t)), w0, [], cab.
    pose proof (LN (name_of (family_of p, true) (nid_of p))). pose proof (LN nonce). pose proof (LN w). pose proof (LN (t_id t)). pose proof (LN w0). pose proof (LN (t_crit t)). pose proof (LN (t_ext t)). pose proof (LN cab). pose proof (LN []).
    unfold rest_of, fine. splits; auto; try (apply ctext_enc; auto); try lia. apply (name_first p true). now apply proper_sk.
  - repeat (apply is_bytes_app; split); try (constructor; fail); auto using enc_bytes, be_enc_bytes. all: repeat constructor; unfold is_byte; try lia.
Qed.

End Key.

(** ** Text *)
Lemma word_app : forall a b, solid a -> (b = [] \/ exists c r, b = c :: r /\ (c = 32 \/ c = 9)) -> word (a ++ b) = (a, b).
Proof.
  induction a as [|x a IH]; intros b (S1 & S2) Hb.
  - cbn [app]. destruct Hb as [->|(c & r & -> & [-> | ->])]; reflexivity.
  - cbn [app word]. replace ((x =? 32) || (x =? 9)) with false; [rewrite IH; auto; split; intros K; [apply S1|apply S2]; now right|].
    symmetry. apply orb_false_intro; apply Z.eqb_neq; intros ->; [apply S1|apply S2]; now left.
Qed.
Lemma word_spec : forall l w r, word l = (w, r) -> l = w ++ r /\ solid w /\ (r = [] \/ exists c r', r = c :: r' /\ (c = 32 \/ c = 9)).
Proof.
  induction l as [|x l IH]; intros w r H; cbn [word] in H.
  - injection H as <- <-. splits; auto; split; auto.
  - destruct ((x =? 32) || (x =? 9)) eqn:E.
    + injection H as <- <-. splits; auto; [split; auto|]. right. exists x, l. split; [reflexivity|]. lia.
    + destruct (word l) as [w' t] eqn:W. injection H as <- <-. destruct (IH _ _ eq_refl) as (-> & (S1 & S2) & R). splits; auto. split; intros [K|K]; try lia; [now apply S1|now apply S2].
Qed.
Lemma skip_spec : forall l, exists s, l = s ++ skip_blank l /\ Forall (fun c => c = 32 \/ c = 9) s /\ no_blank_front (skip_blank l).
Proof.
  induction l as [|x l IH]; cbn [skip_blank].
  - exists []. splits; auto. exact I.
  - destruct ((x =? 32) || (x =? 9)) eqn:E.
    + destruct IH as (s & E1 & F & N). exists (x :: s). cbn [app]. splits; auto; [now rewrite <- E1|]. constructor; [lia|assumption].
    + exists []. cbn [app]. splits; auto. cbn. lia.
Qed.
Lemma skip_app : forall s r, Forall (fun c => c = 32 \/ c = 9) s -> no_blank_front r -> skip_blank (s ++ r) = r.
Proof.
  induction s as [|x s IH]; intros r F N.
  - cbn [app]. destruct r as [|c r]; [reflexivity|]. destruct N. cbn [skip_blank]. now replace ((c =? 32) || (c =? 9)) with false by lia.
  - inversion F; subst. cbn [app skip_blank]. replace ((x =? 32) || (x =? 9)) with true by lia. auto.
Qed.
Lemma peek_iff : forall w p (cert : bool), In w (if cert then cert_names p else plain_names p) <->
  exists nid, peek_type_nid w = Some ((family_of p, cert), nid) /\ (is_ecdsa (family_of p, cert) = true -> nid <> None /\ nid = nid_of p).
Proof.
  intros w p cert. split.
  - intros H. destruct cert, p as [pk|pk app|c pt|c pt app|e n]; try destruct c; cbn [cert_names plain_names In] in H;
    repeat (destruct H as [<-|H]; [eexists; split; [reflexivity|]; intros K; first [discriminate K | split; [let H0 := fresh in intros H0; vm_compute in H0; discriminate H0|reflexivity]]|]); destruct H.
  - intros (nid & H & N). unfold peek_type_nid in H. destruct (find _ keyimpls) as [i|] eqn:E; [|discriminate]. apply find_name in E as (Hi & ->).
    unfold keyimpls in Hi. cbn [In] in Hi.
    repeat (destruct Hi as [<-|Hi]; [cbn [i_type i_name i_nid] in *; destruct p as [pk|pk app|c pt|c pt app|e n]; cbn [family_of] in *; try discriminate H; destruct cert; try discriminate H;
      cbn [is_ecdsa fst family_eqb orb] in *; try (injection H as <-; destruct (N eq_refl) as (_ & K); cbn [nid_of] in K; destruct c; try discriminate K); cbn; tauto|]). destruct Hi.
Qed.
Lemma ktype_eqb_iff : forall a b, ktype_eqb a b = true <-> a = b.
Proof. intros [[] []] [[] []]; vm_compute; split; congruence. Qed.
