(** Proofs for C78: the private section, the envelope, the whole file. *)
From Coq Require Import String.
From Verif Require Import Base Text SshbufModel SshbufSpec SshbufProof WireSpec WireProof AddrModel MiscNumModel AuthOptModel Dec CertModel CertSpec CertProof AuthOptProof SigModel SigProof2 SigProof3 Base64Model Base64Spec Base64Proof Base64Props KeyModel KeySpec KeyProof KeyProof2 KeyProof3 PrivModel PrivSpec PrivProof.
Local Open Scope Z_scope.

Lemma byte_enc : forall v, be_enc 1 v = [v mod 256].
Proof. reflexivity. Qed.
Lemma get_byte_iff : forall l v r, is_bytes l -> (get_int 1 l = Some (v, r) <-> l = v :: r /\ 0 <= v < 256).
Proof.
  intros l v r B. rewrite get_int_iff by assumption. rewrite byte_enc. change (256 ^ Z.of_nat 1) with 256. split; intros (H & L); (split; [|assumption]); rewrite H; rewrite Z.mod_small by lia; reflexivity.
Qed.
Lemma get_sk_iff : forall b app s r, is_bytes b -> (get_sk b = Some (app, s, r) <-> exists fl h rs w, s = SSk fl h rs /\ token app fl h rs w /\ b = w ++ r).
Proof.
  intros b app s r B. unfold get_sk, token. split.
  - destruct (get_cstr b) as [[app' b1]|] eqn:E1; [|discriminate]. apply get_cstr_iff in E1 as (a & Ca & ->); [|assumption]. apply bytes_app in B as (_ & B).
    destruct (get_int 1 b1) as [[fl b2]|] eqn:E2; [|discriminate]. apply get_byte_iff in E2 as (-> & F); [|assumption]. change (fl :: b2) with ([fl] ++ b2) in B. apply bytes_app in B as (_ & B).
    destruct (get_str b2) as [[h b3]|] eqn:E3; [|discriminate]. apply get_str_iff in E3 as (-> & Lh); [|assumption]. apply bytes_app in B as (_ & B).
    destruct (get_str b3) as [[rs b4]|] eqn:E4; [|discriminate]. apply get_str_iff in E4 as (-> & Lr); [|assumption].
    intros H. assert (app' = app /\ s = SSk fl h rs /\ b4 = r) as (-> & -> & ->) by (splits; congruence). exists fl, h, rs, (a ++ [fl] ++ enc_string h ++ enc_string rs). split; [reflexivity|]. split; [exists a; splits; auto; lia|]. rewrite <- !app_assoc. reflexivity.
  - intros (fl & h & rs & w & -> & (a & -> & Ca & F & Lh & Lr) & ->). repeat rewrite <- app_assoc in *. pose proof B as B0. apply bytes_app in B0 as (_ & B1). pose proof B1 as B1'. apply bytes_app in B1' as (_ & B2). pose proof B2 as B2'. apply bytes_app in B2' as (_ & B3).
    rewrite (proj2 (get_cstr_iff _ app ([fl] ++ enc_string h ++ enc_string rs ++ r) B)) by (exists a; auto).
    rewrite (proj2 (get_byte_iff _ fl (enc_string h ++ enc_string rs ++ r) B1)) by auto.
    rewrite (proj2 (get_str_iff _ h (enc_string rs ++ r) B2)) by auto. rewrite (proj2 (get_str_iff _ rs r B3)) by auto. reflexivity.
Qed.
Lemma ed_iff : forall b pk r, is_bytes b -> (de_ed25519 b = Some (pk, r) <-> b = enc_string pk ++ r /\ zlen pk = 32).
Proof. exact (de_ed_iff (fun _ _ => true)). Qed.
Lemma get_ed_iff : forall b pk s r, is_bytes b -> (get_ed b = Some (pk, s, r) <-> exists sk, s = SEd sk /\ zlen pk = 32 /\ zlen sk = 64 /\ b = enc_string pk ++ enc_string sk ++ r).
Proof.
  intros b pk s r B. unfold get_ed. change ED25519_SK_SZ with 64. split.
  - destruct (de_ed25519 b) as [[pk' b1]|] eqn:E1; [|discriminate]. apply ed_iff in E1 as (-> & L1); [|assumption]. apply bytes_app in B as (_ & B).
    destruct (get_str b1) as [[sk b2]|] eqn:E2; [|discriminate]. apply get_str_iff in E2 as (-> & L2); [|assumption]. destruct (zlen sk =? 64) eqn:E; [|discriminate].
    intros H. assert (pk' = pk /\ s = SEd sk /\ b2 = r) as (-> & -> & ->) by (splits; congruence). exists sk. splits; auto. lia.
  - intros (sk & -> & L1 & L2 & ->). pose proof B as B1. apply bytes_app in B1 as (_ & B1). rewrite (proj2 (ed_iff _ pk (enc_string sk ++ r) B)) by auto. rewrite (proj2 (get_str_iff _ sk r B1)) by (split; [reflexivity|lia]). rewrite L2. reflexivity.
Qed.

Ltac past B := match type of B with is_bytes (?w ++ ?r) => match goal with M : mpint w ?v |- _ =>
  let B' := fresh "B" in pose proof (proj2 (mpint_bytes w v r B M)) as B'; clear B; rename B' into B end end.
Section Priv.
Variable point_ok : curve -> list Z -> bool.
Variable ver : kpub -> list Z -> list Z -> bool.
Variable scalar_ok : curve -> list Z -> bool.
Variable rsa_ok : list Z -> list Z -> list Z -> list Z -> list Z -> list Z -> bool.

Lemma get_ec_iff : forall c b s r, is_bytes b -> (get_ec scalar_ok c b = Some (s, r) <-> exists d a, s = SEc d /\ mpint a d /\ scalar_ok c d = true /\ b = a ++ r).
Proof.
  intros c b s r B. unfold get_ec. split.
  - destruct (get_mpint b) as [[d b1]|] eqn:E; [|discriminate]. apply get_mpint_iff in E as (w & M & ->); [|assumption]. destruct (scalar_ok c d) eqn:S; [|discriminate]. intros H. assert (s = SEc d /\ b1 = r) as (-> & ->) by (split; congruence). exists d, w. auto.
  - intros (d & a & -> & M & S & ->). rewrite (proj2 (get_mpint_iff _ d r B)) by (exists a; auto). now rewrite S.
Qed.
Lemma get_rsa_iff : forall e n b s r, is_bytes b -> is_bytes n -> (get_rsa rsa_ok e n b = Some (s, r) <->
  exists d iqmp p q a1 a2 a3 a4, s = SRsa d iqmp p q /\ mpint a1 d /\ mpint a2 iqmp /\ mpint a3 p /\ mpint a4 q /\ rsa_ok e n d iqmp p q = true /\ large n /\ b = a1 ++ a2 ++ a3 ++ a4 ++ r).
Proof.
  intros e n b s r B Bn. unfold get_rsa. split.
  - destruct (get_mpint b) as [[d b1]|] eqn:E1; [|discriminate]. apply get_mpint_iff in E1 as (a1 & M1 & ->); [|assumption]. past B.
    destruct (get_mpint b1) as [[iqmp b2]|] eqn:E2; [|discriminate]. apply get_mpint_iff in E2 as (a2 & M2 & ->); [|assumption]. past B.
    destruct (get_mpint b2) as [[p b3]|] eqn:E3; [|discriminate]. apply get_mpint_iff in E3 as (a3 & M3 & ->); [|assumption]. past B.
    destruct (get_mpint b3) as [[q b4]|] eqn:E4; [|discriminate]. apply get_mpint_iff in E4 as (a4 & M4 & ->); [|assumption].
    destruct (rsa_ok e n d iqmp p q) eqn:R; [|discriminate]. destruct (num_bits n <? RSA_MINIMUM_MODULUS_SIZE) eqn:L; [discriminate|]. apply large_iff in L; [|assumption].
    cbn [negb]. intros H. assert (s = SRsa d iqmp p q /\ b4 = r) as (-> & ->) by (split; congruence). exists d, iqmp, p, q, a1, a2, a3, a4. splits; auto.
  - intros (d & iqmp & p & q & a1 & a2 & a3 & a4 & -> & M1 & M2 & M3 & M4 & R & L & ->). pose proof (proj2 (mpint_bytes _ _ _ B M1)) as B1. pose proof (proj2 (mpint_bytes _ _ _ B1 M2)) as B2. pose proof (proj2 (mpint_bytes _ _ _ B2 M3)) as B3.
    rewrite (proj2 (get_mpint_iff _ d (a2 ++ a3 ++ a4 ++ r) B)) by (exists a1; auto). rewrite (proj2 (get_mpint_iff _ iqmp (a3 ++ a4 ++ r) B1)) by (exists a2; auto).
    rewrite (proj2 (get_mpint_iff _ p (a4 ++ r) B2)) by (exists a3; auto). rewrite (proj2 (get_mpint_iff _ q r B3)) by (exists a4; auto). rewrite R. cbn [negb]. rewrite (proj2 (large_iff n Bn) L). reflexivity.
Qed.

Lemma plain_iff : forall f name b p s r, is_bytes b -> (deserialize_plain point_ok scalar_ok rsa_ok f name b = Some (p, s, r) <->
  f = family_of p /\ name_fits name p /\ exists w, b = w ++ r /\ part point_ok scalar_ok rsa_ok (mkKey p None) s w).
Proof.
  intros f name b p s r B. split.
  - destruct f; cbn [deserialize_plain].
    + destruct (get_ed b) as [[[pk s'] b']|] eqn:E; [|discriminate]. apply get_ed_iff in E as (sk & -> & L1 & L2 & ->); [|assumption]. intros H. assert (p = PEd pk /\ s = SEd sk /\ r = b') as (-> & -> & ->) by (splits; congruence).
      splits; [reflexivity|exact I|]. exists (enc_string pk ++ enc_string sk). rewrite <- app_assoc. split; [reflexivity|]. cbn [part key_pub]. auto.
    + destruct (de_ed25519 b) as [[pk b1]|] eqn:E1; [|discriminate]. apply ed_iff in E1 as (-> & L1); [|assumption]. apply bytes_app in B as (_ & B).
      destruct (get_sk b1) as [[[app s'] b']|] eqn:E; [|discriminate]. apply get_sk_iff in E as (fl & h & rs & w & -> & T & ->); [|assumption]. intros H. assert (p = PEdSk pk app /\ s = SSk fl h rs /\ r = b') as (-> & -> & ->) by (splits; congruence).
      splits; [reflexivity|exact I|]. exists (enc_string pk ++ w). rewrite <- app_assoc. split; [reflexivity|]. cbn [part key_pub]. exists w. auto.
    + destruct (de_ecdsa point_ok name b) as [[[c pt] b1]|] eqn:E1; [|discriminate]. apply de_ecdsa_iff in E1 as (N & a & -> & Ca & P); [|assumption]. apply bytes_app in B as (_ & B). apply bytes_app in B as (_ & B).
      destruct (get_ec scalar_ok c b1) as [[s' b']|] eqn:E; [|discriminate]. apply get_ec_iff in E as (d & a' & -> & M & S & ->); [|assumption]. intros H. assert (p = PEc c pt /\ s = SEc d /\ r = b') as (-> & -> & ->) by (splits; congruence).
      splits; [reflexivity|exact N|]. exists ((a ++ enc_string pt) ++ a'). rewrite <- !app_assoc. split; [reflexivity|]. cbn [part key_pub key_cert]. exists (a ++ enc_string pt), a'. rewrite <- app_assoc. splits; auto. cbn [material]. exists a. auto.
    + destruct (de_ecdsa point_ok name b) as [[[c pt] b1]|] eqn:E1; [|discriminate]. apply de_ecdsa_iff in E1 as (N & a & -> & Ca & P); [|assumption]. apply bytes_app in B as (_ & B). apply bytes_app in B as (_ & B).
      destruct (get_sk b1) as [[[app s'] b']|] eqn:E; [|discriminate]. apply get_sk_iff in E as (fl & h & rs & w & -> & T & ->); [|assumption]. intros H. assert (p = PEcSk c pt app /\ s = SSk fl h rs /\ r = b') as (-> & -> & ->) by (splits; congruence).
      splits; [reflexivity|exact N|]. exists ((a ++ enc_string pt) ++ w). rewrite <- !app_assoc. split; [reflexivity|]. cbn [part key_pub key_cert]. exists (a ++ enc_string pt), w. rewrite <- app_assoc. splits; auto. cbn [material]. exists a. auto.
    + destruct (get_mpint b) as [[n b1]|] eqn:E1; [|discriminate]. apply get_mpint_iff in E1 as (a1 & M1 & ->); [|assumption]. pose proof (proj1 (mpint_bytes _ _ _ B M1)) as Bn. past B.
      destruct (get_mpint b1) as [[e b2]|] eqn:E2; [|discriminate]. apply get_mpint_iff in E2 as (a2 & M2 & ->); [|assumption]. past B.
      destruct (get_rsa rsa_ok e n b2) as [[s' b']|] eqn:E; [|discriminate]. apply get_rsa_iff in E as (d & iqmp & p0 & q & x1 & x2 & x3 & x4 & -> & X1 & X2 & X3 & X4 & R & L & ->); [|assumption|assumption].
      intros H. assert (p = PRsa e n /\ s = SRsa d iqmp p0 q /\ r = b') as (-> & -> & ->) by (splits; congruence). splits; [reflexivity|exact I|]. exists ((a1 ++ a2) ++ x1 ++ x2 ++ x3 ++ x4). rewrite <- !app_assoc. split; [reflexivity|].
      cbn [part key_pub key_cert]. exists (a1 ++ a2), x1, x2, x3, x4. rewrite <- app_assoc. splits; auto. exists a1, a2. auto.
  - intros (-> & N & w & -> & P). unfold part in P. destruct p as [pk|pk app|c pt|c pt app|e n], s as [sk|fl h rs|d|d iqmp p q]; cbn [key_pub key_cert] in P; try contradiction; cbn [family_of deserialize_plain].
    + destruct P as (-> & L1 & L2). rewrite (proj2 (get_ed_iff _ pk (SEd sk) r B)); [reflexivity|]. exists sk. rewrite <- app_assoc. auto.
    + destruct P as (t & -> & L1 & T). rewrite <- app_assoc in *. rewrite (proj2 (ed_iff _ pk (t ++ r) B)) by auto. apply bytes_app in B as (_ & B). rewrite (proj2 (get_sk_iff _ app (SSk fl h rs) r B)); [reflexivity|]. exists fl, h, rs, t. auto.
    + destruct P as (w0 & a & -> & M & S & (a0 & -> & Ca & Pt)). repeat rewrite <- app_assoc in *. rewrite (proj2 (de_ecdsa_iff _ name _ c pt (a ++ r) B)); [|split; [exact N|exists a0; auto]].
      apply bytes_app in B as (_ & B). apply bytes_app in B as (_ & B). rewrite (proj2 (get_ec_iff c _ (SEc d) r B)); [reflexivity|]. exists d, a. auto.
    + destruct P as (w0 & t & -> & T & (a0 & -> & Ca & Pt)). repeat rewrite <- app_assoc in *. rewrite (proj2 (de_ecdsa_iff _ name _ c pt (t ++ r) B)); [|split; [exact N|exists a0; auto]].
      apply bytes_app in B as (_ & B). apply bytes_app in B as (_ & B). rewrite (proj2 (get_sk_iff _ app (SSk fl h rs) r B)); [reflexivity|]. exists fl, h, rs, t. auto.
    + destruct P as (w0 & x1 & x2 & x3 & x4 & -> & X1 & X2 & X3 & X4 & R & L & (a1 & a2 & -> & M1 & M2)). repeat rewrite <- app_assoc in *.
      rewrite (proj2 (get_mpint_iff _ n (a2 ++ x1 ++ x2 ++ x3 ++ x4 ++ r) B)) by (exists a1; auto). pose proof (proj1 (mpint_bytes _ _ _ B M1)) as Bn. past B.
      rewrite (proj2 (get_mpint_iff _ e (x1 ++ x2 ++ x3 ++ x4 ++ r) B)) by (exists a2; auto). past B.
      rewrite (proj2 (get_rsa_iff e n _ (SRsa d iqmp p q) r B Bn)); [reflexivity|]. exists d, iqmp, p, q, x1, x2, x3, x4. splits; auto.
Qed.

Definition pub_bytes (p : kpub) : Prop := match p with PRsa _ n => is_bytes n | _ => True end.
Lemma certified_iff : forall p c b s r, is_bytes b -> pub_bytes p -> (deserialize_certified scalar_ok rsa_ok p b = Some (s, r) <->
  exists w, b = w ++ r /\ part point_ok scalar_ok rsa_ok (mkKey p (Some c)) s w).
Proof.
  intros p c b s r B Bn. split.
  - destruct p as [pk|pk app|cv pt|cv pt app|e n]; cbn [deserialize_certified pub_bytes] in *.
    + destruct (get_ed b) as [[[pk' s'] b']|] eqn:E; [|discriminate]. apply get_ed_iff in E as (sk & -> & L1 & L2 & ->); [|assumption]. destruct (beqb pk pk') eqn:Q; [|discriminate]. apply beqb_eq in Q. subst pk'. intros H. assert (s = SEd sk /\ r = b') as (-> & ->) by (splits; congruence).
      exists (enc_string pk ++ enc_string sk). rewrite <- app_assoc. split; [reflexivity|]. cbn [part key_pub]. auto.
    + destruct (de_ed25519 b) as [[pk' b1]|] eqn:E1; [|discriminate]. apply ed_iff in E1 as (-> & L1); [|assumption]. apply bytes_app in B as (_ & B).
      destruct (get_sk b1) as [[[app' s'] b']|] eqn:E; [|discriminate]. apply get_sk_iff in E as (fl & h & rs & w & -> & T & ->); [|assumption]. destruct (beqb app app' && beqb pk pk') eqn:Q; [|discriminate]. apply andb_true_iff in Q as (Q1 & Q2). apply beqb_eq in Q1, Q2. subst app' pk'.
      intros H. assert (s = SSk fl h rs /\ r = b') as (-> & ->) by (splits; congruence). exists (enc_string pk ++ w). rewrite <- app_assoc. split; [reflexivity|]. cbn [part key_pub]. exists w. auto.
    + intros H. apply get_ec_iff in H as (d & a' & -> & M & S & ->); [|assumption]. exists a'. split; [reflexivity|]. cbn [part key_pub key_cert]. exists [], a'. auto.
    + destruct (get_sk b) as [[[app' s'] b']|] eqn:E; [|discriminate]. apply get_sk_iff in E as (fl & h & rs & w & -> & T & ->); [|assumption]. destruct (beqb app app') eqn:Q; [|discriminate]. apply beqb_eq in Q. subst app'.
      intros H. assert (s = SSk fl h rs /\ r = b') as (-> & ->) by (splits; congruence). exists w. split; [reflexivity|]. cbn [part key_pub key_cert]. exists [], w. auto.
    + intros H. apply get_rsa_iff in H as (d & iqmp & p0 & q & x1 & x2 & x3 & x4 & -> & X1 & X2 & X3 & X4 & R & L & ->); [|assumption|assumption]. exists (x1 ++ x2 ++ x3 ++ x4). rewrite <- !app_assoc. split; [reflexivity|].
      cbn [part key_pub key_cert]. exists [], x1, x2, x3, x4. splits; auto.
  - intros (w & -> & P). unfold part in P. destruct p as [pk|pk app|cv pt|cv pt app|e n], s as [sk|fl h rs|d|d iqmp p q]; cbn [key_pub key_cert pub_bytes] in *; try contradiction; cbn [deserialize_certified].
    + destruct P as (-> & L1 & L2). rewrite (proj2 (get_ed_iff _ pk (SEd sk) r B)); [rewrite beqb_refl; reflexivity|]. exists sk. rewrite <- app_assoc. auto.
    + destruct P as (t & -> & L1 & T). rewrite <- app_assoc in *. rewrite (proj2 (ed_iff _ pk (t ++ r) B)) by auto. apply bytes_app in B as (_ & B). rewrite (proj2 (get_sk_iff _ app (SSk fl h rs) r B)); [rewrite !beqb_refl; reflexivity|]. exists fl, h, rs, t. auto.
    + destruct P as (w0 & a & -> & M & S & ->). cbn [app] in *. rewrite (proj2 (get_ec_iff cv _ (SEc d) r B)); [reflexivity|]. exists d, a. auto.
    + destruct P as (w0 & t & -> & T & ->). change ([] ++ t) with t in *. rewrite (proj2 (get_sk_iff _ app (SSk fl h rs) r B)); [rewrite beqb_refl; reflexivity|]. exists fl, h, rs, t. auto.
    + destruct P as (w0 & x1 & x2 & x3 & x4 & -> & X1 & X2 & X3 & X4 & R & L & ->). cbn [app] in *. repeat rewrite <- app_assoc in *.
      rewrite (proj2 (get_rsa_iff e n _ (SRsa d iqmp p q) r B Bn)); [reflexivity|]. exists d, iqmp, p, q, x1, x2, x3, x4. splits; auto.
Qed.

Lemma family_names : forall name p, type_from_name name = Some (family_of p, true) <-> exists p', same_family p p' /\ In name (cert_names p').
Proof.
  intros name p. split.
  - intros H. apply type_name_pub in H as (i & Hi & -> & E).
    assert (G : forallb (fun i => match i_type i with (f, true) => existsb (fun p' => family_eqb f (family_of p') && existsb (beqb (i_name i)) (cert_names p'))
       [PEd []; PEdSk [] []; PEc P256 []; PEc P384 []; PEc P521 []; PEcSk P256 [] []; PRsa [] []] | _ => true end) keyimpls = true) by (vm_compute; reflexivity).
    rewrite forallb_forall in G. specialize (G i Hi). rewrite E in G. apply existsb_exists in G as (p' & _ & G). apply andb_true_iff in G as (G1 & G2). apply existsb_exists in G2 as (n & Hn & Q). apply beqb_eq in Q. exists p'. split; [|congruence].
    destruct p, p'; cbn [family_of family_eqb same_family] in *; try discriminate; exact I.
  - intros (p' & S & I'). assert (family_of p' = family_of p) as <- by (destruct p, p'; cbn in *; try contradiction; reflexivity). apply (proj2 (names_iff name p' true)) in I' as (I' & _). assumption.
Qed.

Lemma cert_pub_bytes : forall b p c, is_bytes b -> is_certificate point_ok ver b p c -> pub_bytes p.
Proof.
  intros b p c B (signed & sig & -> & _ & (wn & name & nonce & w & wid & wp & rsv & cab & -> & _ & _ & _ & M & _) & _). destruct p as [| | | |e n]; try exact I. cbn [pub_bytes material] in *. destruct M as (a & a' & -> & M1 & M2 & _).
  repeat rewrite <- app_assoc in B. apply bytes_app in B as (_ & B). apply bytes_app in B as (_ & B). past B. apply mpint_bytes with (v := n) in B as (B & _); assumption.
Qed.
Lemma private_iff : forall b k s r, is_bytes b -> (private_deserialize point_ok ver scalar_ok rsa_ok b = Some (k, s, r) <-> exists w, b = w ++ r /\ private_part point_ok ver scalar_ok rsa_ok k s w).
Proof.
  intros b k s r B. unfold private_deserialize, private_part. split.
  - destruct (get_cstr b) as [[name b1]|] eqn:E1; [|discriminate]. apply get_cstr_iff in E1 as (wn & Cn & ->); [|assumption]. apply bytes_app in B as (_ & B).
    destruct (type_from_name name) as [[f [|]]|] eqn:T; [| |discriminate].
    + destruct (get_str b1) as [[kb b2]|] eqn:E2; [|discriminate]. apply get_str_iff in E2 as (-> & Lk); [|assumption]. pose proof B as B2. apply bytes_app in B2 as (Bk & B2). unfold enc_string in Bk. apply bytes_app in Bk as (_ & Bk).
      destruct (from_blob point_ok ver kb) as [k'|] eqn:F; [|discriminate]. apply from_blob_iff in F as (_ & F); [|assumption].
      destruct (ktype_eqb (key_type k') (f, true)) eqn:K; [|discriminate]. cbn [negb]. apply ktype_eqb_iff in K. destruct k' as [p [c|]]; unfold key_type in K; cbn [key_pub key_cert] in *; [|discriminate K]. assert (f = family_of p) by congruence. subst f.
      destruct (deserialize_certified scalar_ok rsa_ok p b2) as [[s' b3]|] eqn:D; [|discriminate]. intros H. assert (k = mkKey p (Some c) /\ s' = s /\ b3 = r) as (-> & -> & ->) by (splits; congruence).
      apply (proj1 (certified_iff p c b2 s r B2 (cert_pub_bytes _ _ _ Bk F))) in D as (v & -> & P). exists (wn ++ enc_string kb ++ v). rewrite <- !app_assoc. split; [reflexivity|]. exists wn, name, v. cbn [key_cert key_pub]. splits; auto; [now apply family_names|]. exists kb. auto.
    + destruct (deserialize_plain point_ok scalar_ok rsa_ok f name b1) as [[[p s'] b2]|] eqn:D; [|discriminate]. intros H. assert (k = mkKey p None /\ s' = s /\ b2 = r) as (-> & -> & ->) by (splits; congruence).
      apply plain_iff in D as (-> & N & v & -> & P); [|assumption]. exists (wn ++ v). rewrite <- app_assoc. split; [reflexivity|]. exists wn, name, v. cbn [key_cert key_pub]. splits; auto. now apply (proj1 (names_iff name p false)).
  - intros (w & -> & wn & name & v & Cn & P & H). destruct k as [p [c|]]; cbn [key_pub key_cert] in *.
    + destruct H as (Fam & blob & -> & Lb & Ic). repeat rewrite <- app_assoc in *. rewrite (proj2 (get_cstr_iff _ name (enc_string blob ++ v ++ r) B)) by (exists wn; auto). rewrite (proj2 (family_names name p) Fam). apply bytes_app in B as (_ & B).
      rewrite (proj2 (get_str_iff _ blob (v ++ r) B)) by auto. apply bytes_app in B as (Bk & B). unfold enc_string in Bk. apply bytes_app in Bk as (_ & Bk).
      rewrite (proj2 (from_blob_iff point_ok ver blob (mkKey p (Some c)) Bk)); [|cbn [key_cert key_pub]; split; [lia|assumption]]. unfold key_type. cbn [key_pub key_cert]. rewrite (proj2 (ktype_eqb_iff (family_of p, true) (family_of p, true)) eq_refl). cbn [negb].
      rewrite (proj2 (certified_iff p c (v ++ r) s r B (cert_pub_bytes _ _ _ Bk Ic))); [reflexivity|]. exists v. auto.
    + destruct H as (In_ & ->). repeat rewrite <- app_assoc in *. rewrite (proj2 (get_cstr_iff _ name (v ++ r) B)) by (exists wn; auto). apply bytes_app in B as (_ & B). apply (proj2 (names_iff name p false)) in In_ as (T & N). rewrite T.
      rewrite (proj2 (plain_iff (family_of p) name (v ++ r) p s r B)); [reflexivity|]. splits; auto. exists v. auto.
Qed.

Lemma pub_eqb_iff : forall a b, pub_eqb a b = true <-> a = b.
Proof.
  intros [x|x p|c x|c x p|e n] [y|y q|d y|d y q|e' n']; cbn [pub_eqb]; try (split; discriminate); rewrite ?andb_true_iff, ?beqb_eq, ?curve_eqb_iff; (split; [intros; intuition congruence|intros H; assert (H' : False -> False) by auto; inversion H; subst; auto]).
Qed.
Lemma key_equal_iff : forall pb k k0 s w, is_bytes pb -> from_blob point_ok ver pb = Some k0 -> is_bytes w -> private_part point_ok ver scalar_ok rsa_ok k s w -> (key_equal k0 k = true <-> k0 = k).
Proof.
  intros pb k k0 s w Bp F Bw (wn & name & v & Cn & P & H). unfold key_equal. rewrite !andb_true_iff, ktype_eqb_iff, pub_eqb_iff. split; [|intros ->; splits; auto; destruct (key_cert k); [apply beqb_refl|reflexivity]].
  intros ((T & Cc) & E). destruct k0 as [p0 [c0|]], k as [p [c|]]; unfold key_type in T; cbn [key_pub key_cert] in *; try discriminate T; [|congruence].
  apply beqb_eq in Cc. destruct H as (_ & blob & -> & Lb & Ic). apply bytes_app in Bw as (_ & Bw). apply bytes_app in Bw as (Bk & _). unfold enc_string in Bk. apply bytes_app in Bk as (_ & Bk).
  pose proof F as F0. apply from_blob_iff in F0 as (_ & F0); [|assumption]. cbn [key_cert key_pub] in F0. assert (Q : from_blob point_ok ver blob = Some (mkKey p (Some c))) by (apply from_blob_iff; [assumption|]; cbn [key_cert key_pub]; split; [lia|assumption]).
  assert (kc_blob c0 = pb) by (destruct F0 as (x & y & _ & _ & _ & _ & _ & G); exact G). assert (kc_blob c = blob) by (destruct Ic as (x & y & _ & _ & _ & _ & _ & G); exact G). congruence.
Qed.
End Priv.
