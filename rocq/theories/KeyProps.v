(** C77: public keys and certificates as bytes and as text. *)
From Coq Require Import String.
From Verif Require Import Base Text SshbufModel SshbufSpec SshbufProof WireSpec WireProof AddrModel MiscNumModel AuthOptModel Dec CertModel CertSpec CertProof AuthOptProof SigProof2 SigProof3 Base64Model Base64Spec Base64Proof Base64Props KeyModel KeySpec KeyProof KeyProof2 KeyProof3.
Local Open Scope Z_scope.

Lemma plain_proper : forall point_ok p b, is_bytes b -> is_plain point_ok b p -> proper point_ok p /\ (zlen b <= 100000000 -> short_app p).
Proof.
  intros point_ok p b Hb (wn & name & w & -> & Cn & In_ & M). apply bytes_app in Hb as (_ & Hb). rewrite zlen_app. pose proof (zlen_nonneg _ wn).
  assert (EB : forall x, is_bytes (enc_string x) -> is_bytes x) by (intros x Hx; unfold enc_string in Hx; now apply bytes_app in Hx).
  assert (CB : forall a v, ctext a v -> is_bytes a -> is_bytes v /\ ~ In 0 v /\ zlen v <= zlen a).
  { intros a v (N & [(-> & _)|(-> & _)]) Ba; apply EB in Ba; rewrite zlen_enc_string; [splits; auto; lia|]. apply bytes_app in Ba as (Ba & _). splits; auto. rewrite zlen_app. pose proof (zlen_nonneg _ [0]). lia. }
  destruct p as [pk|pk app|c pt|c pt app|e n]; cbn [material proper short_app] in *.
  - destruct M as (-> & L). auto.
  - destruct M as (a & -> & L & Ca). apply bytes_app in Hb as (B1 & B2). apply CB in Ca as (C1 & C2 & C3); [|assumption]. splits; auto. rewrite zlen_app. pose proof (zlen_nonneg _ (enc_string pk)). lia.
  - destruct M as (a & -> & Ca & P). apply bytes_app in Hb as (B1 & B2). auto.
  - destruct M as (a & a' & -> & Ca & P & Ca'). apply bytes_app in Hb as (B1 & B2). apply bytes_app in B2 as (B2 & B3). apply CB in Ca' as (C1 & C2 & C3); [|assumption].
    destruct c; try (destruct In_; fail). splits; auto. rewrite !zlen_app. pose proof (zlen_nonneg _ (enc_string pt)). pose proof (zlen_nonneg _ a). lia.
  - destruct M as (a & a' & -> & Ma & Ma' & L). pose proof Hb as Hb1. apply bytes_app in Hb1 as (_ & B2). pose proof (proj1 (mpint_bytes _ _ _ Hb Ma)) as Be. rewrite <- (app_nil_r a') in B2. pose proof (proj1 (mpint_bytes _ _ _ B2 Ma')) as Bn.
    destruct Ma as (M1 & z & _ & _ & _ & L1 & _). destruct Ma' as (M2 & z' & _ & _ & _ & L2 & _). splits; auto.
Qed.

Lemma squeeze_le : forall t, zlen (squeeze t) <= zlen t.
Proof. induction t as [|c t IH]; [reflexivity|]. unfold squeeze in *. cbn [filter]. destruct (negb (white c)); rewrite !zlen_cons; lia. Qed.

Section Key.
Variable point_ok : curve -> list Z -> bool.
Variable ver : kpub -> list Z -> list Z -> bool.

(** A blob is accepted as a key exactly when it is of the published form; as a
    certificate, only when in addition the authority named in it verifies the
    signature over all the bytes before the signature. *)
Theorem C77_accepts : forall b k, is_bytes b -> (from_blob point_ok ver b = Some k <->
  zlen b <= 134217728 /\ match key_cert k with None => is_plain point_ok b (key_pub k) | Some c => is_certificate point_ok ver b (key_pub k) c end).
Proof. exact (from_blob_iff point_ok ver). Qed.

(** The signed bytes, with whatever follows, determine the key, every field, and the
    authority. *)
Theorem C77_signed : forall signed x signed' x' p t ca p' t' ca', is_bytes (signed ++ x) -> signed ++ x = signed' ++ x' ->
  says point_ok signed p t ca -> says point_ok signed' p' t' ca' -> p = p' /\ t = t' /\ ca = ca'.
Proof. intros signed x signed' x' p t ca p' t' ca' Hb E S S'. exact (says_unique point_ok ver signed x x' signed' p t ca p' t' ca' Hb E S S'). Qed.

(** An accepted certificate carries what its authority issued: if every message that
    verifies under the authority's key was made for a pair of key and fields
    [issued], the accepted key and fields are such a pair. *)
Theorem C77_issued : forall (issued : kpub -> tbs -> Prop) b k c, is_bytes b -> from_blob point_ok ver b = Some k -> key_cert k = Some c ->
  (forall sig m, ver (kc_ca c) sig m = true -> exists p t ca, issued p t /\ says point_ok m p t ca) ->
  issued (key_pub k) (kc_body c).
Proof.
  intros issued b k c Hb H K A. apply from_blob_iff in H as (_ & H); [|assumption]. rewrite K in H. destruct H as (signed & sig & -> & _ & S & V & _).
  apply A in V as (p & t & ca & I & S'). destruct (C77_signed signed (enc_string sig) signed (enc_string sig) _ _ _ _ _ _ Hb eq_refl S S') as (-> & -> & _). assumption.
Qed.

(** Certifying hands the signer bytes that say just what was asked for. *)
Theorem C77_certify : forall signer nonce p t st0 ca alg blob st, proper point_ok p -> proper point_ok ca -> proper_fields t -> is_bytes nonce ->
  certify signer nonce p t st0 ca alg = Some (blob, st) ->
  exists m a sig, signer m a = Some sig /\ says point_ok m p t ca /\ blob = m ++ enc_string sig.
Proof.
  intros signer nonce p t st0 ca alg blob st Wp Wca Wt Bn H. destruct (certify_says point_ok _ _ _ _ _ _ _ _ _ Wp Wca Wt Bn H) as (m & a & sig & S & Y & _ & E & _). exists m, a, sig. auto.
Qed.
(** What was certified is accepted, with the same key, fields and authority. *)
Theorem C77_certify_round_trip : forall signer nonce p t st0 ca alg blob st, proper point_ok p -> proper point_ok ca -> proper_fields t -> is_bytes nonce ->
  (forall m a sig, signer m a = Some sig -> is_bytes sig /\ ver ca sig m = true) ->
  certify signer nonce p t st0 ca alg = Some (blob, st) ->
  from_blob point_ok ver blob = Some (mkKey p (Some (mkKC t ca st blob))).
Proof.
  intros signer nonce p t st0 ca alg blob st Wp Wca Wt Bn HS H. destruct (certify_says point_ok _ _ _ _ _ _ _ _ _ Wp Wca Wt Bn H) as (m & a & sig & S & Y & Bm & E & L & G).
  apply HS in S as (Bs & V). assert (Bb : is_bytes blob) by (rewrite E; apply is_bytes_app; split; [assumption|now apply enc_bytes]).
  assert (Ls : zlen sig <= 134217724). { rewrite E, zlen_app, zlen_enc_string in L. pose proof (zlen_nonneg _ m). lia. }
  apply from_blob_iff; [assumption|]. split; [assumption|]. cbn [key_cert key_pub]. exists m, sig. cbn [kc_body kc_ca kc_sigtype kc_blob]. splits; auto. now apply sigtype_iff.
Qed.

(** A plain key survives being written and read; a certificate is written as it was
    read. *)
Theorem C77_round_trip : forall p, proper point_ok p ->
  (forall b, to_blob false (mkKey p None) = Some b -> from_blob point_ok ver b = Some (mkKey p None)) /\
  (short_app p -> exists b, to_blob false (mkKey p None) = Some b).
Proof.
  intros p W. split.
  - intros b H. apply to_blob_plain with (point_ok := point_ok) in H as (P & B & L); [|assumption|now right]. apply from_blob_iff; [assumption|]. cbn [key_cert key_pub]. auto.
  - intros S. apply to_blob_total with (point_ok := point_ok); auto.
Qed.
Theorem C77_rewrite : forall b k, is_bytes b -> zlen b <= 100000000 -> from_blob point_ok ver b = Some k ->
  (forall c, key_cert k = Some c -> to_blob false k = Some b) /\
  (exists b', to_blob true k = Some b' /\ from_blob point_ok ver b' = Some (mkKey (key_pub k) None)).
Proof.
  intros b [p c] Hb L H. apply from_blob_iff in H as (_ & H); [|assumption]. cbn [key_cert key_pub] in *. split.
  - intros c' ->. destruct H as (signed & sig & E & _ & S & _ & _ & B). unfold to_blob. cbn [key_cert]. rewrite B. destruct (zlen b =? 0) eqn:Z0.
    { apply zlen_zero in Z0. rewrite Z0 in E. symmetry in E. apply app_eq_nil in E as (_ & E). discriminate E. }
    apply put_iff. split; [reflexivity|lia].
  - assert (W : proper point_ok p /\ short_app p).
    { destruct c as [c|].
      - destruct H as (signed & sig & E & _ & S & _). apply (proj1 (says_split _ _ _ _ _)) in S as (wn & name & nonce & w & wid & wp & rsv & cab & Es & Cn & In_ & _ & M & _).
        assert (Bw : is_bytes w). { rewrite E, Es in Hb. apply bytes_app in Hb as (Hb & _). apply bytes_app in Hb as (_ & Hb). apply bytes_app in Hb as (_ & Hb). now apply bytes_app in Hb. }
        assert (Lw : zlen w <= zlen b). { rewrite E, Es, !zlen_app. pose proof (zlen_nonneg _ wn). pose proof (zlen_nonneg _ (enc_string nonce)). pose proof (zlen_nonneg _ (rest_of (kc_body c) wid wp rsv cab)). pose proof (zlen_nonneg _ (enc_string sig)). lia. }
        assert (NE : exists n, In n (plain_names p)). { destruct p as [pk|pk app|cv pt|cv pt app|e n]; try destruct cv; try (destruct In_; fail); cbn; eauto. }
        destruct NE as (n & NE). destruct (name_text (family_of p, false) (nid_of p)) as (N1 & N2 & N3 & _).
        assert (IP : is_plain point_ok (enc_string (name_of (family_of p, false) (nid_of p)) ++ w) p).
        { exists (enc_string (name_of (family_of p, false) (nid_of p))), (name_of (family_of p, false) (nid_of p)), w. splits; auto; [apply ctext_enc; [assumption|lia]|]. apply (name_first p false). destruct p as [pk|pk app|cv pt|cv pt app|e m]; try exact I. destruct cv; [reflexivity|destruct NE|destruct NE]. }
        assert (B2 : is_bytes (enc_string (name_of (family_of p, false) (nid_of p)) ++ w)) by (apply is_bytes_app; split; [now apply enc_bytes|assumption]).
        destruct (plain_proper point_ok p _ B2 IP) as (W & SA). split; [assumption|].
        destruct p as [pk|pk app|cv pt|cv pt app|e m]; try exact I; cbn [short_app material] in *.
        + destruct M as (a & -> & _ & Ca). destruct Ca as (_ & [(-> & _)|(-> & _)]); rewrite !zlen_app, !zlen_enc_string in Lw; pose proof (zlen_nonneg _ pk); try (rewrite zlen_app in Lw; pose proof (zlen_nonneg _ [0])); lia.
        + destruct M as (a & a' & -> & _ & _ & Ca). pose proof (zlen_nonneg _ a). pose proof (zlen_nonneg _ pt). destruct Ca as (_ & [(-> & _)|(-> & _)]); rewrite !zlen_app, !zlen_enc_string in Lw; try (rewrite zlen_app in Lw; pose proof (zlen_nonneg _ [0])); lia.
      - destruct (plain_proper point_ok p b Hb H) as (W & SA). auto. }
    destruct W as (W & SA). destruct (to_blob_total point_ok p true c W SA ltac:(now left)) as (b' & TB). exists b'. split; [assumption|].
    apply to_blob_plain with (point_ok := point_ok) in TB as (P & B & L'); [|assumption|now left]. apply from_blob_iff; [assumption|]. cbn [key_cert key_pub]. auto.
Qed.

(** A line is read as a key exactly when it is a name of the key's kind, blanks, the
    base64 of an accepted blob, and maybe blanks and a comment. *)
Theorem C77_read : forall junk want line k comment, zlen line < 2147483648 -> (sshkey_read point_ok ver junk want line = Some (k, comment) <->
  exists name s1 b64 s2 blob, line = name ++ s1 ++ b64 ++ s2 ++ comment /\ solid name /\ blank s1 /\ solid b64 /\ b64 <> [] /\ (blank s2 \/ s2 = [] /\ comment = []) /\ no_blank_front comment /\
    is_bytes blob /\ squeeze b64 = base64 blob /\ from_blob point_ok ver blob = Some k /\
    In name (match key_cert k with Some _ => cert_names (key_pub k) | None => plain_names (key_pub k) end) /\ (forall t, want = Some t -> t = key_type k)).
Proof.
  intros junk want line k comment LL. unfold sshkey_read. split.
  - destruct (word line) as [w r] eqn:W1. apply word_spec in W1 as (-> & Sw & Hr). intros H. destruct (is_nil r) eqn:N1; [discriminate|]. destruct (peek_type_nid w) as [[ty nid]|] eqn:PK; [|discriminate].
    cbv zeta in H. destruct (skip_spec r) as (s1 & E1 & F1 & NB1). set (r1 := skip_blank r) in *. destruct (is_nil r1) eqn:N2; [discriminate|].
    destruct (match want with Some t => negb (ktype_eqb t ty) | None => false end) eqn:WT; [discriminate|]. destruct (word r1) as [b64 r2] eqn:W2. apply word_spec in W2 as (E2 & S2 & Hr2).
    assert (L64 : zlen b64 < 2147483648). { rewrite E1, E2, !zlen_app in LL. pose proof (zlen_nonneg _ w). pose proof (zlen_nonneg _ s1). pose proof (zlen_nonneg _ r2). lia. }
    destruct (b64tod_spec [] b64 junk L64 ltac:(unfold zlen; cbn; lia)) as [(d & Bd & Ed & T)|(T & _)]; rewrite T in H; [|discriminate].
    destruct (AuthOptModel.put d (Some [])) as [d'|] eqn:PD; [|discriminate]. apply put_iff in PD as (-> & _). cbn [of_put app] in H. destruct (from_blob point_ok ver d) as [k'|] eqn:FB; [|discriminate].
    destruct (ktype_eqb (key_type k') ty) eqn:KT; [|discriminate]. cbn [negb] in H. apply ktype_eqb_iff in KT.
    destruct (is_ecdsa ty && negb (match nid, nid_of (key_pub k') with Some a, Some b => curve_eqb a b | _, _ => false end)) eqn:EC; [discriminate|].
    assert (k' = k) by congruence. assert (EK : skip_blank r2 = comment) by congruence. clear H. subst k'. destruct (skip_spec r2) as (s2 & E3 & F2 & NB2). rewrite EK in *.
    exists w, s1, b64, s2, d. splits; auto.
    + rewrite E1, E2, E3. reflexivity.
    + split; [|assumption]. intros ->. cbn [app] in E1. rewrite <- E1 in NB1. destruct Hr as [-> | (c & r' & -> & Hc)]; [discriminate|]. cbn in NB1. lia.
    + intros ->. cbn [app] in E2. rewrite E2 in NB1, N2. destruct Hr2 as [-> | (c & r' & -> & Hc)]; [discriminate|]. cbn in NB1. lia.
    + destruct s2 as [|x s2]; [|left; split; [discriminate|assumption]]. right. split; [reflexivity|]. cbn [app] in E3. rewrite <- E3 in NB2. destruct Hr2 as [-> | (c & r' & -> & Hc)]; [auto|]. cbn in NB2. lia.
    + assert (X : In w (if snd (key_type k) then cert_names (key_pub k) else plain_names (key_pub k))).
      { apply peek_iff. exists nid. replace (family_of (key_pub k), snd (key_type k)) with (key_type k) by reflexivity. rewrite KT. split; [assumption|]. intros IE. rewrite IE in EC. cbn [andb] in EC.
        destruct nid as [a|]; [|discriminate]. destruct (nid_of (key_pub k)) as [b|]; [|discriminate]. destruct (curve_eqb a b) eqn:CE; [|discriminate]. apply curve_eqb_iff in CE. subst b. split; [discriminate|reflexivity]. }
      unfold key_type in X. cbn [snd] in X. destruct (key_cert k); exact X.
    + intros t ->. destruct (ktype_eqb t ty) eqn:KE; [|discriminate]. apply ktype_eqb_iff in KE. congruence.
  - intros (name & s1 & b64 & s2 & blob & -> & Sn & (B1 & F1) & S64 & N64 & B2 & NB & Bb & Sq & FB & In_ & Wn).
    rewrite word_app; [|assumption|]. 2:{ right. destruct s1 as [|c s1]; [congruence|]. inversion F1; subst. cbn [app]. eauto. }
    replace (is_nil (s1 ++ b64 ++ s2 ++ comment)) with false by (destruct s1; [congruence|reflexivity]).
    assert (X : In name (if snd (key_type k) then cert_names (key_pub k) else plain_names (key_pub k))) by (unfold key_type; cbn [snd]; destruct (key_cert k); exact In_).
    apply peek_iff in X as (nid & PK & EC). change (family_of (key_pub k), snd (key_type k)) with (key_type k) in *. rewrite PK. cbv zeta.
    assert (NB64 : no_blank_front (b64 ++ s2 ++ comment)). { destruct b64 as [|c b64]; [congruence|]. destruct S64 as (A1 & A2). cbn. split; intros ->; [apply A1|apply A2]; now left. }
    rewrite skip_app by assumption. replace (is_nil (b64 ++ s2 ++ comment)) with false by (destruct b64; [congruence|reflexivity]).
    replace (match want with Some t => negb (ktype_eqb t (key_type k)) | None => false end) with false; [|destruct want as [t|]; [|reflexivity]; rewrite (Wn t eq_refl); now rewrite (proj2 (ktype_eqb_iff _ _) eq_refl)].
    rewrite word_app; [|assumption|]. 2:{ destruct B2 as [(B2 & F2)|(-> & ->)]; [|now left]. right. destruct s2 as [|c s2]; [congruence|]. inversion F2; subst. cbn [app]. eauto. }
    assert (L64 : zlen b64 < 2147483648). { rewrite !zlen_app in LL. pose proof (zlen_nonneg _ name). pose proof (zlen_nonneg _ s1). pose proof (zlen_nonneg _ s2). pose proof (zlen_nonneg _ comment). lia. }
    pose proof (proj1 (proj1 (from_blob_iff point_ok ver blob k Bb) FB)) as LB.
    destruct (b64tod_spec [] b64 junk L64 ltac:(unfold zlen; cbn; lia)) as [(d & Bd & Ed & T)|(T & D)]; [|exfalso; now apply (D blob)].
    assert (Ld : d = blob). { apply C54_injective; auto; [|lia|congruence]. pose proof (zlen_base64 d Bd) as ZB. rewrite <- Ed in ZB. assert (zlen (squeeze b64) <= zlen b64) by apply squeeze_le. pose proof (zlen_nonneg _ d). Z.to_euclidean_division_equations; lia. }
    subst d. assert (PD : AuthOptModel.put blob (Some []) = Some blob) by (apply put_iff; split; [reflexivity|lia]). rewrite T, PD. cbn [of_put]. rewrite FB. rewrite (proj2 (ktype_eqb_iff _ _) eq_refl). cbn [negb].
    replace (skip_blank (s2 ++ comment)) with comment; [|symmetry; destruct B2 as [(B2 & F2)|(-> & ->)]; [now apply skip_app|reflexivity]].
    destruct (is_ecdsa (key_type k)) eqn:IE; [|reflexivity]. destruct (EC eq_refl) as (NN & ->). destruct (nid_of (key_pub k)) as [a|]; [|congruence]. now rewrite (proj2 (curve_eqb_iff a a) eq_refl).
Qed.

(** The text of a key reads back as the key, whatever comment follows. *)
Theorem C77_text : forall k line b junk comment, to_blob false k = Some b -> is_bytes b -> zlen b < 50000000 -> from_blob point_ok ver b = Some k -> format_text k = Some line ->
  zlen comment < 1000000000 -> (comment = [] \/ exists c, comment = 32 :: c /\ no_blank_front c) ->
  exists c, skip_blank comment = c /\ sshkey_read point_ok ver junk None (line ++ comment) = Some (k, c).
Proof.
  intros k line b junk comment TB Bb Lb FB FT Lc Hc. exists (skip_blank comment). split; [reflexivity|]. unfold format_text in FT. rewrite TB in FT.
  destruct (C54_round_trip b false Bb Lb) as (t & DT & -> & _). rewrite DT in FT. apply put_iff in FT as (-> & LL). cbn [app] in LL |- *.
  destruct (name_text (key_type k) (nid_of (key_pub k))) as (N1 & N2 & N3 & N4). change (name_of (key_type k) (nid_of (key_pub k))) with (ssh_name k) in *.
  assert (NB : forall c, In c (base64 b) -> c <> 32 /\ c <> 9 /\ white c = false).
  { intros c Hi. apply C54_stray in Hi; [|assumption]. assert (G : forallb (fun c => negb (c =? 32) && negb (c =? 9) && negb (white c)) (61 :: alphabet) = true) by reflexivity. rewrite forallb_forall in G.
    specialize (G c ltac:(destruct Hi as [Hi | ->]; [now right|now left])). splits; try (intros ->; discriminate). destruct (white c); [|reflexivity]. rewrite andb_false_r in G. discriminate. }
  assert (NE : base64 b <> []). { intros E. assert (b = []). { apply C54_injective; auto; first [exact E | apply Forall_nil | lia | (unfold zlen; cbn; lia)]. } subst b. discriminate FB. }
  apply C77_read; [rewrite zlen_app; lia|].
  exists (ssh_name k), [32], (base64 b), (match comment with [] => [] | _ => [32] end), b. splits; auto.
  - rewrite <- app_assoc. f_equal. cbn [app]. f_equal. f_equal. destruct Hc as [->|(c & -> & Nc)]; [reflexivity|]. cbn [app skip_blank]. change ((32 =? 32) || (32 =? 9)) with true. cbv iota. f_equal. symmetry. now apply (skip_app [] c).
  - split; [discriminate|]. repeat constructor.
  - split; intros K; apply NB in K; lia.
  - destruct Hc as [->|(c & -> & Nc)]; [now right|]. left. split; [discriminate|]. repeat constructor.
  - destruct (skip_spec comment) as (s & _ & _ & X). exact X.
  - unfold squeeze. clear - NB. induction (base64 b) as [|c l IH]; [reflexivity|]. cbn [filter]. destruct (NB c ltac:(now left)) as (_ & _ & ->). cbn [negb]. f_equal. apply IH. intros d Hd. apply NB. now right.
  - apply from_blob_iff in FB as (_ & FB); [|assumption]. unfold ssh_name, key_type in *. destruct (key_cert k) as [c|].
    + apply (name_first (key_pub k) true). destruct FB as (signed & sig & _ & _ & S & _). apply (proj1 (says_split _ _ _ _ _)) in S as (wn & name & nonce & w & wid & wp & rsv & cab & Es & Cn & In_ & _). destruct (key_pub k) as [pk|pk app|cv pt|cv pt app|e n]; try exact I. destruct cv; [reflexivity|destruct In_|destruct In_].
    + apply (name_first (key_pub k) false). destruct FB as (wn & name & w & _ & _ & In_ & _). destruct (key_pub k) as [pk|pk app|cv pt|cv pt app|e n]; try exact I. destruct cv; [reflexivity|destruct In_|destruct In_].
  - discriminate.
Qed.
End Key.
Print Assumptions C77_accepts.
Print Assumptions C77_signed.
Print Assumptions C77_issued.
Print Assumptions C77_certify.
Print Assumptions C77_certify_round_trip.
Print Assumptions C77_round_trip.
Print Assumptions C77_rewrite.
Print Assumptions C77_read.
Print Assumptions C77_text.

(** The byte form of a key is not unique, so that comparing blobs is not comparing
    keys: an RSA key is also accepted under the name of a signature algorithm, with a
    zero byte after the name, and with zeros in front of its numbers. *)
Definition ex_rsa : kpub := PRsa [1; 0; 1] (repeat 255 128).
Definition rsa_blob (name : list Z) (pad : nat) : list Z :=
  enc_string name ++ enc_string (repeat 0 pad ++ [1; 0; 1]) ++ enc_string (0 :: repeat 255 128).
Theorem C77_unique_refuted : exists b1 b2 b3 b4 k, NoDup [b1; b2; b3; b4] /\ Forall is_bytes [b1; b2; b3; b4] /\
  forall point_ok ver, Forall (fun b => from_blob point_ok ver b = Some k) [b1; b2; b3; b4].
Proof.
  exists (rsa_blob (bs "ssh-rsa") 0), (rsa_blob (bs "rsa-sha2-512") 0), (rsa_blob (bs "ssh-rsa" ++ [0]) 0), (rsa_blob (bs "ssh-rsa") 1), (mkKey ex_rsa None).
  assert (L : forall n, zlen (repeat 255 n) = Z.of_nat n) by (intros n; unfold zlen; now rewrite repeat_length).
  splits.
  - assert (D : forall x y : list Z, beqb x y = false -> x <> y) by (intros x y H E; apply beqb_eq in E; congruence).
    repeat constructor; cbn [In]; intros H; repeat (destruct H as [H|H]; [revert H; apply D; reflexivity|]); exact H.
  - apply Forall_forall. intros b Hb. apply Forall_forall. intros x Hx. assert (G : forallb (fun c => (0 <=? c) && (c <? 256)) b = true) by (destruct Hb as [<-|[<-|[<-|[<-|[]]]]]; vm_compute; reflexivity).
    rewrite forallb_forall in G. apply G in Hx. unfold is_byte. lia.
  - intros point_ok ver. repeat constructor.
Qed.
Print Assumptions C77_unique_refuted.

(** A toy signature scheme: the signature is the name and the message. *)
Definition toy_sig (m : list Z) : list Z := enc_string (bs "toy") ++ m.
Definition toy_ver (p : kpub) (sig m : list Z) : bool := beqb sig (toy_sig m).
Definition ex_fields : tbs := mkT 7 1 (bs "alice@laptop") [bs "alice"; bs "root"] 100 200 (enc_string (bs "force-command") ++ enc_string (enc_string (bs "ls"))) [].
Definition ex_user : kpub := PEd (repeat 7 32).
Definition ex_ca : kpub := PEd (repeat 9 32).
Example C77_proper_ex : proper (fun _ _ => false) ex_user /\ proper (fun _ _ => false) ex_ca /\ proper_fields ex_fields /\ proper (fun _ _ => false) ex_rsa.
Proof.
  assert (B : forall v n, 0 <= v < 256 -> is_bytes (repeat v n)) by (intros v n H; apply Forall_forall; intros x Hx; apply repeat_spec in Hx; subst; exact H).
  assert (I : forall l : list Z, forallb (fun c => (1 <=? c) && (c <? 256)) l = true -> ~ In 0 l /\ is_bytes l).
  { intros l H. rewrite forallb_forall in H. split; [intros K; apply H in K; lia|]. apply Forall_forall. intros x Hx. apply H in Hx. unfold is_byte. lia. }
  refine (conj _ (conj _ (conj _ _))).
  - split; [reflexivity|apply B; lia].
  - split; [reflexivity|apply B; lia].
  - unfold proper_fields, ex_fields, word64. cbn [t_serial t_type t_id t_principals t_after t_before t_crit t_ext].
    assert (P : pairs (enc_string (bs "force-command") ++ enc_string (enc_string (bs "ls")))). { rewrite <- (app_nil_r (enc_string (enc_string (bs "ls")))). constructor; [vm_compute; discriminate|vm_compute; discriminate|constructor]. }
    destruct (I (bs "alice@laptop") eq_refl) as (I1 & I2). splits; auto; try lia; try (vm_compute; discriminate).
    all: first [apply pairs_nil | apply Forall_nil | (apply is_bytes_app; split; repeat apply enc_bytes; apply I; reflexivity) | (constructor; [apply I; reflexivity|]; constructor; [apply I; reflexivity|constructor])].
  - unfold ex_rsa, proper, magnitude. cbn [repeat]. split; [discriminate|]. split; [repeat constructor; unfold is_byte; lia|]. split; [discriminate|].
    split; [discriminate|]. split; [apply (B 255 128%nat); lia|]. split; [vm_compute; discriminate|]. unfold large. vm_compute. discriminate.
Qed.
Example C77_certify_ex : exists blob, certify (fun m _ => Some (toy_sig m)) (repeat 3 32) ex_user ex_fields None ex_ca None = Some (blob, bs "toy") /\
  from_blob (fun _ _ => false) toy_ver blob = Some (mkKey ex_user (Some (mkKC ex_fields ex_ca (bs "toy") blob))) /\
  from_blob (fun _ _ => false) toy_ver (ztake (zlen blob - 1) blob ++ [66]) = None.
Proof. eexists. split; [vm_compute; reflexivity|]. split; vm_compute; reflexivity. Qed.
Example C77_text_ex : exists line, format_text (mkKey ex_user None) = Some line /\
  sshkey_read (fun _ _ => false) toy_ver (fun _ => 0) (Some (FEd, false)) (line ++ bs " alice@laptop") = Some (mkKey ex_user None, bs "alice@laptop").
Proof. exists (bs "ssh-ed25519 AAAAC3NzaC1lZDI1NTE5AAAAIAcHBwcHBwcHBwcHBwcHBwcHBwcHBwcHBwcHBwcHBwcH"). split; vm_compute; reflexivity. Qed.
