(** Proofs for C77: what from_blob accepts. *)
From Coq Require Import String.
From Verif Require Import Base Text SshbufModel SshbufSpec SshbufProof WireSpec WireProof AddrModel MiscNumModel AuthOptModel Dec CertModel CertSpec CertProof AuthOptProof SigProof2 SigProof3 Base64Model KeyModel KeySpec.
Local Open Scope Z_scope.

(** ** Names *)
Lemma find_name : forall name i, find (fun i => beqb name (i_name i)) keyimpls = Some i -> In i keyimpls /\ name = i_name i.
Proof. intros name i H. apply List.find_some in H as (H & E). apply beqb_eq in E. auto. Qed.
Definition name_fits (name : list Z) (p : kpub) : Prop :=
  match p with PEc c _ => nid_from_name name = Some c | PEcSk c _ _ => nid_from_name name = Some c | _ => True end.
Lemma names_iff : forall name p cert, (type_from_name name = Some (family_of p, cert) /\ name_fits name p) <-> In name (if cert then cert_names p else plain_names p).
Proof.
  intros name p cert. split.
  - intros (H & F). unfold type_from_name in H. destruct (find _ keyimpls) as [i|] eqn:E; [|discriminate]. apply find_name in E as (Hi & ->).
    unfold keyimpls in Hi. cbn [In] in Hi.
    repeat (destruct Hi as [<-|Hi]; [cbn [i_type i_name] in *; destruct p as [pk|pk app|c pt|c pt app|e n]; cbn [family_of] in H; try discriminate H; destruct cert; try discriminate H;
      cbn [name_fits] in F; try (destruct c; try (vm_compute in F; discriminate F)); cbn; tauto|]). destruct Hi.
  - intros H. destruct cert, p as [pk|pk app|c pt|c pt app|e n]; try destruct c; cbn [cert_names plain_names In] in H;
    repeat (destruct H as [<-|H]; [split; [reflexivity|]; cbn [name_fits]; try exact I; reflexivity|]); destruct H.
Qed.
Lemma type_name_pub : forall name f cert, type_from_name name = Some (f, cert) -> exists i, In i keyimpls /\ name = i_name i /\ i_type i = (f, cert).
Proof. intros name f cert H. unfold type_from_name in H. destruct (find _ keyimpls) as [i|] eqn:E; [|discriminate]. apply find_name in E as (Hi & ->). injection H as H. eauto. Qed.

(** ** Integers *)
Lemma strip0_app : forall z v, Forall (fun c => c = 0) z -> magnitude v -> strip0 (z ++ v) = v.
Proof.
  induction z as [|c z IH]; intros v Hz Hv.
  - cbn [app]. apply strip0_id. intros r ->. now apply Hv.
  - inversion Hz as [|? ? Hc Hz']; subst. cbn [app strip0]. change (0 =? 0) with true. cbv iota. auto.
Qed.
Lemma get_mpint_iff : forall b v r, is_bytes b -> (get_mpint b = Some (v, r) <-> exists w, mpint w v /\ b = w ++ r).
Proof.
  intros b v r Hb. unfold get_mpint, dec_mpint. change (SSHBUF_MAX_BIGNUM + 1) with 2049. split.
  - intros H. destruct (dec_string b) as [[d r']|] eqn:E; [|discriminate]. destruct (msb d) eqn:M; [discriminate|].
    destruct ((2049 <? zlen d) || ((zlen d =? 2049) && negb (hd 0 d =? 0))) eqn:S; [discriminate|]. injection H as Hv Hr. subst v r'.
    assert (G : get_str b = Some (d, r)) by (unfold get_str; now rewrite E). apply get_str_spec in G as (-> & L & _); [|assumption].
    exists (enc_string d). split; [|reflexivity]. destruct (strip0_spec d) as (k & Ek & Hn). split; [destruct (strip0 d) as [|c s]; [exact I|]; intros ->; now apply (Hn s)|].
    exists (repeat 0 k). rewrite <- Ek. splits.
    + reflexivity.
    + apply Forall_forall. intros x Hx. now apply repeat_spec in Hx.
    + lia.
    + assert (zlen d = Z.of_nat k + zlen (strip0 d)) as Ld. { rewrite Ek at 1. rewrite zlen_app. unfold zlen at 1. rewrite repeat_length. lia. }
      destruct k as [|k]; [|lia]. cbn [repeat app] in Ek. assert (zlen d = 2049 -> False); [|lia]. intros L9. assert (hd 0 d = 0) by lia.
      destruct d as [|c d]; [unfold zlen in L9; cbn in L9; lia|]. cbn [hd] in H. subst c. rewrite <- Ek in Hn. now apply (Hn d).
    + destruct d as [|c d]; [exact I|]. cbn [msb] in M. lia.
  - intros (w & (Hm & z & -> & Hz & L1 & L2 & Hd) & ->).
    rewrite dec_string_ok by (change (SSHBUF_SIZE_MAX - 4) with 134217724; lia).
    replace (msb (z ++ v)) with false by (destruct (z ++ v); [reflexivity|cbn [msb]; lia]).
    replace ((2049 <? zlen (z ++ v)) || ((zlen (z ++ v) =? 2049) && negb (hd 0 (z ++ v) =? 0))) with false; [now rewrite strip0_app|].
    symmetry. apply orb_false_intro; [lia|]. destruct (zlen (z ++ v) =? 2049) eqn:E; [|reflexivity]. destruct z as [|c z]; [cbn [app] in E; lia|]. inversion Hz; subst. reflexivity.
Qed.
Lemma large_iff : forall v, is_bytes v -> ((num_bits v <? RSA_MINIMUM_MODULUS_SIZE) = false <-> large v).
Proof.
  intros v Hb. pose proof (be_dec_bound v Hb) as B. unfold num_bits, large, RSA_MINIMUM_MODULUS_SIZE. cbv zeta. destruct (be_dec v =? 0) eqn:E.
  - split; [discriminate|]. intros H. pose proof (Z.pow_pos_nonneg 2 1023 ltac:(lia) ltac:(lia)). lia.
  - rewrite (Z.log2_le_pow2 (be_dec v) 1023) by lia. lia.
Qed.
Lemma mpint_bytes : forall w v r, is_bytes (w ++ r) -> mpint w v -> is_bytes v /\ is_bytes r.
Proof. intros w v r H (_ & z & -> & _). apply bytes_app in H as (H & Hr). unfold enc_string in H. apply bytes_app in H as (_ & H). apply bytes_app in H. tauto. Qed.

Lemma zlen_zero : forall (l : list Z), (zlen l =? 0) = true <-> l = [].
Proof. intros [|x l]; [now split|]. rewrite zlen_cons. pose proof (zlen_nonneg _ l) as N. split; [intros E; lia|discriminate]. Qed.
(** ** Sections of a certificate *)
Lemma ctext_len : forall w v, ctext w v -> 4 <= zlen w.
Proof. intros w v (_ & [(-> & _)|(-> & _)]); rewrite zlen_enc_string; pose proof (zlen_nonneg _ v); pose proof (zlen_nonneg _ (v ++ [0])); lia. Qed.
Lemma nat_zlen : forall (l : list Z), Z.of_nat (length l) = zlen l.
Proof. reflexivity. Qed.
Lemma principals_iff : forall fuel b n l, is_bytes b -> zlen b <= Z.of_nat fuel -> 0 <= n <= 256 -> (parse_principals fuel n b = Some l <-> texts b l /\ n + zlen l <= 256).
Proof.
  induction fuel as [|fuel IH]; intros b n l Hb Hf Hn.
  - destruct b as [|x b]; [|rewrite zlen_cons in Hf; pose proof (zlen_nonneg _ b); lia]. cbn [parse_principals]. split.
    + intros H. injection H as <-. split; [constructor|]. unfold zlen. cbn. lia.
    + intros (H & _). inversion H as [|w x b l' Hc Ht Hw]; [reflexivity|]. apply ctext_len in Hc. apply app_eq_nil in Hw as (-> & _). unfold zlen in Hc. cbn in Hc. lia.
  - destruct b as [|x b].
    { cbn [parse_principals]. split.
      + intros H. injection H as <-. split; [constructor|]. unfold zlen. cbn. lia.
      + intros (H & _). inversion H as [|w x b l' Hc Ht Hw]; [reflexivity|]. apply ctext_len in Hc. apply app_eq_nil in Hw as (-> & _). unfold zlen in Hc. cbn in Hc. lia. }
    cbn [parse_principals]. unfold MAX_PRINCIPALS. destruct (256 <=? n) eqn:E.
    { split; [discriminate|]. intros (H & L). inversion H as [Hx|w y b' l' Hc Ht Hw Hl]. subst l. rewrite zlen_cons in L. pose proof (zlen_nonneg _ l'). lia. }
    split.
    + intros H. destruct (get_cstr (x :: b)) as [[p r]|] eqn:G; [|discriminate]. apply get_cstr_iff in G as (w & Cw & Ew); [|assumption]. destruct (parse_principals fuel (n + 1) r) as [l'|] eqn:P; [|discriminate]. injection H as <-.
      rewrite Ew in Hb, Hf. apply bytes_app in Hb as (_ & Hb). pose proof (ctext_len _ _ Cw). rewrite zlen_app in Hf. apply IH in P as (T & L); [|assumption|lia|lia].
      split; [rewrite Ew; now constructor|rewrite zlen_cons; lia].
    + intros (H & L). inversion H as [Hx|w y b' l' Hc Ht Hw Hl]. subst l. rewrite (proj2 (get_cstr_iff (w ++ b') y b' ltac:(rewrite Hw; assumption))) by eauto.
      rewrite <- Hw in Hb, Hf. apply bytes_app in Hb as (_ & Hb). pose proof (ctext_len _ _ Hc). rewrite zlen_app in Hf. rewrite zlen_cons in L. pose proof (zlen_nonneg _ l').
      rewrite (proj2 (IH b' (n + 1) l' Hb ltac:(lia) ltac:(lia))); [reflexivity|]. split; [assumption|lia].
Qed.
Lemma pairs_iff : forall fuel b, is_bytes b -> zlen b <= Z.of_nat fuel -> (pairs_ok fuel b = true <-> pairs b).
Proof.
  assert (N : forall b, pairs b -> b = [] \/ exists n d r, b = enc_string n ++ enc_string d ++ r /\ zlen n <= 134217724 /\ zlen d <= 134217724 /\ pairs r).
  { intros b H. destruct H as [|n d b]; [now left|right]. exists n, d, b. auto. }
  induction fuel as [|fuel IH]; intros b Hb Hf.
  - destruct b as [|x b]; [|rewrite zlen_cons in Hf; pose proof (zlen_nonneg _ b); lia]. cbn. split; [constructor|reflexivity].
  - destruct b as [|x b]; [cbn; split; [constructor|reflexivity]|]. cbn [pairs_ok]. split.
    + intros H. destruct (get_str (x :: b)) as [[n r]|] eqn:G; [|discriminate]. apply get_str_iff in G as (E & L1); [|assumption]. rewrite E in Hb, Hf |- *. apply bytes_app in Hb as (_ & Hb).
      destruct (get_str r) as [[d r']|] eqn:G; [|discriminate]. apply get_str_iff in G as (-> & L2); [|assumption]. apply bytes_app in Hb as (_ & Hb).
      constructor; auto. apply IH; auto. rewrite !zlen_app, !zlen_enc_string in Hf. pose proof (zlen_nonneg _ n). pose proof (zlen_nonneg _ d). lia.
    + intros H. apply N in H as [H|(n & d & r & E & L1 & L2 & P)]; [discriminate|]. rewrite E in *. rewrite get_str_enc by assumption. rewrite get_str_enc by assumption.
      apply bytes_app in Hb as (_ & Hb). apply bytes_app in Hb as (_ & Hb). apply IH; auto. rewrite !zlen_app, !zlen_enc_string in Hf. pose proof (zlen_nonneg _ n). pose proof (zlen_nonneg _ d). lia.
Qed.
Lemma sigtype_iff : forall sig t, is_bytes sig -> zlen sig <= 134217724 -> (get_sigtype sig = Some t <-> made_with sig t).
Proof.
  intros sig t Hb L. unfold get_sigtype, made_with. change SSHBUF_SIZE_MAX with 134217728. replace (134217728 <? zlen sig) with false by lia. split.
  - intros H. destruct (get_cstr sig) as [[t' r]|] eqn:G; [|discriminate]. injection H as ->. apply get_cstr_iff in G as (w & C & ->); [|assumption]. eauto.
  - intros (w & r & -> & C). now rewrite (proj2 (get_cstr_iff _ t r Hb)) by eauto.
Qed.
Section Key.
Variable point_ok : curve -> list Z -> bool.

Lemma get_point_iff : forall c b pt r, is_bytes b -> (get_point point_ok c b = Some (pt, r) <-> b = enc_string pt ++ r /\ point point_ok c pt).
Proof.
  intros c b pt r Hb. unfold get_point, MAX_ECPOINT, point. split.
  - intros H. destruct (get_str b) as [[d r']|] eqn:G; [|discriminate]. apply get_str_iff in G as (-> & L); [|assumption].
    destruct ((zlen d =? 0) || (133 <? zlen d)) eqn:S; [discriminate|]. destruct (hd 0 d =? 4) eqn:F; [|discriminate]. cbn [negb] in H. destruct (point_ok c d) eqn:O; [|discriminate]. injection H as -> ->.
    destruct pt as [|x pt]; [discriminate|]. cbn [hd] in F. assert (x = 4) by lia. subst x. splits; [reflexivity|eauto|lia|assumption].
  - intros (-> & (s & ->) & L & O). rewrite get_str_enc by lia. rewrite zlen_cons in *. pose proof (zlen_nonneg _ s).
    replace ((zlen s + 1 =? 0) || (133 <? zlen s + 1)) with false by lia. cbn [hd]. change (negb (4 =? 4)) with false. cbv iota. now rewrite O.
Qed.
Lemma de_ed_iff : forall b pk r, is_bytes b -> (de_ed25519 b = Some (pk, r) <-> b = enc_string pk ++ r /\ zlen pk = 32).
Proof.
  intros b pk r Hb. unfold de_ed25519, ED25519_PK_SZ. split.
  - intros H. destruct (get_str b) as [[d r']|] eqn:G; [|discriminate]. apply get_str_iff in G as (-> & L); [|assumption]. destruct (zlen d =? 32) eqn:E; [|discriminate]. cbn in H. injection H as -> ->. split; [reflexivity|lia].
  - intros (-> & L). rewrite get_str_enc by lia. now rewrite L.
Qed.
Lemma curve_eqb_iff : forall a b, curve_eqb a b = true <-> a = b.
Proof. intros a b; destruct a, b; cbn; split; congruence. Qed.
Lemma curve_name_iff : forall n c, curve_name_to_nid n = Some c <-> n = curve_text c.
Proof.
  intros n c. unfold curve_name_to_nid. split.
  - destruct (beqb n (bs "nistp256")) eqn:E1; [apply beqb_eq in E1; intros H; injection H as <-; assumption|].
    destruct (beqb n (bs "nistp384")) eqn:E2; [apply beqb_eq in E2; intros H; injection H as <-; assumption|].
    destruct (beqb n (bs "nistp521")) eqn:E3; [apply beqb_eq in E3; intros H; injection H as <-; assumption|discriminate].
  - intros ->. destruct c; reflexivity.
Qed.
Lemma de_ecdsa_iff : forall name b c pt r, is_bytes b -> (de_ecdsa point_ok name b = Some (c, pt, r) <->
  nid_from_name name = Some c /\ exists a, b = a ++ enc_string pt ++ r /\ ctext a (curve_text c) /\ point point_ok c pt).
Proof.
  intros name b c pt r Hb. unfold de_ecdsa. split.
  - intros H. destruct (nid_from_name name) as [nid|] eqn:N; [|discriminate]. destruct (get_cstr b) as [[cn b']|] eqn:G; [|discriminate].
    apply get_cstr_iff in G as (a & Ca & ->); [|assumption]. destruct (curve_name_to_nid cn) as [c'|] eqn:C; [|discriminate]. apply curve_name_iff in C. subst cn.
    destruct (curve_eqb nid c') eqn:E; [|discriminate]. apply curve_eqb_iff in E. subst c'. destruct (get_point point_ok nid b') as [[pt' r']|] eqn:P; [|discriminate]. injection H as -> -> ->.
    apply bytes_app in Hb as (_ & Hb). apply get_point_iff in P as (-> & P); [|assumption]. split; [reflexivity|]. exists a. auto.
  - intros (N & a & -> & Ca & P). rewrite N. rewrite (proj2 (get_cstr_iff _ (curve_text c) (enc_string pt ++ r) Hb)) by eauto. rewrite (proj2 (curve_name_iff _ c) eq_refl).
    rewrite (proj2 (curve_eqb_iff c c) eq_refl). apply bytes_app in Hb as (_ & Hb). rewrite (proj2 (get_point_iff c _ pt r Hb)) by auto. reflexivity.
Qed.
Lemma deser_iff : forall f name b p r, is_bytes b -> (deserialize_public point_ok f name b = Some (p, r) <->
  f = family_of p /\ name_fits name p /\ exists w, b = w ++ r /\ material point_ok p w).
Proof.
  intros f name b p r Hb. split.
  - intros H. destruct f; cbn [deserialize_public] in H.
    + destruct (de_ed25519 b) as [[pk b']|] eqn:E; [|discriminate]. apply de_ed_iff in E as (-> & L); [|assumption]. injection H as <- <-. cbn [family_of name_fits material]. splits; auto. exists (enc_string pk). auto.
    + destruct (de_ed25519 b) as [[pk b']|] eqn:E; [|discriminate]. apply de_ed_iff in E as (-> & L); [|assumption]. apply bytes_app in Hb as (_ & Hb).
      destruct (get_cstr b') as [[app b2]|] eqn:G; [|discriminate]. apply get_cstr_iff in G as (a & Ca & ->); [|assumption]. injection H as <- <-. cbn [family_of name_fits material]. splits; auto. exists (enc_string pk ++ a). split; [now rewrite app_assoc|]. exists a. auto.
    + destruct (de_ecdsa point_ok name b) as [[[c pt] b']|] eqn:E; [|discriminate]. apply de_ecdsa_iff in E as (N & a & -> & Ca & P); [|assumption]. injection H as <- <-. cbn [family_of name_fits material]. splits; auto. exists (a ++ enc_string pt). split; [now rewrite app_assoc|]. exists a. auto.
    + destruct (de_ecdsa point_ok name b) as [[[c pt] b']|] eqn:E; [|discriminate]. apply de_ecdsa_iff in E as (N & a & -> & Ca & P); [|assumption]. apply bytes_app in Hb as (_ & Hb). apply bytes_app in Hb as (_ & Hb).
      destruct (get_cstr b') as [[app b2]|] eqn:G; [|discriminate]. apply get_cstr_iff in G as (a' & Ca' & ->); [|assumption]. injection H as <- <-. cbn [family_of name_fits material]. splits; auto. exists (a ++ enc_string pt ++ a'). split; [now rewrite <- !app_assoc|]. exists a, a'. auto.
    + destruct (get_mpint b) as [[e b']|] eqn:E; [|discriminate]. apply get_mpint_iff in E as (a & Ma & ->); [|assumption]. apply bytes_app in Hb as (_ & Hb).
      destruct (get_mpint b') as [[n b2]|] eqn:E; [|discriminate]. apply get_mpint_iff in E as (a' & Ma' & ->); [|assumption]. destruct (num_bits n <? RSA_MINIMUM_MODULUS_SIZE) eqn:L; [discriminate|]. injection H as <- <-.
      apply large_iff in L; [|now apply (mpint_bytes _ _ _ Hb Ma')]. cbn [family_of name_fits material]. splits; auto. exists (a ++ a'). split; [now rewrite app_assoc|]. exists a, a'. auto.
  - intros (-> & N & w & -> & M). destruct p as [pk|pk app|c pt|c pt app|e n]; cbn [family_of deserialize_public material name_fits] in *.
    + destruct M as (-> & L). now rewrite (proj2 (de_ed_iff _ pk r Hb)) by auto.
    + destruct M as (a & -> & L & Ca). rewrite <- app_assoc in *. rewrite (proj2 (de_ed_iff _ pk (a ++ r) Hb)) by auto. apply bytes_app in Hb as (_ & Hb).
      now rewrite (proj2 (get_cstr_iff _ app r Hb)) by eauto.
    + destruct M as (a & -> & Ca & P). rewrite <- app_assoc in *. rewrite (proj2 (de_ecdsa_iff name _ c pt r Hb)) by eauto. reflexivity.
    + destruct M as (a & a' & -> & Ca & P & Ca'). rewrite <- !app_assoc in *. rewrite (proj2 (de_ecdsa_iff name _ c pt (a' ++ r) Hb)) by eauto.
      apply bytes_app in Hb as (_ & Hb). apply bytes_app in Hb as (_ & Hb). now rewrite (proj2 (get_cstr_iff _ app r Hb)) by eauto.
    + destruct M as (a & a' & -> & Ma & Ma' & L). rewrite <- app_assoc in *. rewrite (proj2 (get_mpint_iff _ e (a' ++ r) Hb)) by eauto. apply bytes_app in Hb as (_ & Hb).
      rewrite (proj2 (get_mpint_iff _ n r Hb)) by eauto. apply (mpint_bytes _ _ _ Hb) in Ma'. now rewrite (proj2 (large_iff n (proj1 Ma')) L).
Qed.

(** ** Plain keys *)
Variable ver : kpub -> list Z -> list Z -> bool.
Lemma internal_plain : forall ca_of allow b p, is_bytes b -> (from_blob_internal point_ok ver ca_of allow b = Some (mkKey p None) <-> is_plain point_ok b p).
Proof.
  intros ca_of allow b p Hb. unfold from_blob_internal, is_plain. split.
  - intros H. destruct (get_cstr b) as [[name r]|] eqn:G; [|discriminate]. destruct (type_from_name name) as [[f cert]|] eqn:T; [|discriminate].
    pose proof Hb as Hb0. apply get_cstr_iff in G as (wn & Cn & E); [|assumption]. rewrite E in Hb. apply bytes_app in Hb as (_ & Hr).
    destruct (negb allow && cert) eqn:A; [discriminate|]. destruct cert.
    { destruct (get_str r) as [[nc r']|]; [|discriminate]. destruct (deserialize_public point_ok f name r') as [[p' r2]|]; [|discriminate].
      destruct (cert_parse ver ca_of r2 b) as [[c r3]|]; [|discriminate]. destruct (negb (zlen r3 =? 0)); discriminate. }
    destruct (deserialize_public point_ok f name r) as [[p' r2]|] eqn:D; [|discriminate]. destruct (zlen r2 =? 0) eqn:Z0; [|discriminate]. cbn in H. injection H as ->.
    apply zlen_zero in Z0. subst r2. apply deser_iff in D as (-> & N & w & -> & M); [|assumption]. rewrite app_nil_r in *. exists wn, name, w. splits; auto. apply (names_iff name p false). auto.
  - intros (wn & name & w & -> & Cn & In_ & M). rewrite (proj2 (get_cstr_iff _ name w Hb)) by eauto. apply (names_iff name p false) in In_ as (T & N). rewrite T. rewrite andb_false_r.
    apply bytes_app in Hb as (_ & Hb). rewrite (proj2 (deser_iff (family_of p) name w p [] Hb)); [reflexivity|]. splits; auto. exists w. now rewrite app_nil_r.
Qed.
Lemma internal_no_cert : forall ca_of b k, from_blob_internal point_ok ver ca_of false b = Some k -> key_cert k = None.
Proof.
  intros ca_of b k H. unfold from_blob_internal in H. destruct (get_cstr b) as [[name r]|]; [|discriminate]. destruct (type_from_name name) as [[f cert]|]; [|discriminate].
  destruct cert; [discriminate|]. cbn [negb andb] in H. destruct (deserialize_public point_ok f name r) as [[p' r2]|]; [|discriminate]. destruct (negb (zlen r2 =? 0)); [discriminate|]. now injection H as <-.
Qed.
Lemma ca_iff : forall b k, is_bytes b -> (ca_from_blob point_ok ver b = Some k <-> key_cert k = None /\ is_plain point_ok b (key_pub k)).
Proof.
  intros b [p c] Hb. unfold ca_from_blob. cbn [key_cert key_pub]. split.
  - intros H. pose proof (internal_no_cert _ _ _ H) as E. cbn in E. subst c. split; [reflexivity|]. now apply internal_plain in H.
  - intros (-> & H). now apply internal_plain.
Qed.

End Key.
