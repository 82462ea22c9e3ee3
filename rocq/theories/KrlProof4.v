From Coq Require Import String.
From Verif Require Import Base Bits SshbufModel SshbufSpec SshbufProof WireSpec WireProof Dec MiscNumModel AuthOptModel AuthOptProof BitmapModel BitmapSpec BitmapProof KrlModel KrlSpec KrlProof KrlProof2 KrlProof3.
Local Open Scope Z_scope.

(** ** The reader *)
Definition serial_set := option (list Z) -> Z -> Prop.
Definition id_set := option (list Z) -> list Z -> Prop.
Record ext (k k' : krl) (P : serial_set) (Q : id_set) : Prop := {
  x_wf : certs_wf (k_certs k');
  x_rest : k' = with_certs (k_certs k') k;
  x_serials : forall ca s, serials_of (k_certs k') ca s <-> serials_of (k_certs k) ca s \/ P ca s;
  x_ids : forall ca i, ids_of (k_certs k') ca i <-> ids_of (k_certs k) ca i \/ Q ca i }.
Definition noS : serial_set := fun _ _ => False.
Definition noI : id_set := fun _ _ => False.
Definition at_ca (ca : option (list Z)) {A} (S : A -> Prop) : option (list Z) -> A -> Prop := fun c x => c = ca /\ S x.

Lemma ext_refl : forall k, certs_wf (k_certs k) -> ext k k noS noI.
Proof. intros k W. constructor; [exact W|now destruct k| |]; intros; unfold noS, noI; tauto. Qed.
Lemma ext_trans : forall a b c P1 Q1 P2 Q2, ext a b P1 Q1 -> ext b c P2 Q2 -> ext a c (fun ca s => P1 ca s \/ P2 ca s) (fun ca i => Q1 ca i \/ Q2 ca i).
Proof.
  intros a b c P1 Q1 P2 Q2 [W1 R1 S1 I1] [W2 R2 S2 I2]. constructor; [exact W2| | |].
  - rewrite R2, R1. reflexivity.
  - intros ca s. rewrite S2, S1. tauto.
  - intros ca s. rewrite I2, I1. tauto.
Qed.
Lemma ext_iff : forall a b P Q P' Q', ext a b P Q -> (forall c s, P c s <-> P' c s) -> (forall c s, Q c s <-> Q' c s) -> ext a b P' Q'.
Proof. intros a b P Q P' Q' [W R S I] E1 E2. constructor; [exact W|exact R| |]; intros; [rewrite S, E1|rewrite I, E2]; reflexivity. Qed.

Lemma range_ext : forall k ca lo hi, certs_wf (k_certs k) -> ca_arg ca -> 1 <= lo -> lo <= hi < U64 ->
  exists k', ssh_krl_revoke_cert_by_serial_range k ca lo hi = Some k' /\ ext k k' (at_ca ca (fun s => lo <= s <= hi)) noI.
Proof.
  intros k ca lo hi W A B C. unfold ssh_krl_revoke_cert_by_serial_range. replace ((hi <? lo) || (lo =? 0)) with false by lia. eexists. split; [reflexivity|].
  destruct (update_serials (k_certs k) ca lo hi W A B C) as (U1 & U2 & U3). constructor; cbn [with_certs k_certs]; [exact U1|reflexivity|exact U2|].
  intros c i. unfold noI. fold (add_serials lo hi). rewrite U3. tauto.
Qed.
Lemma serial_ext : forall k ca s, certs_wf (k_certs k) -> ca_arg ca -> 1 <= s < U64 ->
  exists k', ssh_krl_revoke_cert_by_serial k ca s = Some k' /\ ext k k' (at_ca ca (fun x => x = s)) noI.
Proof.
  intros k ca s W A B. destruct (range_ext k ca s s W A) as (k' & E & X); [lia|lia|]. exists k'. split; [exact E|]. apply (ext_iff _ _ _ _ _ _ X); [|reflexivity].
  intros c x. unfold at_ca. split; intros (-> & H); (split; [reflexivity|lia]).
Qed.
Lemma id_ext : forall k ca i, certs_wf (k_certs k) -> ca_arg ca -> ~ In 0 i ->
  ext k (ssh_krl_revoke_cert_by_key_id k ca i) noS (at_ca ca (fun x => x = i)).
Proof.
  intros k ca i W A B. unfold ssh_krl_revoke_cert_by_key_id. destruct (update_ids (k_certs k) ca i W A B) as (U1 & U2 & U3).
  constructor; cbn [with_certs k_certs]; [exact U1|reflexivity| |exact U3]. intros c s. unfold noS. fold (add_id i). rewrite U2. tauto.
Qed.

Lemma parse_list_enc : forall ss fuel ca k, (length (enc_serials ss) <= fuel)%nat -> certs_wf (k_certs k) -> ca_arg ca -> Forall (fun x => 1 <= x < U64) ss ->
  exists k', parse_list fuel ca (enc_serials ss) k = POk k' /\ ext k k' (at_ca ca (fun x => In x ss)) noI.
Proof.
  induction ss as [|s ss IH]; intros fuel ca k F W A Ok.
  - exists k. split; [destruct fuel; reflexivity|]. apply (ext_iff _ _ _ _ _ _ (ext_refl k W)); [|reflexivity]. intros c x. unfold noS, at_ca. cbn [In]. tauto.
  - inversion Ok as [|? ? O1 O2]; subst. change (enc_serials (s :: ss)) with (be_enc 8 s ++ enc_serials ss) in *. rewrite app_length, be_enc_length in F.
    destruct fuel as [|f]; [lia|]. destruct (be_enc 8 s ++ enc_serials ss) as [|c r] eqn:E.
    { apply (f_equal (@length Z)) in E. rewrite app_length, be_enc_length in E. cbn [length] in E. lia. }
    cbn [parse_list]. rewrite <- E. rewrite get_int_enc by (change (256 ^ Z.of_nat 8) with U64; lia).
    destruct (serial_ext k ca s W A O1) as (k1 & E1 & X1). rewrite E1. destruct (IH f ca k1) as (k2 & E2 & X2); [lia|apply X1|exact A|exact O2|].
    exists k2. split; [exact E2|]. apply (ext_iff _ _ _ _ _ _ (ext_trans _ _ _ _ _ _ _ X1 X2)); [|unfold noI; intros; tauto].
    intros c' x. unfold at_ca. cbn [In]. split; [intros [[-> ->]|[-> H]]; auto|intros [-> [-> |H]]; auto].
Qed.
Lemma parse_ids_enc : forall l fuel ca k, (length (enc_all l) <= fuel)%nat -> certs_wf (k_certs k) -> ca_arg ca -> small l -> Forall (fun i => ~ In 0 i) l ->
  exists k', parse_ids fuel ca (enc_all l) k = POk k' /\ ext k k' noS (at_ca ca (fun x => In x l)).
Proof.
  induction l as [|s ss IH]; intros fuel ca k F W A Sm Ok.
  - exists k. split; [destruct fuel; reflexivity|]. apply (ext_iff _ _ _ _ _ _ (ext_refl k W)); [reflexivity|]. intros c x. unfold noI, at_ca. cbn [In]. tauto.
  - inversion Ok as [|? ? O1 O2]; subst. inversion Sm as [|? ? S1 S2]; subst. assert (EE : enc_all (s :: ss) = enc_string s ++ enc_all ss) by reflexivity. rewrite EE in *. rewrite app_length in F.
    assert (L4 : (4 <= length (enc_string s))%nat) by (unfold enc_string; rewrite app_length, be_enc_length; lia).
    destruct fuel as [|f]; [lia|]. destruct (enc_string s ++ enc_all ss) as [|c r] eqn:E.
    { apply (f_equal (@length Z)) in E. rewrite app_length in E. cbn [length] in E. lia. }
    cbn [parse_ids]. rewrite <- E. rewrite get_cstr_enc by assumption.
    pose proof (id_ext k ca s W A O1) as X1. destruct (IH f ca (ssh_krl_revoke_cert_by_key_id k ca s)) as (k2 & E2 & X2); [lia|apply X1|exact A|exact S2|exact O2|].
    exists k2. split; [exact E2|]. apply (ext_iff _ _ _ _ _ _ (ext_trans _ _ _ _ _ _ _ X1 X2)); [unfold noS; intros; tauto|].
    intros c' x. unfold at_ca. cbn [In]. split; [intros [[-> ->]|[-> H]]; auto|intros [-> [-> |H]]; auto].
Qed.
Lemma parse_bits_ok : forall n ca b N lo i k, inv b N -> certs_wf (k_certs k) -> ca_arg ca -> 1 <= lo -> 0 <= i -> i + Z.of_nat n < U32 -> lo + i + Z.of_nat n <= U64 ->
  exists k', parse_bits n ca b lo i k = POk k' /\ ext k k' (at_ca ca (fun x => lo + i <= x < lo + i + Z.of_nat n /\ Z.testbit N (x - lo) = true)) noI.
Proof.
  induction n as [|n IH]; intros ca b N lo i k I W A L P B1 B2.
  - exists k. split; [reflexivity|]. apply (ext_iff _ _ _ _ _ _ (ext_refl k W)); [|reflexivity]. intros c x. unfold noS, at_ca. split; [tauto|lia].
  - cbn [parse_bits]. rewrite u64_id by lia. replace ((0 <? i) && (lo + i =? 0)) with false by lia. rewrite u32_id by lia. rewrite (test_spec b N i I) by lia.
    assert (Split : forall x, lo + i <= x < lo + i + Z.of_nat (S n) <-> x = lo + i \/ lo + (i + 1) <= x < lo + (i + 1) + Z.of_nat n) by (intros; lia).
    assert (Eqi : lo + i - lo = i) by lia.
    destruct (Z.testbit N i) eqn:T.
    + destruct (serial_ext k ca (lo + i) W A) as (k1 & E1 & X1); [lia|]. rewrite E1. destruct (IH ca b N lo (i + 1) k1) as (k2 & E2 & X2); try assumption; try lia; [apply X1|].
      exists k2. split; [exact E2|]. apply (ext_iff _ _ _ _ _ _ (ext_trans _ _ _ _ _ _ _ X1 X2)); [|unfold noI; intros; tauto].
      intros c x. unfold at_ca. rewrite Split. split; [intros [[-> ->]|[-> H]]; [rewrite Eqi; auto|tauto]|intros [-> [[-> |H] H2]]; auto].
    + destruct (IH ca b N lo (i + 1) k) as (k2 & E2 & X2); try assumption; try lia.
      exists k2. split; [exact E2|]. apply (ext_iff _ _ _ _ _ _ X2); [|reflexivity].
      intros c x. unfold at_ca. rewrite Split. split; [tauto|]. intros [-> [[-> |H] H2]]; [rewrite Eqi in H2; congruence|auto].
Qed.
Lemma parse_sub_ok : forall s ca k, certs_wf (k_certs k) -> ca_arg ca -> sub_ok s ->
  (sub_small s /\ exists k', parse_sub ca (sub_type s) (sub_body s) k = POk k' /\ ext k k' (at_ca ca (sub_set s)) noI) \/
  (~ sub_small s /\ parse_sub ca (sub_type s) (sub_body s) k = PErr).
Proof.
  intros [ss|lo hi|st N] ca k W A [Ok L].
  - left. split; [exact I|]. cbn [sub_type sub_body]. unfold parse_sub. rewrite Z.eqb_refl. apply parse_list_enc; auto.
  - left. split; [exact I|]. cbn [sub_type sub_body]. unfold parse_sub. change (CERT_SERIAL_RANGE =? CERT_SERIAL_LIST) with false. rewrite Z.eqb_refl. cbv iota.
    rewrite get_int_enc by (change (256 ^ Z.of_nat 8) with U64; lia). rewrite <- (app_nil_r (be_enc 8 hi)). rewrite get_int_enc by (change (256 ^ Z.of_nat 8) with U64; lia).
    destruct (range_ext k ca lo hi W A) as (k' & E & X); [lia|lia|]. rewrite E. exists k'. split; [reflexivity|exact X].
  - cbn [sub_small sub_type sub_body] in *. destruct Ok as (O1 & O2 & O3 & O4 & O5). unfold parse_sub. change (CERT_SERIAL_BITMAP =? CERT_SERIAL_LIST) with false. change (CERT_SERIAL_BITMAP =? CERT_SERIAL_RANGE) with false.
    rewrite Z.eqb_refl. cbv iota. pose proof (Z.log2_nonneg N). rewrite get_int_enc by (change (256 ^ Z.of_nat 8) with U64; lia).
    destruct (bits_blob N O2) as (V1 & V2 & V3 & V4). pose proof (get_bignum_enc N [] O2) as G. cbv zeta in G. rewrite app_nil_r in G.
    set (v := be_enc (Z.to_nat (bytes_of N)) N) in *. rewrite G.
    2:{ rewrite zlen_app, zlen_be_enc in L. unfold enc_mpint, enc_string in L. rewrite zlen_app, zlen_be_enc in L. lia. }
    destruct (bytes_of N <=? 2048) eqn:E.
    + left. split; [lia|]. destruct (from_spec true bitmap_new 0 v inv_new V1) as (ok & b & Ef & Q). rewrite Ef. destruct ok; [|destruct Q as [[Q|Q] _]; [lia|discriminate]].
      destruct Q as [_ Q]. rewrite V4 in Q. destruct (nbits_spec b N Q) as (b' & En & Q' & _). rewrite En.
      assert (Sz : size_of N = Z.log2 N + 1) by (unfold size_of; replace (N =? 0) with false by lia; reflexivity). rewrite Sz.
      destruct (parse_bits_ok (Z.to_nat (Z.log2 N + 1)) ca b' N st 0 k) as (k' & Ep & X); try assumption; try (unfold U32; lia).
      rewrite Ep. exists k'. split; [reflexivity|]. apply (ext_iff _ _ _ _ _ _ X); [|reflexivity]. intros c x. unfold at_ca. cbn [sub_set].
      split; [intros (-> & H1 & H2); split; [reflexivity|split; [lia|exact H2]]|]. intros (-> & H1 & H2). split; [reflexivity|]. split; [|exact H2].
      assert (x - st <= Z.log2 N); [|lia]. destruct (Z.le_gt_cases (x - st) (Z.log2 N)); [assumption|]. rewrite Z.bits_above_log2 in H2 by lia. discriminate.
    + right. split; [lia|reflexivity].
Qed.
(** A run of subsections, followed by something the reader handles. *)
Lemma parse_subs_cons : forall fuel ca t body rest k, 0 <= t < 256 -> zlen body <= 134217724 ->
  parse_subs (S fuel) ca ((be_enc 1 t ++ enc_string body) ++ rest) k = match parse_sub ca t body k with POk k' => parse_subs fuel ca rest k' | PErr => PErr | PFuel => PFuel end.
Proof.
  intros fuel ca t body rest k T L. rewrite <- app_assoc. destruct (be_enc 1 t ++ enc_string body ++ rest) as [|c r] eqn:E.
  { apply (f_equal (@length Z)) in E. rewrite app_length, be_enc_length in E. cbn [length] in E. lia. }
  cbn [parse_subs]. rewrite <- E. rewrite get_int_enc by (change (256 ^ Z.of_nat 1) with 256; lia). rewrite get_str_enc by exact L. destruct (parse_sub ca t body k); reflexivity.
Qed.
Definition rc_span (rc : revoked_certs) : Prop := forall x y, inr x (rc_serials rc) -> inr y (rc_serials rc) -> y - x < 16384.
Lemma parse_subs_ok : forall subs fuel ca ids k, (length (enc_subs subs ++ ids_part ids) <= fuel)%nat -> certs_wf (k_certs k) -> ca_arg ca -> Forall sub_ok subs -> small ids -> Forall (fun i => ~ In 0 i) ids ->
  (ids <> [] -> zlen (enc_all ids) <= 134217724) ->
  (exists k', parse_subs fuel ca (enc_subs subs ++ ids_part ids) k = POk k' /\ ext k k' (at_ca ca (subs_set subs)) (at_ca ca (fun x => In x ids))) \/
  (~ Forall sub_small subs /\ parse_subs fuel ca (enc_subs subs ++ ids_part ids) k = PErr).
Proof.
  induction subs as [|s subs IH]; intros fuel ca ids k F W A Ok Sm Nz Le.
  - left. cbn [enc_subs map concat app]. destruct ids as [|i ids].
    + exists k. split; [destruct fuel; reflexivity|]. apply (ext_iff _ _ _ _ _ _ (ext_refl k W)); intros c x; unfold noS, noI, at_ca, subs_set; cbn [In].
      * split; [tauto|]. intros (_ & ? & [] & _).
      * tauto.
    + set (l := i :: ids) in *. cbn [enc_subs map concat app] in F. change (ids_part l) with (be_enc 1 CERT_KEY_ID ++ enc_string (enc_all l)) in *.
      destruct fuel as [|f]; [rewrite app_length, be_enc_length in F; lia|]. rewrite <- (app_nil_r (be_enc 1 _ ++ _)). rewrite parse_subs_cons; [|vm_compute; intuition discriminate|apply Le; discriminate].
      unfold parse_sub. change (CERT_KEY_ID =? CERT_SERIAL_LIST) with false. change (CERT_KEY_ID =? CERT_SERIAL_RANGE) with false. change (CERT_KEY_ID =? CERT_SERIAL_BITMAP) with false. rewrite Z.eqb_refl. cbv iota.
      destruct (parse_ids_enc l (length (enc_all l)) ca k) as (k' & E & X); try assumption; [lia|]. rewrite E. exists k'. split; [destruct f; reflexivity|].
      apply (ext_iff _ _ _ _ _ _ X); [|reflexivity]. intros c x. unfold noS, at_ca, subs_set. split; [tauto|]. intros (_ & ? & [] & _).
  - inversion Ok as [|? ? O1 O2]; subst. change (enc_subs (s :: subs)) with (enc_sub s ++ enc_subs subs) in *. rewrite <- app_assoc in *.
    assert (L1 : (1 <= length (enc_sub s))%nat) by (unfold enc_sub; rewrite app_length, be_enc_length; lia).
    rewrite app_length in F. destruct fuel as [|f]; [lia|]. unfold enc_sub in *. rewrite parse_subs_cons; [|destruct s; vm_compute; intuition discriminate|apply O1].
    destruct (parse_sub_ok s ca k W A O1) as [[P1 (k1 & E1 & X1)]|[P1 E1]]; rewrite E1.
    2:{ right. split; [|reflexivity]. intros K. inversion K. contradiction. }
    destruct (IH f ca ids k1) as [(k2 & E2 & X2)|[K E2]]; try assumption; [lia|apply X1| |].
    + left. exists k2. split; [exact E2|]. apply (ext_iff _ _ _ _ _ _ (ext_trans _ _ _ _ _ _ _ X1 X2)); [|unfold noI; intros; tauto].
      intros c x. unfold at_ca, subs_set. split.
      * intros [[-> H]|[-> (y & H & Q)]]; (split; [reflexivity|]); [exists s; cbn [In]; auto|exists y; cbn [In]; auto].
      * intros [-> (y & [<- |H] & Q)]; [left; auto|right; eauto].
    + right. split; [|exact E2]. intros K'. apply K. now inversion K'.
Qed.
Lemma small_of_span : forall rc subs, (forall x, inr x (rc_serials rc) <-> subs_set subs x) -> Forall sub_ok subs -> rc_span rc -> Forall sub_small subs.
Proof.
  intros rc subs Iff Ok Sp. rewrite Forall_forall in *. intros s Hs. destruct (Ok s Hs) as [O _]. destruct s as [ss|lo hi|st N]; cbn [sub_small]; try exact I.
  destruct O as (O1 & O2 & O3 & O4 & O5). pose proof (Z.log2_nonneg N).
  assert (I1 : inr st (rc_serials rc)) by (apply Iff; exists (SubBits st N); split; [exact Hs|]; cbn [sub_set]; rewrite Z.sub_diag; split; [lia|exact O3]).
  assert (I2 : inr (st + Z.log2 N) (rc_serials rc)).
  { apply Iff. exists (SubBits st N). split; [exact Hs|]. cbn [sub_set]. split; [lia|]. replace (st + Z.log2 N - st) with (Z.log2 N) by lia. now apply Z.bit_log2. }
  specialize (Sp _ _ I1 I2). rewrite bytes_of_pos by assumption. assert ((Z.log2 N + 8) / 8 < 2049); [|lia]. apply Z.div_lt_upper_bound; lia.
Qed.

Section R.
Variable kfb : list Z -> option (list Z).
Definition ca_reads (ca : option (list Z)) : Prop := match ca with Some b => kfb b = Some b | None => True end.

Lemma parse_certs_ok : forall rc buf k, rc_wf rc -> certs_wf (k_certs k) -> ca_reads (rc_ca rc) -> revoked_certs_generate rc = Some buf ->
  (exists k', parse_revoked_certs kfb buf k = POk k' /\ ext k k' (at_ca (rc_ca rc) (fun x => inr x (rc_serials rc))) (at_ca (rc_ca rc) (fun x => In x (rc_ids rc)))) \/
  (~ rc_span rc /\ parse_revoked_certs kfb buf k = PErr).
Proof.
  intros rc buf k (C & Nz & Ca) W R H. destruct (generate_some rc buf C H) as (subs & -> & L & Ok & Iff & Sm & Le). unfold parse_revoked_certs.
  rewrite get_str_enc by exact L. rewrite get_str_enc by (change (zlen (@nil Z)) with 0; lia).
  assert (K : (exists k', parse_subs (length (enc_subs subs ++ ids_part (rc_ids rc))) (rc_ca rc) (enc_subs subs ++ ids_part (rc_ids rc)) k = POk k' /\ ext k k' (at_ca (rc_ca rc) (fun x => inr x (rc_serials rc))) (at_ca (rc_ca rc) (fun x => In x (rc_ids rc)))) \/
    (~ rc_span rc /\ parse_subs (length (enc_subs subs ++ ids_part (rc_ids rc))) (rc_ca rc) (enc_subs subs ++ ids_part (rc_ids rc)) k = PErr)).
  { destruct (parse_subs_ok subs (length (enc_subs subs ++ ids_part (rc_ids rc))) (rc_ca rc) (rc_ids rc) k) as [(k' & E & X)|[N E]]; try assumption; [lia| |].
    - left. exists k'. split; [exact E|]. apply (ext_iff _ _ _ _ _ _ X); [|reflexivity]. intros c x. unfold at_ca. now rewrite Iff.
    - right. split; [|exact E]. intros Sp. apply N. now apply (small_of_span rc). }
  destruct (rc_ca rc) as [b|] eqn:Ec; cbn [ca_arg ca_reads] in *.
  - destruct (zlen b =? 0) eqn:Eb; [exfalso; apply Ca; apply zlen_zero_nil; lia|]. rewrite R. exact K.
  - change (zlen (@nil Z) =? 0) with true. cbv iota. exact K.
Qed.
Lemma parse_sections_cons : forall fuel t body rest k, 0 <= t < 256 -> t <> SECT_SIGNATURE -> zlen body <= 134217724 ->
  parse_sections kfb (S fuel) ((be_enc 1 t ++ enc_string body) ++ rest) k = match parse_section kfb t body k with POk k' => parse_sections kfb fuel rest k' | PErr => PErr | PFuel => PFuel end.
Proof.
  intros fuel t body rest k T Sg L. rewrite <- app_assoc. destruct (be_enc 1 t ++ enc_string body ++ rest) as [|c r] eqn:E.
  { apply (f_equal (@length Z)) in E. rewrite app_length, be_enc_length in E. cbn [length] in E. lia. }
  cbn [parse_sections]. rewrite <- E. rewrite get_int_enc by (change (256 ^ Z.of_nat 1) with 256; lia). rewrite get_str_enc by exact L. replace (t =? SECT_SIGNATURE) with false by lia.
  destruct (parse_section kfb t body k); reflexivity.
Qed.
(** The certificate sections of the list, as the writer lays them out. *)
Inductive cert_bytes : list revoked_certs -> list Z -> Prop :=
| cb_nil : cert_bytes [] []
| cb_cons : forall rc sect l b, revoked_certs_generate rc = Some sect -> zlen sect <= 134217724 -> cert_bytes l b -> cert_bytes (rc :: l) ((be_enc 1 SECT_CERTIFICATES ++ enc_string sect) ++ b).
Lemma put_certs_some : forall l m b', put_certs l m = Some b' -> exists b c, m = Some b /\ b' = b ++ c /\ cert_bytes l c.
Proof.
  induction l as [|rc l IH]; intros m b' H; cbn [put_certs] in H.
  - exists b', []. split; [exact H|]. split; [now rewrite app_nil_r|constructor].
  - destruct (revoked_certs_generate rc) as [sect|] eqn:E; [|discriminate]. apply IH in H as (b & c & H & -> & Cb). apply put_str_some in H as (L & b1 & H & ->). unfold put_u8 in H. apply put_some in H as (b2 & -> & ->).
    exists b2, ((be_enc 1 SECT_CERTIFICATES ++ enc_string sect) ++ c). split; [reflexivity|]. split; [change (u8 SECT_CERTIFICATES) with SECT_CERTIFICATES; now rewrite <- !app_assoc|now constructor].
Qed.
Lemma certs_then : forall l c, cert_bytes l c -> forall fuel rest k, (length (c ++ rest) <= fuel)%nat -> Forall rc_wf l -> certs_wf (k_certs k) -> Forall (fun rc => ca_reads (rc_ca rc)) l ->
  (exists k' f', parse_sections kfb fuel (c ++ rest) k = parse_sections kfb f' rest k' /\ (length rest <= f')%nat /\ ext k k' (serials_of l) (ids_of l)) \/
  ((exists rc, In rc l /\ ~ rc_span rc) /\ parse_sections kfb fuel (c ++ rest) k = PErr).
Proof.
  induction 1 as [|rc sect l b G L Cb IH]; intros fuel rest k F Wf W R.
  - left. exists k, fuel. split; [reflexivity|]. split; [exact F|]. apply (ext_iff _ _ _ _ _ _ (ext_refl k W)); intros ca x; unfold noS, noI; (split; [tauto|intros (? & [] & _)]).
  - inversion Wf as [|? ? W1 W2]; subst. inversion R as [|? ? R1 R2]; subst. rewrite <- app_assoc in *. rewrite app_length in F.
    assert (L1 : (1 <= length (be_enc 1 SECT_CERTIFICATES ++ enc_string sect))%nat) by (rewrite app_length, be_enc_length; lia).
    destruct fuel as [|f]; [lia|]. rewrite parse_sections_cons; [|vm_compute; intuition discriminate|discriminate|exact L].
    unfold parse_section. rewrite Z.eqb_refl. destruct (parse_certs_ok rc sect k W1 W R1 G) as [(k1 & E1 & X1)|[Sp E1]]; rewrite E1.
    2:{ right. split; [|reflexivity]. exists rc. split; [now left|exact Sp]. }
    destruct (IH f rest k1) as [(k2 & f2 & E2 & F2 & X2)|[(rc' & Hi & Sp) E2]]; try assumption; [lia|apply X1| |].
    + left. exists k2, f2. split; [exact E2|]. split; [exact F2|]. apply (ext_iff _ _ _ _ _ _ (ext_trans _ _ _ _ _ _ _ X1 X2)); intros ca x; unfold at_ca.
      * split; [intros [[-> H]|(rc' & H1 & H2 & H3)]; [exists rc; cbn [In]; auto|exists rc'; cbn [In]; auto]|]. intros (rc' & [<- |H1] & H2 & H3); [left; auto|right; exists rc'; auto].
      * split; [intros [[-> H]|(rc' & H1 & H2 & H3)]; [exists rc; cbn [In]; auto|exists rc'; cbn [In]; auto]|]. intros (rc' & [<- |H1] & H2 & H3); [left; auto|right; exists rc'; auto].
    + right. split; [|exact E2]. exists rc'. split; [now right|exact Sp].
Qed.
(** Sections of blobs. *)
Lemma blob_section_ok : forall l fuel t expected, (length (enc_all l) <= fuel)%nat -> small l -> (expected = 0 \/ Forall (fun x => zlen x = expected) l) ->
  exists t', blob_section fuel (enc_all l) t expected = POk t' /\ (forall x, In x t' <-> In x t \/ In x l).
Proof.
  induction l as [|s ss IH]; intros fuel t ex F Sm Ex.
  - exists t. split; [destruct fuel; reflexivity|]. intros x. cbn [In]. tauto.
  - inversion Sm as [|? ? S1 S2]; subst. assert (EE : enc_all (s :: ss) = enc_string s ++ enc_all ss) by reflexivity. rewrite EE in *. rewrite app_length in F.
    assert (L4 : (4 <= length (enc_string s))%nat) by (unfold enc_string; rewrite app_length, be_enc_length; lia).
    destruct fuel as [|f]; [lia|]. destruct (enc_string s ++ enc_all ss) as [|c r] eqn:E.
    { apply (f_equal (@length Z)) in E. rewrite app_length in E. cbn [length] in E. lia. }
    cbn [blob_section]. rewrite <- E. rewrite get_str_enc by assumption.
    replace (negb (ex =? 0) && negb (zlen s =? ex)) with false by (destruct Ex as [-> |Ex]; [reflexivity|inversion Ex; subst; rewrite Z.eqb_refl, Bool.andb_false_r; reflexivity]).
    destruct (IH f (tree_insert s t) ex) as (t' & E' & Q); [lia|exact S2|destruct Ex as [-> |Ex]; [now left|right; now inversion Ex]|]. exists t'. split; [exact E'|].
    intros x. rewrite Q, tree_insert_in. cbn [In]. split; [intros [[-> |H]|H]; auto|intros [H|[<- |H]]; auto].
Qed.
Definition blob_part (t : Z) (l : list (list Z)) : list Z := match l with [] => [] | _ => be_enc 1 t ++ enc_string (enc_all l) end.
Lemma blob_then : forall t l rest fuel k get set expected, 0 <= t < 256 -> t <> SECT_SIGNATURE -> small l -> (l <> [] -> zlen (enc_all l) <= 134217724) -> (expected = 0 \/ Forall (fun x => zlen x = expected) l) ->
  (forall s k, parse_section kfb t s k = match blob_section (length s) s (get k) expected with POk t' => POk (set t' k) | PErr => PErr | PFuel => PFuel end) ->
  set (get k) k = k ->
  (length (blob_part t l ++ rest) <= fuel)%nat ->
  exists t' f', parse_sections kfb fuel (blob_part t l ++ rest) k = parse_sections kfb f' rest (set t' k) /\ (length rest <= f')%nat /\ (forall x, In x t' <-> In x (get k) \/ In x l).
Proof.
  intros t l rest fuel k get set ex T Sg Sm Le Ex P Same F. destruct l as [|i l0].
  - exists (get k), fuel. cbn [blob_part app]. rewrite Same. split; [reflexivity|]. split; [exact F|]. intros x. cbn [In]. tauto.
  - set (l := i :: l0) in *. change (blob_part t l) with (be_enc 1 t ++ enc_string (enc_all l)) in *. rewrite app_length in F.
    assert (L1 : (1 <= length (be_enc 1 t ++ enc_string (enc_all l)))%nat) by (rewrite app_length, be_enc_length; lia).
    destruct fuel as [|f]; [lia|]. rewrite parse_sections_cons; [|exact T|exact Sg|apply Le; discriminate]. rewrite P.
    destruct (blob_section_ok l (length (enc_all l)) (get k) ex) as (t' & E & Q); [lia|exact Sm|exact Ex|]. rewrite E. exists t', f. split; [reflexivity|]. split; [lia|exact Q].
Qed.

Lemma blob_ok : forall now k b, certs_wf (k_certs k) -> Forall (fun rc => ca_reads (rc_ca rc)) (k_certs k) ->
  Forall (fun x => zlen x = 20) (k_sha1s k) -> Forall (fun x => zlen x = 32) (k_sha256s k) ->
  0 <= now < U64 -> 0 <= k_version k < U64 -> 0 <= k_date k < U64 -> 0 <= k_flags k < U64 -> match k_comment k with Some c => ~ In 0 c | None => True end ->
  ssh_krl_to_blob now k = Some b ->
  (exists k', ssh_krl_from_blob kfb b = POk k' /\ certs_wf (k_certs k') /\ same_content k k' /\ k_version k' = k_version k /\ k_date k' = k_date (stamp now k) /\ k_flags k' = k_flags k /\
     k_comment k' = Some (match k_comment k with Some c => c | None => [] end)) \/
  ((exists rc, In rc (k_certs k) /\ ~ rc_span rc) /\ ssh_krl_from_blob kfb b = PErr).
Proof.
  intros now k b W R L1 L2 Hn Hv Hd Hf Hc H. unfold ssh_krl_to_blob in H.
  assert (Hs : k_version (stamp now k) = k_version k /\ 0 <= k_date (stamp now k) < U64 /\ k_flags (stamp now k) = k_flags k /\ k_comment (stamp now k) = k_comment k /\
    k_keys (stamp now k) = k_keys k /\ k_sha1s (stamp now k) = k_sha1s k /\ k_sha256s (stamp now k) = k_sha256s k /\ k_certs (stamp now k) = k_certs k).
  { unfold stamp. destruct (k_date k =? 0); cbn [k_version k_date k_flags k_comment k_keys k_sha1s k_sha256s k_certs]; auto 10. }
  destruct Hs as (Z1 & Z2 & Z3 & Z4 & Z5 & Z6 & Z7 & Z8). cbv zeta in H. rewrite Z1, Z3, Z4, Z5, Z6, Z7, Z8 in H. set (date := k_date (stamp now k)) in *. set (comment := match k_comment k with Some c => c | None => [] end) in *.
  change (match k_comment k with None => [] | Some c => c end) with comment in H.
  apply put_section_some in H as (Sm3 & b3 & H & -> & Le3). apply put_section_some in H as (Sm2 & b2 & H & -> & Le2). apply put_section_some in H as (Sm1 & b1 & H & -> & Le1).
  apply put_certs_some in H as (b0 & c & H & -> & Cb).
  apply put_str_some in H as (Lc & h1 & H & ->). apply put_str_some in H as (_ & h2 & H & ->). unfold put_u64, put_u32 in H.
  apply put_some in H as (h3 & H & ->). apply put_some in H as (h4 & H & ->). apply put_some in H as (h5 & H & ->). apply put_some in H as (h6 & H & ->). apply put_some in H as (h7 & H & ->).
  assert (h7 = []) as -> by congruence. rewrite !(u64_id _) by assumption. rewrite (u32_id KRL_FORMAT_VERSION) by (vm_compute; intuition discriminate).
  assert (Part : forall t l, (if match l with [] => true | _ => false end then [] else be_enc 1 t ++ enc_string (enc_all l)) = blob_part t l) by (intros t [|]; reflexivity).
  change (u8 SECT_FINGERPRINT_SHA256) with SECT_FINGERPRINT_SHA256. change (u8 SECT_FINGERPRINT_SHA1) with SECT_FINGERPRINT_SHA1. change (u8 SECT_EXPLICIT_KEY) with SECT_EXPLICIT_KEY.
  rewrite !Part. rewrite app_nil_l. rewrite <- !app_assoc.
  set (rest := c ++ blob_part SECT_EXPLICIT_KEY (k_keys k) ++ blob_part SECT_FINGERPRINT_SHA1 (k_sha1s k) ++ blob_part SECT_FINGERPRINT_SHA256 (k_sha256s k)).
  assert (E : ssh_krl_from_blob kfb (KRL_MAGIC ++ be_enc 4 KRL_FORMAT_VERSION ++ be_enc 8 (k_version k) ++ be_enc 8 date ++ be_enc 8 (k_flags k) ++ enc_string [] ++ enc_string comment ++ rest) =
    parse_sections kfb (length rest) rest (mkK (k_version k) date (k_flags k) (Some comment) [] [] [] [])).
  { unfold ssh_krl_from_blob. rewrite ztake_app_exact, zdrop_app_exact by reflexivity. rewrite beqb_refl. cbn [negb].
    rewrite get_int_enc by (vm_compute; intuition discriminate). rewrite Z.eqb_refl. cbn [negb]. rewrite !get_int_enc by (change (256 ^ Z.of_nat 8) with U64; assumption).
    rewrite get_str_enc by (change (zlen (@nil Z)) with 0; lia). rewrite get_cstr_enc; [reflexivity|exact Lc|]. unfold comment. destruct (k_comment k); [exact Hc|intros []]. }
  rewrite E. clear E. set (k0 := mkK (k_version k) date (k_flags k) (Some comment) [] [] [] []).
  destruct W as [ND Wf]. destruct (certs_then _ _ Cb (length rest) (blob_part SECT_EXPLICIT_KEY (k_keys k) ++ blob_part SECT_FINGERPRINT_SHA1 (k_sha1s k) ++ blob_part SECT_FINGERPRINT_SHA256 (k_sha256s k)) k0)
    as [(k1 & f1 & E1 & F1 & X1)|[Sp E1]]; [unfold rest; lia|exact Wf|split; constructor|exact R| |]; fold rest in E1.
  2:{ right. split; [exact Sp|exact E1]. }
  left. rewrite E1.
  destruct (blob_then SECT_EXPLICIT_KEY (k_keys k) (blob_part SECT_FINGERPRINT_SHA1 (k_sha1s k) ++ blob_part SECT_FINGERPRINT_SHA256 (k_sha256s k)) f1 k1 k_keys with_keys 0)
    as (t2 & f2 & E2 & F2 & Q2); [vm_compute; intuition discriminate|discriminate|exact Sm1|exact Le1|now left|reflexivity|now destruct k1|exact F1|]. rewrite E2.
  destruct (blob_then SECT_FINGERPRINT_SHA1 (k_sha1s k) (blob_part SECT_FINGERPRINT_SHA256 (k_sha256s k)) f2 (with_keys t2 k1) k_sha1s with_sha1s 20)
    as (t3 & f3 & E3 & F3 & Q3); [vm_compute; intuition discriminate|discriminate|exact Sm2|exact Le2|now right|reflexivity|now destruct k1|exact F2|]. rewrite E3.
  destruct (blob_then SECT_FINGERPRINT_SHA256 (k_sha256s k) [] f3 (with_sha1s t3 (with_keys t2 k1)) k_sha256s with_sha256s 32)
    as (t4 & f4 & E4 & F4 & Q4); [vm_compute; intuition discriminate|discriminate|exact Sm3|exact Le3|now right|reflexivity|now destruct k1|now rewrite app_nil_r|]. rewrite app_nil_r in E4. rewrite E4.
  destruct X1 as [X1 X2 X3 X4]. eexists. split; [destruct f4; reflexivity|].
  assert (K1 : k_keys k1 = [] /\ k_sha1s k1 = [] /\ k_sha256s k1 = [] /\ k_version k1 = k_version k /\ k_date k1 = date /\ k_flags k1 = k_flags k /\ k_comment k1 = Some comment).
  { rewrite X2. unfold k0, with_certs. cbn [k_keys k_sha1s k_sha256s k_version k_date k_flags k_comment]. auto 10. }
  destruct K1 as (K1 & K2 & K3 & K4 & K5 & K6 & K7).
  cbn [with_keys with_sha1s with_sha256s k_keys k_sha1s k_sha256s k_version k_date k_flags k_comment k_certs]. split; [exact X1|]. split; [|auto].
  unfold same_content. cbn [with_keys with_sha1s with_sha256s k_keys k_sha1s k_sha256s k_certs] in *. rewrite K1 in Q2. rewrite K2 in Q3. rewrite K3 in Q4.
  split; [intros x; rewrite Q2; cbn [In]; tauto|]. split; [intros x; rewrite Q3; cbn [In]; tauto|]. split; [intros x; rewrite Q4; cbn [In]; tauto|].
  split; intros ca x; [rewrite X3|rewrite X4]; (split; [now right|]); (intros [(rc & [] & _)|Hx]; exact Hx).
Qed.
End R.
