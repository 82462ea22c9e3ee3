From Coq Require Import String.
From Verif Require Import Base Bits SshbufModel SshbufSpec SshbufProof WireSpec WireProof Dec MiscNumModel AuthOptModel AuthOptProof BitmapModel BitmapSpec BitmapProof KrlModel KrlSpec KrlProof KrlProof2 KrlProof3 KrlProof4.
Local Open Scope Z_scope.

(** ** Reading always ends *)
Lemma zdrop_shorter : forall (l : list Z) n, (length (zdrop n l) <= length l)%nat.
Proof. intros l n. unfold zdrop. rewrite skipn_length. lia. Qed.
Lemma get_int_shorter : forall w l v r, (0 < w)%nat -> get_int w l = Some (v, r) -> (length r < length l)%nat.
Proof. intros w l v r W H. unfold get_int in H. destruct (zlen l <? Z.of_nat w) eqn:E; [discriminate|]. injection H as _ <-. unfold zdrop. rewrite skipn_length. unfold zlen in E. lia. Qed.
Lemma get_str_shorter : forall l v r, get_str l = Some (v, r) -> (length r < length l)%nat.
Proof.
  intros l v r H. unfold get_str, dec_string in H. destruct (zlen l <? 4) eqn:E; [discriminate|]. cbv zeta in H.
  destruct (SSHBUF_SIZE_MAX - 4 <? _); [discriminate|]. destruct (zlen (zdrop 4 l) <? _); [discriminate|].
  assert (r = zdrop (be_dec (ztake 4 l)) (zdrop 4 l)) as -> by congruence. unfold zdrop. rewrite !skipn_length. unfold zlen in E. lia.
Qed.
Lemma get_cstr_shorter : forall l v r, get_cstr l = Some (v, r) -> (length r < length l)%nat.
Proof. intros l v r H. apply get_cstr_str in H as (v' & H & _). now apply get_str_shorter in H. Qed.

Ltac fuel_loop := match goal with |- context [match ?s with [] => _ | _ :: _ => _ end] => destruct s as [|? ?] eqn:?; [discriminate|] end.
Lemma parse_list_fuel : forall fuel ca s k, (length s <= fuel)%nat -> parse_list fuel ca s k <> PFuel.
Proof.
  induction fuel as [|f IH]; intros ca s k F; destruct s as [|c s0] eqn:Es; cbn [parse_list length] in *; try discriminate; [lia|]. rewrite <- Es in *.
  destruct (get_int 8 s) as [[v r]|] eqn:E; [|discriminate]. apply get_int_shorter in E; [|lia]. destruct (ssh_krl_revoke_cert_by_serial k ca v); [|discriminate]. apply IH. subst s. cbn [length] in E. lia.
Qed.
Lemma parse_ids_fuel : forall fuel ca s k, (length s <= fuel)%nat -> parse_ids fuel ca s k <> PFuel.
Proof.
  induction fuel as [|f IH]; intros ca s k F; destruct s as [|c s0] eqn:Es; cbn [parse_ids length] in *; try discriminate; [lia|]. rewrite <- Es in *.
  destruct (get_cstr s) as [[v r]|] eqn:E; [|discriminate]. apply get_cstr_shorter in E. apply IH. subst s. cbn [length] in E. lia.
Qed.
Lemma parse_bits_fuel : forall n ca b lo i k, parse_bits n ca b lo i k <> PFuel.
Proof.
  induction n as [|n IH]; intros ca b lo i k; cbn [parse_bits]; [discriminate|]. destruct (_ && _); [discriminate|]. destruct (bitmap_test_bit b (u32 i)) as [[|]|]; [|apply IH|discriminate].
  destruct (ssh_krl_revoke_cert_by_serial k ca (u64 (lo + i))); [apply IH|discriminate].
Qed.
Lemma parse_sub_fuel : forall ca t s k, parse_sub ca t s k <> PFuel.
Proof.
  intros ca t s k. unfold parse_sub. destruct (t =? CERT_SERIAL_LIST); [apply parse_list_fuel; lia|]. destruct (t =? CERT_SERIAL_RANGE).
  { destruct (get_int 8 s) as [[lo s1]|]; [|discriminate]. destruct (get_int 8 s1) as [[hi s2]|]; [|discriminate]. destruct (ssh_krl_revoke_cert_by_serial_range k ca lo hi); [|discriminate]. now destruct (0 <? zlen s2). }
  destruct (t =? CERT_SERIAL_BITMAP).
  { destruct (get_int 8 s) as [[lo s1]|]; [|discriminate]. destruct (get_bignum s1) as [[v s2]|]; [|discriminate]. destruct (bitmap_from_string true bitmap_new v) as [[[|] b]|]; try discriminate.
    destruct (bitmap_nbits b) as [[n b']|]; [|discriminate]. pose proof (parse_bits_fuel (Z.to_nat n) ca b' lo 0 k). destruct (parse_bits (Z.to_nat n) ca b' lo 0 k); [now destruct (0 <? zlen s2)|discriminate|congruence]. }
  destruct (t =? CERT_KEY_ID); [apply parse_ids_fuel; lia|]. destruct (t =? CERT_EXTENSION); [now destruct (extension_ok s)|discriminate].
Qed.
Lemma parse_subs_fuel : forall fuel ca s k, (length s <= fuel)%nat -> parse_subs fuel ca s k <> PFuel.
Proof.
  induction fuel as [|f IH]; intros ca s k F; destruct s as [|c s0] eqn:Es; cbn [parse_subs length] in *; try discriminate; [lia|]. rewrite <- Es in *.
  destruct (get_int 1 s) as [[t s1]|] eqn:E; [|discriminate]. apply get_int_shorter in E; [|lia]. destruct (get_str s1) as [[v s2]|] eqn:E2; [|discriminate]. apply get_str_shorter in E2.
  pose proof (parse_sub_fuel ca t v k). destruct (parse_sub ca t v k); [|discriminate|congruence]. apply IH. subst s. cbn [length] in E. lia.
Qed.
Lemma blob_section_fuel : forall fuel s t e, (length s <= fuel)%nat -> blob_section fuel s t e <> PFuel.
Proof.
  induction fuel as [|f IH]; intros s t e F; destruct s as [|c s0] eqn:Es; cbn [blob_section length] in *; try discriminate; [lia|]. rewrite <- Es in *.
  destruct (get_str s) as [[v r]|] eqn:E; [|discriminate]. apply get_str_shorter in E. destruct (_ && _); [discriminate|]. apply IH. subst s. cbn [length] in E. lia.
Qed.
Section R.
Variable kfb : list Z -> option (list Z).
Lemma parse_section_fuel : forall t s k, parse_section kfb t s k <> PFuel.
Proof.
  intros t s k. unfold parse_section. destruct (t =? SECT_CERTIFICATES).
  { unfold parse_revoked_certs. destruct (get_str s) as [[b s1]|]; [|discriminate]. destruct (get_str s1) as [[r s2]|]; [|discriminate]. destruct (zlen b =? 0); [apply parse_subs_fuel; lia|].
    destruct (kfb b); [apply parse_subs_fuel; lia|discriminate]. }
  assert (B : forall t' e, blob_section (length s) s t' e <> PFuel) by (intros; apply blob_section_fuel; lia).
  destruct (t =? SECT_EXPLICIT_KEY); [specialize (B (k_keys k) 0); destruct (blob_section _ _ _ _); congruence|].
  destruct (t =? SECT_FINGERPRINT_SHA1); [specialize (B (k_sha1s k) 20); destruct (blob_section _ _ _ _); congruence|].
  destruct (t =? SECT_FINGERPRINT_SHA256); [specialize (B (k_sha256s k) 32); destruct (blob_section _ _ _ _); congruence|].
  destruct (t =? SECT_EXTENSION); [now destruct (extension_ok s)|discriminate].
Qed.
Lemma parse_sections_fuel : forall fuel s k, (length s <= fuel)%nat -> parse_sections kfb fuel s k <> PFuel.
Proof.
  induction fuel as [|f IH]; intros s k F; destruct s as [|c s0] eqn:Es; cbn [parse_sections length] in *; try discriminate; [lia|]. rewrite <- Es in *.
  destruct (get_int 1 s) as [[t s1]|] eqn:E; [|discriminate]. apply get_int_shorter in E; [|lia]. destruct (get_str s1) as [[v s2]|] eqn:E2; [|discriminate]. apply get_str_shorter in E2.
  assert (length s = S (length s0)) by now subst s. destruct (t =? SECT_SIGNATURE).
  - destruct (get_str s2) as [[w s3]|] eqn:E3; [|discriminate]. apply get_str_shorter in E3. apply IH. lia.
  - pose proof (parse_section_fuel t v k). destruct (parse_section kfb t v k); [|discriminate|congruence]. apply IH. lia.
Qed.
Lemma from_blob_fuel : forall b, ssh_krl_from_blob kfb b <> PFuel.
Proof.
  intros b. unfold ssh_krl_from_blob. destruct (negb _); [discriminate|]. destruct (get_int 4 (zdrop 8 b)) as [[f s]|]; [|discriminate]. destruct (negb _); [discriminate|].
  destruct (get_int 8 s) as [[v s1]|]; [|discriminate]. destruct (get_int 8 s1) as [[d1 s2]|]; [|discriminate]. destruct (get_int 8 s2) as [[fl s3]|]; [|discriminate].
  destruct (get_str s3) as [[r s4]|]; [|discriminate]. destruct (get_cstr s4) as [[cm s5]|]; [|discriminate]. apply parse_sections_fuel. lia.
Qed.
End R.

(** The CA keys of the list all come from the calls. *)
Lemma update_ca : forall (C : option (list Z) -> Prop) ca f l, keeps_ca f -> C ca -> Forall (fun rc => C (rc_ca rc)) l -> Forall (fun rc => C (rc_ca rc)) (certs_update ca f l).
Proof.
  intros C ca f l K Ca. induction l as [|x l IH]; intros H; cbn [certs_update].
  - constructor; [rewrite K; exact Ca|constructor].
  - inversion H as [|? ? H1 H2]; subst. destruct (ca_eqb ca (rc_ca x)); constructor; auto. now rewrite K.
Qed.
Lemma runs_ca : forall (C : option (list Z) -> Prop) ops, Forall (fun o => C (op_ca o)) ops -> Forall (fun rc => C (rc_ca rc)) (k_certs (kruns ssh_krl_init ops)).
Proof.
  intros C ops. pattern ops. apply rev_ind; [intros _; constructor|]. intros o l IH F. apply Forall_app in F as [F1 F2]. specialize (IH F1). inversion F2 as [|? ? Co _]; subst.
  unfold kruns in *. rewrite fold_left_app. cbn [fold_left]. set (k := fold_left kstep l ssh_krl_init) in *. clearbody k.
  assert (Ser : forall ca lo hi, C ca -> Forall (fun rc => C (rc_ca rc)) (k_certs (or_same k (ssh_krl_revoke_cert_by_serial_range k ca lo hi)))).
  { intros ca lo hi Cc. unfold ssh_krl_revoke_cert_by_serial_range. destruct (_ || _); [exact IH|]. apply update_ca; [intros rc; reflexivity|exact Cc|exact IH]. }
  assert (Id : forall ca i, C ca -> Forall (fun rc => C (rc_ca rc)) (k_certs (ssh_krl_revoke_cert_by_key_id k ca i))).
  { intros ca i Cc. apply update_ca; [intros rc; reflexivity|exact Cc|exact IH]. }
  destruct o as [v|c|ca lo hi|ca id|q|h|h|q]; cbn [op_ca] in Co; cbn [kstep]; try exact IH.
  - now apply Ser.
  - now apply Id.
  - unfold ssh_krl_revoke_key_explicit. now destruct (q_plain q).
  - unfold ssh_krl_revoke_key_sha1. now destruct (negb _).
  - unfold ssh_krl_revoke_key_sha256. now destruct (negb _).
  - unfold ssh_krl_revoke_key. destruct (q_cert q) as [[[serial id] cak]|]; [|unfold ssh_krl_revoke_key_explicit; now destruct (q_plain q)].
    destruct (serial =? 0); [now apply Id|now apply Ser].
Qed.

(** ** A list that is written but cannot be read: every second serial *)
Definition alt (i n : nat) : list (Z * Z) := map (fun j => (2 * Z.of_nat j + 2, 2 * Z.of_nat j + 2)) (seq i n).
Definition every_second (n : nat) : list kop := map (fun j => KSerials None (2 * Z.of_nat j + 2) (2 * Z.of_nat j + 2)) (seq 0 n).
Lemma alt_snoc : forall n, alt 0 (S n) = alt 0 n ++ [(2 * Z.of_nat n + 2, 2 * Z.of_nat n + 2)].
Proof. intros n. unfold alt. rewrite seq_S, map_app. reflexivity. Qed.
Lemma alt_chain : forall n i, 2 * Z.of_nat (i + n) + 2 < U64 -> chain (2 * Z.of_nat i + 2) (alt i n).
Proof.
  induction n as [|n IH]; intros i B; cbn [alt seq map chain fst snd]; [exact I|]. split; [lia|]. split; [lia|]. split; [lia|].
  apply (chain_weaken _ (2 * Z.of_nat (S i) + 2)); [lia|]. apply IH. lia.
Qed.
Lemma every_second_runs : forall n, 2 * Z.of_nat n + 2 < U64 -> (0 < n)%nat -> kruns ssh_krl_init (every_second n) = mkK 0 0 0 None [] [] [] [mkRC None (alt 0 n) []].
Proof.
  induction n as [|n IH]; intros B P; [lia|]. unfold every_second. rewrite seq_S, map_app. unfold kruns. rewrite fold_left_app. fold (every_second n). fold (kruns ssh_krl_init (every_second n)).
  destruct (Nat.eq_dec n 0) as [-> |Pn]; [reflexivity|]. rewrite IH by lia. cbn [map fold_left kstep]. rewrite Nat.add_0_l.
  unfold ssh_krl_revoke_cert_by_serial_range. replace ((2 * Z.of_nat n + 2 <? 2 * Z.of_nat n + 2) || (2 * Z.of_nat n + 2 =? 0)) with false by (clear; lia). cbn [or_same k_certs certs_update ca_eqb rc_ca rc_serials rc_ids with_certs k_version k_date k_flags k_comment k_keys k_sha1s k_sha256s].
  unfold with_certs. cbn [k_version k_date k_flags k_comment k_keys k_sha1s k_sha256s]. do 3 f_equal. destruct (insert_spec 0 (alt 0 n) 1 (2 * Z.of_nat n + 2) (2 * Z.of_nat n + 2)) as [C1 C2]; [apply (chain_weaken _ 2); [lia|apply (alt_chain n 0); cbn [Nat.add]; lia]|lia|lia|].
  apply (chain_unique _ _ 1 1 C1); [apply (chain_weaken _ 2); [lia|apply (alt_chain (S n) 0); cbn [Nat.add]; lia]|]. intros s. rewrite C2, alt_snoc, inr_app, inr_cons. cbn [fst snd]. split; [intros [H|H]; auto|].
  intros [H|[H|H]]; auto. now apply inr_nil in H.
Qed.
Lemma hd_alt : forall i n, hd_error (alt i n) = None \/ exists m, hd_error (alt i n) = Some (2 * Z.of_nat i + 2, m).
Proof. intros i [|n]; cbn; [now left|right; eauto]. Qed.
Lemma alt_rounds : forall n i g b N, 2 * Z.of_nat (i + n) <= 16777216 -> (0 < i)%nat ->
  g = mkG CERT_SERIAL_BITMAP (g_sect g) (Some b) 2 (2 * Z.of_nat i) (g_buf g) -> inv b N -> N <> 0 -> Z.log2 N = 2 * (Z.of_nat i - 1) ->
  exists b' N', gen_rounds g (alt i n) = Some (mkG CERT_SERIAL_BITMAP (g_sect g) (Some b') 2 (2 * Z.of_nat (i + n)) (g_buf g)) /\ inv b' N' /\ N' <> 0 /\ Z.log2 N' = 2 * (Z.of_nat (i + n) - 1) /\ (Z.testbit N 0 = true -> Z.testbit N' 0 = true).
Proof.
  induction n as [|n IH]; intros i g b N B P E I Nz L.
  - exists b, N. cbn [alt seq map gen_rounds]. rewrite Nat.add_0_r. rewrite <- E. auto.
  - cbn [alt seq map gen_rounds]. fold (alt (S i) n). set (v := 2 * Z.of_nat i + 2).
    assert (N0 : 0 <= N) by (destruct I as (_ & W & V & _); rewrite <- V; now apply val_nonneg).
    destruct (set_spec true b N (2 * Z.of_nat i) I) as (ok & b1 & Es & Q); [unfold U32; lia|]. destruct ok; [|destruct Q as [[Q|Q] _]; [change LIM with 16777216 in Q; lia|discriminate]].
    destruct Q as [_ Q].
    assert (R : gen_round g (v, v) (hd_error (alt (S i) n)) = Some (mkG CERT_SERIAL_BITMAP (g_sect g) (Some b1) 2 v (g_buf g))).
    { rewrite E. unfold gen_round. cbn [fst snd g_state g_sect g_bm g_start g_last g_buf]. cbv zeta.
      assert (C1 : u64 (1 + (v - v)) = 1) by (rewrite Z.sub_diag; reflexivity). rewrite C1.
      assert (C2 : u64 (v - 2 * Z.of_nat i) = 2) by (unfold v; replace (2 * Z.of_nat i + 2 - 2 * Z.of_nat i) with 2 by lia; reflexivity). rewrite C2.
      change (CERT_SERIAL_BITMAP =? 0) with false. cbv iota.
      match goal with |- context [choose_next_state ?a ?x ?c ?y ?e] => assert (C3 : choose_next_state a x c y e = (CERT_SERIAL_BITMAP, false)) end.
      { destruct (hd_alt (S i) n) as [H|(m & H)]; rewrite H; [reflexivity|]. cbn [fst]. replace (2 * Z.of_nat (S i) + 2 - v) with 2 by (unfold v; lia). reflexivity. }
      rewrite C3. change (CERT_SERIAL_BITMAP =? CERT_SERIAL_BITMAP) with true. change (CERT_SERIAL_BITMAP =? CERT_SERIAL_LIST) with false. change (CERT_SERIAL_BITMAP =? CERT_SERIAL_RANGE) with false. cbn [negb andb orb]. cbv iota.
      rewrite (u64_id (v - 2)) by (unfold v, U64; lia). replace (INT_MAX <? v - 2) with false by (change INT_MAX with 2147483647; unfold v; lia).
      change (Z.to_nat 1) with 1%nat. cbn [set_bits]. replace (v + 0 - 2) with (2 * Z.of_nat i) by (unfold v; lia). rewrite u64_id by (unfold U64; lia). rewrite u32_id by (unfold U32; lia). rewrite Es. reflexivity. }
    rewrite R. assert (T : forall x, 0 <= x -> Z.testbit (Z.setbit N (2 * Z.of_nat i)) x = (2 * Z.of_nat i =? x) || Z.testbit N x) by (intros x Hx; apply Z.setbit_eqb; lia).
    destruct (log2_char (Z.setbit N (2 * Z.of_nat i)) (2 * Z.of_nat i)) as [D1 D2]; [destruct Q as (_ & W & V & _); rewrite <- V; now apply val_nonneg|lia|rewrite T by lia; now rewrite Z.eqb_refl| |].
    { intros x Hx. rewrite T by lia. replace (2 * Z.of_nat i =? x) with false by lia. cbn [orb]. apply Z.bits_above_log2; lia. }
    destruct (IH (S i) (mkG CERT_SERIAL_BITMAP (g_sect g) (Some b1) 2 v (g_buf g)) b1 (Z.setbit N (2 * Z.of_nat i))) as (b' & N' & R2 & I2 & Nz2 & L2 & T2).
    + lia.
    + lia.
    + cbn [g_sect g_buf]. f_equal. unfold v. lia.
    + exact Q.
    + exact D1.
    + rewrite D2. lia.
    + exists b', N'. cbn [g_sect g_buf] in R2. rewrite R2. replace (S i + n)%nat with (i + S n)%nat in * by lia. split; [reflexivity|]. split; [exact I2|]. split; [exact Nz2|]. split; [exact L2|].
      intros T0. apply T2. rewrite T by lia. now rewrite T0, Bool.orb_true_r.
Qed.
Lemma put_ok : forall x b, zlen b + zlen x <= 134217728 -> put x (Some b) = Some (b ++ x).
Proof. intros x b H. unfold put. change SSHBUF_SIZE_MAX with 134217728. replace (134217728 <? zlen b + zlen x) with false by lia. reflexivity. Qed.
Lemma zlen_enc_string : forall x, zlen (enc_string x) = 4 + zlen x.
Proof. intros x. unfold enc_string. rewrite zlen_app, zlen_be_enc. lia. Qed.
Lemma put_str_ok : forall x b, zlen b + 4 + zlen x <= 134217728 -> put_str x (Some b) = Some (b ++ enc_string x).
Proof.
  intros x b H. unfold put_str. change (SSHBUF_SIZE_MAX - 4) with 134217724. pose proof (zlen_nonneg Z b). replace (134217724 <? zlen x) with false by lia. apply put_ok. rewrite zlen_enc_string. lia.
Qed.
Lemma alt_generates : forall n, (1 < n)%nat -> 2 * Z.of_nat n <= 16777216 ->
  exists N, revoked_certs_generate (mkRC None (alt 0 n) []) = Some (enc_string [] ++ enc_string [] ++ enc_sub (SubBits 2 N)) /\ sub_ok (SubBits 2 N) /\ Z.log2 N = 2 * (Z.of_nat n - 1) /\ zlen (enc_sub (SubBits 2 N)) <= 3000000.
Proof.
  intros n P B. destruct n as [|n]; [lia|]. unfold revoked_certs_generate. cbn [rc_ca rc_serials rc_ids]. change (put_str [] (put_str [] (Some []))) with (Some (enc_string [] ++ enc_string [])). cbv iota.
  set (hdr := enc_string [] ++ enc_string []). cbn [alt seq map gen_rounds]. fold (alt 1 n).
  destruct (set_spec true bitmap_new 0 0 inv_new) as (ok & b1 & Es & Q); [unfold U32; lia|]. destruct ok; [|destruct Q as [[Q|Q] _]; discriminate]. destruct Q as [_ Q].
  change (Z.setbit 0 0) with 1 in Q.
  assert (R : gen_round (mkG 0 [] None 0 0 hdr) (2 * Z.of_nat 0 + 2, 2 * Z.of_nat 0 + 2) (hd_error (alt 1 n)) = Some (mkG CERT_SERIAL_BITMAP (be_enc 8 2) (Some b1) 2 2 hdr)).
  { unfold gen_round. cbn [fst snd g_state g_sect g_bm g_start g_last g_buf]. cbv zeta. change (2 * Z.of_nat 0 + 2) with 2. change (u64 (1 + (2 - 2))) with 1. change (0 =? 0) with true. cbv iota.
    match goal with |- context [choose_next_state ?a ?x ?c ?y ?e] => assert (C3 : choose_next_state a x c y e = (CERT_SERIAL_BITMAP, false)) end.
    { destruct n as [|n]; [lia|]. reflexivity. }
    rewrite C3. change (CERT_SERIAL_BITMAP =? 0) with false. change (CERT_SERIAL_BITMAP =? CERT_SERIAL_BITMAP) with true. change (CERT_SERIAL_BITMAP =? CERT_SERIAL_LIST) with false. change (CERT_SERIAL_BITMAP =? CERT_SERIAL_RANGE) with false. cbn [negb andb orb]. cbv iota.
    change (put_u64 2 (Some [])) with (Some (be_enc 8 2)). cbv iota. change (u64 (2 - 2)) with 0. change (INT_MAX <? 0) with false. cbv iota. change (Z.to_nat 1) with 1%nat. cbn [set_bits]. change (u32 (u64 (2 + 0 - 2))) with 0. rewrite Es. reflexivity. }
  rewrite R. destruct (alt_rounds n 1 (mkG CERT_SERIAL_BITMAP (be_enc 8 2) (Some b1) 2 2 hdr) b1 1) as (b' & N' & R2 & I2 & Nz & L2 & T2); [lia|lia|reflexivity|exact Q|lia|reflexivity|].
  cbn [g_sect g_buf] in R2. rewrite R2. cbn [g_state]. change (CERT_SERIAL_BITMAP =? 0) with false. cbv iota.
  assert (N0 : 0 <= N') by (destruct I2 as (_ & W & V & _); rewrite <- V; now apply val_nonneg). assert (Np : 0 < N') by lia.
  destruct (bits_blob N' Np) as (V1 & V2 & V3 & V4). set (v := be_enc (Z.to_nat (bytes_of N')) N') in *.
  assert (Bv : bytes_of N' <= 2097153). { rewrite bytes_of_pos by assumption. rewrite L2. assert ((2 * (Z.of_nat (1 + n) - 1) + 8) / 8 < 2097154); [|lia]. apply Z.div_lt_upper_bound; lia. }
  assert (Mb : zlen (mpint_body v) <= 2097154). { unfold mpint_body. rewrite strip0_id by exact V3. cbv zeta. destruct (msb v); [rewrite zlen_cons|]; lia. }
  assert (Ml : zlen (enc_mpint v) <= 2097158) by (unfold enc_mpint; rewrite zlen_enc_string; lia).
  assert (Lb : zlen (sub_body (SubBits 2 N')) <= 2097166) by (cbn [sub_body]; fold v; rewrite zlen_app, zlen_be_enc; lia).
  unfold flush. cbn [g_state g_sect g_bm g_buf]. rewrite Z.eqb_refl. unfold put_bitmap. destruct (nbytes_spec b' N' I2) as (b2 & E2 & I3 & _ & B0 & _). rewrite E2.
  destruct (to_string_spec b2 N' (repeat 0 (Z.to_nat (bytes_of N'))) I3) as (b3 & ok & p' & E3 & _ & Q3).
  assert (Lr : zlen (repeat 0 (Z.to_nat (bytes_of N'))) = bytes_of N') by (unfold zlen; rewrite repeat_length; lia).
  rewrite Lr, Z.ltb_irrefl in Q3. destruct Q3 as [-> ->]. rewrite E3. rewrite zdrop_all, app_nil_r by lia. fold v.
  unfold put_bignum. change (SSHBUF_SIZE_MAX - 5) with 134217723. replace (134217723 <? zlen v) with false by lia. rewrite put_ok by (rewrite zlen_be_enc; lia).
  change (put_u8 CERT_SERIAL_BITMAP (Some hdr)) with (Some (hdr ++ be_enc 1 CERT_SERIAL_BITMAP)).
  change (be_enc 8 2 ++ enc_mpint v) with (sub_body (SubBits 2 N')). set (body := sub_body (SubBits 2 N')) in *.
  assert (Lh : zlen (hdr ++ be_enc 1 CERT_SERIAL_BITMAP) = 9) by reflexivity.
  rewrite put_str_ok by lia. cbn [put_strs put_section]. exists N'. split; [|split; [|split]].
  - unfold enc_sub. cbn [sub_type]. fold body. unfold hdr. now rewrite <- !app_assoc.
  - split; [|unfold body in Lb; lia]. cbn [sub_body]. unfold bits_ok. rewrite L2. split; [lia|]. split; [lia|]. split; [apply T2; reflexivity|]. split; [lia|unfold U64; lia].
  - rewrite L2. lia.
  - unfold enc_sub. rewrite zlen_app, zlen_be_enc, zlen_enc_string. fold body. lia.
Qed.
Lemma alt_unreadable : forall kfb now n, 8193 <= Z.of_nat n -> 2 * Z.of_nat n <= 16777216 -> 0 <= now < U64 ->
  exists b, ssh_krl_to_blob now (kruns ssh_krl_init (every_second n)) = Some b /\ ssh_krl_from_blob kfb b = PErr.
Proof.
  intros kfb now n B1 B2 Hn. rewrite every_second_runs by (unfold U64; lia). destruct (alt_generates n) as (N & G & Ok & L & Sz); [lia|lia|].
  set (sect := enc_string [] ++ enc_string [] ++ enc_sub (SubBits 2 N)) in *.
  assert (Ls : zlen sect <= 3000008) by (unfold sect; rewrite !zlen_app, !zlen_enc_string; change (zlen (@nil Z)) with 0; lia).
  set (hdr := KRL_MAGIC ++ be_enc 4 KRL_FORMAT_VERSION ++ be_enc 8 0 ++ be_enc 8 now ++ be_enc 8 0 ++ enc_string [] ++ enc_string []).
  assert (Lh : zlen hdr = 44). { unfold hdr. rewrite !zlen_app, !zlen_be_enc. reflexivity. }
  exists (hdr ++ be_enc 1 SECT_CERTIFICATES ++ enc_string sect). split.
  - unfold ssh_krl_to_blob. cbv zeta. unfold stamp. cbn [k_date k_version k_flags k_comment k_keys k_sha1s k_sha256s k_certs Z.eqb put_strs put_section put_certs]. rewrite G.
    unfold put_u64, put_u32. rewrite (u64_id 0) by (unfold U64; lia). rewrite (u64_id now) by assumption. change (u32 KRL_FORMAT_VERSION) with KRL_FORMAT_VERSION.
    assert (H7 : put_str [] (put_str [] (put (be_enc 8 0) (put (be_enc 8 now) (put (be_enc 8 0) (put (be_enc 4 KRL_FORMAT_VERSION) (put KRL_MAGIC (Some []))))))) = Some hdr).
    { rewrite (put_ok KRL_MAGIC) by (change (zlen (@nil Z)) with 0; change (zlen KRL_MAGIC) with 8; lia). rewrite app_nil_l. assert (zlen KRL_MAGIC = 8) by reflexivity.
      repeat (rewrite put_ok; [|repeat (rewrite zlen_app || rewrite zlen_be_enc); lia]). repeat (rewrite put_str_ok; [|repeat (rewrite zlen_app || rewrite zlen_be_enc || rewrite zlen_enc_string); change (zlen (@nil Z)) with 0; lia]).
      unfold hdr. now rewrite <- !app_assoc. }
    rewrite H7. unfold put_u8. change (u8 SECT_CERTIFICATES) with SECT_CERTIFICATES. rewrite put_ok by (rewrite zlen_be_enc; lia). rewrite put_str_ok by (rewrite zlen_app, zlen_be_enc; lia). now rewrite <- app_assoc.
  - unfold ssh_krl_from_blob, hdr. rewrite <- !app_assoc. rewrite ztake_app_exact, zdrop_app_exact by reflexivity. rewrite beqb_refl. cbn [negb].
    rewrite get_int_enc by (vm_compute; intuition discriminate). rewrite Z.eqb_refl. cbn [negb]. rewrite get_int_enc by (vm_compute; intuition discriminate). rewrite get_int_enc by (change (256 ^ Z.of_nat 8) with U64; assumption). rewrite get_int_enc by (vm_compute; intuition discriminate).
    rewrite get_str_enc by (change (zlen (@nil Z)) with 0; lia). rewrite get_cstr_enc by (change (zlen (@nil Z)) with 0; lia || intros []).
    set (rest := be_enc 1 SECT_CERTIFICATES ++ enc_string sect).
    destruct (length rest) as [|f] eqn:Er; [exfalso; unfold rest in Er; rewrite app_length, be_enc_length in Er; lia|]. clear Er. rewrite <- (app_nil_r rest). unfold rest.
    rewrite parse_sections_cons; [|vm_compute; intuition discriminate|discriminate|lia]. unfold parse_section. rewrite Z.eqb_refl. unfold parse_revoked_certs, sect.
    rewrite get_str_enc by (change (zlen (@nil Z)) with 0; lia). rewrite get_str_enc by (change (zlen (@nil Z)) with 0; lia). change (zlen (@nil Z) =? 0) with true. cbv iota.
    destruct (length (enc_sub (SubBits 2 N))) as [|f2] eqn:Er; [exfalso; unfold enc_sub in Er; rewrite app_length, be_enc_length in Er; lia|]. clear Er. rewrite <- (app_nil_r (enc_sub _)). unfold enc_sub.
    rewrite parse_subs_cons; [|vm_compute; intuition discriminate|apply Ok].
    destruct (parse_sub_ok (SubBits 2 N) None (mkK 0 now 0 (Some []) [] [] [] [])) as [[Sm _]|[_ E]]; [split; constructor|exact I|exact Ok| |rewrite E; reflexivity].
    exfalso. cbn [sub_small] in Sm. destruct Ok as [Ok _]. destruct Ok as (_ & Np & _). rewrite bytes_of_pos in Sm by assumption. rewrite L in Sm.
    assert (2049 <= (2 * (Z.of_nat n - 1) + 8) / 8) by (apply Z.div_le_lower_bound; lia). lia.
Qed.
