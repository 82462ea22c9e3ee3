(** Proofs for C76: signature objects, their text form, and finding principals. *)
From Coq Require Import String.
From Verif Require Import Base Text SshbufModel SshbufSpec WireSpec MatchModel MatchSpec MatchProof MatchProps MiscNumModel AddrModel AddrProof AuthOptModel AuthOptSpec AuthOptProof Dec CertModel CertSpec CertProof Base64Model Base64Spec Base64Proof Base64Props SigModel SigSpec SigProof.
Local Open Scope Z_scope.

(** ** Buffers *)
Lemma put_iff : forall x b b', AuthOptModel.put x (Some b) = Some b' <-> b' = b ++ x /\ zlen b' <= 134217728.
Proof.
  intros x b b'. unfold AuthOptModel.put. change SSHBUF_SIZE_MAX with 134217728. destruct (134217728 <? zlen b + zlen x) eqn:E; split.
  - discriminate. - intros (-> & H). rewrite zlen_app in H. lia.
  - intros H. injection H as <-. rewrite zlen_app. split; [reflexivity|lia]. - now intros (-> & _).
Qed.
Lemma put_str_fits : forall x b b', put_str x (Some b) = Some b' <-> b' = b ++ enc_string x /\ zlen b' <= 134217728.
Proof.
  intros x b b'. unfold put_str. change (SSHBUF_SIZE_MAX - 4) with 134217724. destruct (134217724 <? zlen x) eqn:E; [|apply put_iff].
  split; [discriminate|]. intros (-> & H). rewrite zlen_app, zlen_enc_string in H. pose proof (zlen_nonneg _ b). lia.
Qed.
Lemma put_str_fits_m : forall x m b', put_str x m = Some b' <-> exists b, m = Some b /\ b' = b ++ enc_string x /\ zlen b' <= 134217728.
Proof.
  intros x [b|] b'.
  - rewrite put_str_fits. split; [intros H; exists b; auto|intros (b0 & E & H); now injection E as <-].
  - unfold put_str, AuthOptModel.put. split; [destruct (_ <? _); discriminate|intros (b & H & _); discriminate].
Qed.
Lemma tosign_iff : forall ns alg h d, tosign ns alg h = Some d <-> d = signed_data ns alg h /\ zlen d <= 134217728.
Proof.
  intros ns alg h d. unfold tosign, signed_data. rewrite put_str_fits_m. split.
  - intros (b & Hb & -> & L). apply put_str_fits_m in Hb as (b1 & Hb & -> & _). apply put_str_fits_m in Hb as (b2 & Hb & -> & _). apply put_str_fits_m in Hb as (b3 & Hb & -> & _).
    apply put_iff in Hb as (-> & _). cbn [app]. rewrite <- !app_assoc in *. split; [reflexivity|assumption].
  - intros (-> & L). pose proof (zlen_nonneg _ (enc_string h)). pose proof (zlen_nonneg _ (enc_string alg)). pose proof (zlen_nonneg _ (enc_string ns)). pose proof (zlen_nonneg _ (enc_string [])).
    rewrite !zlen_app in L. exists (bs "SSHSIG" ++ enc_string ns ++ enc_string [] ++ enc_string alg).
    rewrite <- !app_assoc. split; [|split; [reflexivity|rewrite !zlen_app; lia]].
    apply put_str_fits_m. exists (bs "SSHSIG" ++ enc_string ns ++ enc_string []). rewrite <- !app_assoc. split; [|split; [reflexivity|rewrite !zlen_app; lia]].
    apply put_str_fits_m. exists (bs "SSHSIG" ++ enc_string ns). rewrite <- !app_assoc. split; [|split; [reflexivity|rewrite !zlen_app; lia]].
    apply put_str_fits_m. exists (bs "SSHSIG"). split; [|split; [reflexivity|rewrite !zlen_app; lia]].
    apply put_iff. split; [reflexivity|vm_compute; discriminate].
Qed.
Lemma strip_iff : forall a l r, strip a l = Some r <-> l = a ++ r.
Proof.
  induction a as [|x a IH]; intros l r; cbn [strip app]; [split; [intros H; now injection H as ->|now intros ->]|].
  destruct l as [|y l]; [split; discriminate|]. destruct (x =? y) eqn:E.
  - assert (x = y) by lia. subst y. rewrite IH. split; [now intros ->|intros H; now injection H].
  - split; [discriminate|]. intros H. injection H as H _. lia.
Qed.
Lemma preamble_iff : forall l r, is_bytes l -> (parse_preamble l = Some r <-> exists v, l = bs "SSHSIG" ++ be_enc 4 v ++ r /\ 0 <= v <= 1).
Proof.
  intros l r Hb. unfold parse_preamble, MAGIC_PREAMBLE, SIG_VERSION. split.
  - destruct (strip (bs "SSHSIG") l) as [s|] eqn:E; [|discriminate]. apply strip_iff in E. subst l. apply Forall_app in Hb as (_ & Hb).
    destruct (get_int 4 s) as [[v s']|] eqn:G; [|discriminate]. apply get_int_spec in G as (-> & V & _); [|assumption]. destruct (1 <? v) eqn:V1; [discriminate|]. intros H. injection H as ->. exists v. split; [reflexivity|lia].
  - intros (v & -> & V). rewrite (proj2 (strip_iff _ _ _) eq_refl). rewrite get_int_enc by (change (256 ^ Z.of_nat 4) with 4294967296; lia). now replace (1 <? v) with false by lia.
Qed.
Lemma get_str_iff : forall l v r, is_bytes l -> (get_str l = Some (v, r) <-> l = enc_string v ++ r /\ zlen v <= 134217724).
Proof.
  intros l v r Hb. split; [intros H; apply get_str_spec in H as (-> & L & _); auto|]. intros (-> & L). now apply get_str_enc.
Qed.
Lemma get_str_of_cstr : forall l v r, get_cstr l = Some (v, r) -> exists d, get_str l = Some (d, r).
Proof.
  intros l v r H. unfold get_cstr, dec_cstring in H. unfold get_str. destruct (dec_string l) as [[d r']|]; [|discriminate]. destruct (nul_ok d); [|discriminate]. injection H as _ ->. now exists d.
Qed.
Lemma hashalg_iff : forall alg, check_hashalg alg = true <-> hash_ok alg.
Proof.
  intros alg. unfold check_hashalg. rewrite on_list_iff. unfold on_list, hash_ok.
  change (entries HASHALG_ALLOWED) with [bs "sha256"; bs "sha512"].
  assert (P : forall w s, Forall (fun c => c <> 42 /\ c <> 63) w -> glob w s -> s = w).
  { induction w as [|c w IH]; intros s F G; pose proof (fun x y => Forall_inv (P := fun c => c <> 42 /\ c <> 63) (a := x) (l := y)) as I1; inversion G; subst; [reflexivity| | |]; specialize (I1 _ _ F); cbv beta in I1; try lia. f_equal. apply IH; [now apply Forall_inv_tail in F|assumption]. }
  assert (Q : forall w, Forall (fun c => c <> 42 /\ c <> 63) w -> glob w w).
  { induction 1; [apply glob_end|]. apply glob_char; tauto. }
  assert (L1 : Forall (fun c => c <> 42 /\ c <> 63) (bs "sha256")) by (repeat constructor; vm_compute; discriminate).
  assert (L2 : Forall (fun c => c <> 42 /\ c <> 63) (bs "sha512")) by (repeat constructor; vm_compute; discriminate).
  split.
  - intros (_ & (e & [<-|[<-|[]]] & _ & G) & _); unfold covers, fold_case in G; apply P in G; auto.
  - intros H. split; [repeat constructor; unfold fits; vm_compute; lia|]. split.
    + destruct H as [-> | ->]; [exists (bs "sha256")|exists (bs "sha512")]; (split; [cbn; auto|split; [reflexivity|]]); unfold covers, fold_case; apply Q; assumption.
    + intros (e & [<-|[<-|[]]] & N & _); discriminate.
Qed.
Lemma rsa_ok_iff : forall sg, is_bytes sg -> (sig_alg_ok sg = true <-> rsa_ok sg).
Proof.
  intros sg Hb. unfold sig_alg_ok, rsa_ok, names_alg.
  assert (P : forall w s, Forall (fun c => c <> 42 /\ c <> 63) w -> glob w s -> s = w).
  { induction w as [|c w IH]; intros s F G; pose proof (fun x y => Forall_inv (P := fun c => c <> 42 /\ c <> 63) (a := x) (l := y)) as I1; inversion G; subst; [reflexivity| | |]; specialize (I1 _ _ F); cbv beta in I1; try lia. f_equal. apply IH; [now apply Forall_inv_tail in F|assumption]. }
  assert (Q : forall w, Forall (fun c => c <> 42 /\ c <> 63) w -> glob w w).
  { induction 1; [apply glob_end|]. apply glob_char; tauto. }
  assert (L1 : Forall (fun c => c <> 42 /\ c <> 63) (bs "rsa-sha2-256")) by (repeat constructor; vm_compute; discriminate).
  assert (L2 : Forall (fun c => c <> 42 /\ c <> 63) (bs "rsa-sha2-512")) by (repeat constructor; vm_compute; discriminate).
  assert (U : forall t, match match_pattern_list t RSA_SIGN_ALLOWED false with Some v => v =? 1 | None => false end = true <-> t = bs "rsa-sha2-256" \/ t = bs "rsa-sha2-512").
  { intros t. rewrite on_list_iff. unfold on_list. change (entries RSA_SIGN_ALLOWED) with [bs "rsa-sha2-512"; bs "rsa-sha2-256"]. split.
    - intros (_ & (e & [<-|[<-|[]]] & _ & G) & _); unfold covers, fold_case in G; apply P in G; auto.
    - intros H. split; [repeat constructor; unfold fits; vm_compute; lia|]. split.
      + destruct H as [-> | ->]; [exists (bs "rsa-sha2-256")|exists (bs "rsa-sha2-512")]; (split; [cbn; auto|split; [reflexivity|]]); unfold covers, fold_case; apply Q; assumption.
      + intros (e & [<-|[<-|[]]] & N & _); discriminate. }
  split.
  - destruct (get_cstr sg) as [[t r]|] eqn:G; [|discriminate]. apply get_cstr_iff in G as (w & C & ->); [|assumption]. rewrite U. intros [-> | ->]; [left|right]; eauto.
  - intros [(w & r & -> & C)|(w & r & -> & C)].
    + rewrite (proj2 (get_cstr_iff _ _ r Hb) (ex_intro _ w (conj C eq_refl))). rewrite U. auto.
    + rewrite (proj2 (get_cstr_iff _ _ r Hb) (ex_intro _ w (conj C eq_refl))). rewrite U. auto.
Qed.
Lemma slurp_iff : forall l m, slurp l = Some m <-> delivers l m.
Proof.
  unfold delivers. induction l as [|g l IH]; intros m; cbn [slurp flat_map].
  - split; [intros H; injection H as <-; auto|intros (_ & ->); reflexivity].
  - destruct g as [d| |].
    + split.
      * destruct (slurp l) as [x|] eqn:E; [|discriminate]. intros H. injection H as <-. destruct (proj1 (IH x) eq_refl) as (N & ->). split; [|reflexivity]. intros [H|H]; [discriminate|auto].
      * intros (N & ->). assert (X : slurp l = Some (flat_map (fun g => match g with GData d => d | _ => [] end) l)) by (apply IH; split; [|reflexivity]; intros H; apply N; now right). now rewrite X.
    + rewrite IH. cbn [app]. split; (intros (N & ->); split; [|reflexivity]).
      * intros [H|H]; [discriminate|auto]. * intros H. apply N. now right.
    + split; [discriminate|]. intros (N & _). exfalso. apply N. now left.
Qed.
Lemma bytes_app : forall a b, is_bytes (a ++ b) -> is_bytes a /\ is_bytes b.
Proof. intros a b H. apply Forall_app in H. exact H. Qed.

Section Ver.
Variable from_blob : list Z -> option pkey.
Variable rsa : pkey -> bool.
Variable ver : pkey -> list Z -> list Z -> bool.
Variable dig : list Z -> list Z -> list Z.
Lemma wrap_iff : forall w alg h ns k, is_bytes w -> (wrap_verify from_blob rsa ver w alg h ns = Some k <->
  exists v kb rsv sg, is_object w v kb ns rsv alg sg /\ from_blob kb = Some k /\ (rsa k = true -> rsa_ok sg) /\
    zlen (signed_data ns alg h) <= 134217728 /\ ver k sg (signed_data ns alg h) = true).
Proof.
  intros w alg h ns k Hb. unfold wrap_verify. split.
  - destruct (tosign ns alg h) as [d|] eqn:T; [|discriminate]. apply tosign_iff in T as (-> & L).
    destruct (parse_preamble w) as [l|] eqn:P; [|discriminate]. apply preamble_iff in P as (v & -> & V); [|assumption]. apply bytes_app in Hb as (_ & Hb). apply bytes_app in Hb as (_ & Hb).
    unfold bind. destruct (get_str l) as [[kb l1]|] eqn:G1; [|discriminate]. apply get_str_spec in G1 as (-> & L1 & _ & B1); [|assumption].
    destruct (from_blob kb) as [k0|] eqn:F; [|discriminate].
    destruct (get_cstr l1) as [[ns' l2]|] eqn:G2; [|discriminate]. apply get_cstr_iff in G2 as (w2 & C2 & ->); [|assumption]. apply bytes_app in B1 as (_ & B2).
    destruct (get_str l2) as [[rsv l3]|] eqn:G3; [|discriminate]. apply get_str_spec in G3 as (-> & L3 & _ & B3); [|assumption].
    destruct (get_cstr l3) as [[alg' l4]|] eqn:G4; [|discriminate]. apply get_cstr_iff in G4 as (w4 & C4 & ->); [|assumption]. apply bytes_app in B3 as (_ & B4).
    destruct (get_str l4) as [[sg l5]|] eqn:G5; [|discriminate]. apply get_str_spec in G5 as (-> & L5 & B5 & _); [|assumption].
    destruct l5; [|discriminate]. cbn [is_nil negb]. destruct (beqb ns ns') eqn:E1; [|discriminate]. destruct (beqb alg alg') eqn:E2; [|discriminate]. apply beqb_eq in E1, E2. subst ns' alg'. cbn [negb].
    destruct (rsa k0 && negb (sig_alg_ok sg)) eqn:R; [discriminate|]. destruct (ver k0 sg (signed_data ns alg h)) eqn:Ve; [|discriminate]. intros H. injection H as ->.
    exists v, kb, rsv, sg. splits; auto.
    + exists w2, w4. rewrite app_nil_r. splits; auto; lia.
    + intros Hr. apply rsa_ok_iff; [assumption|]. rewrite Hr in R. cbn [andb] in R. now destruct (sig_alg_ok sg).
  - intros (v & kb & rsv & sg & (wns & walg & -> & V & C1 & C2 & L1 & L2 & L3) & F & R & L & Ve). rewrite (proj2 (tosign_iff ns alg h _) (conj eq_refl L)).
    rewrite (proj2 (preamble_iff _ (enc_string kb ++ wns ++ enc_string rsv ++ walg ++ enc_string sg) Hb)) by (exists v; auto).
    apply bytes_app in Hb as (_ & Hb). apply bytes_app in Hb as (_ & Hb). apply bytes_app in Hb as (B1 & Hb).
    unfold bind. rewrite get_str_enc by assumption. rewrite F.
    rewrite (proj2 (get_cstr_iff _ ns (enc_string rsv ++ walg ++ enc_string sg) Hb)) by (exists wns; auto).
    apply bytes_app in Hb as (_ & Hb). rewrite get_str_enc by assumption. apply bytes_app in Hb as (_ & Hb).
    rewrite (proj2 (get_cstr_iff _ alg (enc_string sg) Hb)) by (exists walg; auto). apply bytes_app in Hb as (_ & Hb).
    rewrite <- (app_nil_r (enc_string sg)), get_str_enc by assumption. cbn [is_nil negb]. rewrite !beqb_refl. cbn [negb].
    assert (Bs : is_bytes sg). { unfold enc_string in Hb. apply bytes_app in Hb. tauto. }
    replace (rsa k && negb (sig_alg_ok sg)) with false. { now rewrite Ve. }
    destruct (rsa k) eqn:Er; [|reflexivity]. specialize (R eq_refl). apply rsa_ok_iff in R; [|assumption]. now rewrite R.
Qed.
Lemma peek_object : forall w v kb ns rsv alg sg, is_bytes w -> is_object w v kb ns rsv alg sg -> peek_hashalg w = Some alg.
Proof.
  intros w v kb ns rsv alg sg Hb (wns & walg & -> & V & C1 & C2 & L1 & L2 & L3). unfold peek_hashalg.
  rewrite (proj2 (preamble_iff _ (enc_string kb ++ wns ++ enc_string rsv ++ walg ++ enc_string sg) Hb)) by (exists v; auto).
  apply bytes_app in Hb as (_ & Hb). apply bytes_app in Hb as (_ & Hb). apply bytes_app in Hb as (B1 & Hb).
  unfold bind. rewrite get_str_enc by assumption.
  destruct (get_str_of_cstr (wns ++ enc_string rsv ++ walg ++ enc_string sg) ns (enc_string rsv ++ walg ++ enc_string sg)) as (d & ->). { apply get_cstr_iff; [assumption|]. exists wns; auto. }
  apply bytes_app in Hb as (_ & Hb). rewrite get_str_enc by assumption. apply bytes_app in Hb as (_ & Hb).
  rewrite (proj2 (get_cstr_iff _ alg (enc_string sg) Hb)) by (exists walg; auto). apply bytes_app in Hb as (_ & Hb).
  rewrite <- (app_nil_r (enc_string sg)), get_str_enc by assumption. reflexivity.
Qed.
Lemma verify_iff : forall w reads ns k, is_bytes w -> (verify_fd from_blob rsa ver dig w reads ns = Some k <->
  exists m, delivers reads m /\ signs from_blob rsa ver dig w k ns m).
Proof.
  intros w reads ns k Hb. unfold verify_fd, hash_file, signs. split.
  - destruct (peek_hashalg w) as [alg|]; [|discriminate]. destruct (negb (check_hashalg alg)) eqn:Ec; [discriminate|]. destruct (slurp reads) as [m|] eqn:Es; [|discriminate].
    intros H. apply wrap_iff in H as (v & kb & rsv & sg & H1 & H2 & H3 & H4 & H5); [|assumption]. exists m. split; [now apply slurp_iff|]. exists v, kb, rsv, alg, sg. splits; auto.
    apply hashalg_iff. now destruct (check_hashalg alg).
  - intros (m & D & v & kb & rsv & alg & sg & H1 & H2 & H3 & H4 & H5 & H6). rewrite (peek_object _ _ _ _ _ _ _ Hb H1). apply hashalg_iff in H3. rewrite H3. apply slurp_iff in D. rewrite D.
    apply wrap_iff; [assumption|]. exists v, kb, rsv, sg. splits; auto.
Qed.
End Ver.

(** ** The text form *)
Lemma find_sub_some : forall a l t, find_sub a l = Some t -> exists tail, l = t ++ a ++ tail.
Proof.
  intros a. induction l as [|c l IH]; intros t H; cbn [find_sub] in H.
  - destruct (strip a []) as [r|] eqn:E; [|discriminate]. injection H as <-. apply strip_iff in E. now exists r.
  - destruct (strip a (c :: l)) as [r|] eqn:E; [injection H as <-; apply strip_iff in E; now exists r|].
    destruct (find_sub a l) as [x|] eqn:F; [|discriminate]. injection H as <-. destruct (IH x eq_refl) as (tail & ->). now exists tail.
Qed.
Lemma find_sub_first : forall e x tail, ~ In 45 x -> find_sub (10 :: 45 :: e) (x ++ 10 :: 45 :: e ++ tail) = Some x.
Proof.
  intros e x tail. induction x as [|c x IH]; intros N.
  - cbn [app]. unfold find_sub. cbn [strip]. change (10 =? 10) with true. change (45 =? 45) with true. cbv iota. rewrite (proj2 (strip_iff e (e ++ tail) tail) eq_refl). reflexivity.
  - cbn [app find_sub]. assert (E : strip (10 :: 45 :: e) (c :: x ++ 10 :: 45 :: e ++ tail) = None).
    { cbn [strip]. destruct (10 =? c); [|reflexivity]. destruct x as [|d x]; cbn [app strip]; [reflexivity|]. destruct (45 =? d) eqn:D; [|reflexivity]. exfalso. apply N. right. left. lia. }
    rewrite E, IH; [reflexivity|]. intros H. apply N. now right.
Qed.
Lemma squeeze_In : forall c t, In c t -> white c = false -> In c (squeeze t).
Proof. intros c t H W. unfold squeeze. apply filter_In. now rewrite W. Qed.
Lemma base64_nice : forall d c, is_bytes d -> In c (base64 d) -> c <> 0 /\ c <> 45 /\ c <> 10.
Proof.
  intros d c Hd H. apply C54_stray in H; [|assumption]. destruct H as [H| ->]; [|lia].
  assert (F : forallb (fun c => negb ((c =? 0) || (c =? 45) || (c =? 10))) alphabet = true) by reflexivity. rewrite forallb_forall in F. specialize (F c H). lia.
Qed.
Lemma dearmor_iff : forall junk s d, zlen s <= 134217728 -> (sshsig_dearmor junk s = Some d <-> text_of d s).
Proof.
  intros junk s d L. unfold sshsig_dearmor, text_of, BEGIN_SIGNATURE. split.
  - destruct (strip (bs "-----BEGIN SSH SIGNATURE-----") s) as [s1|] eqn:E1; [|discriminate]. apply strip_iff in E1.
    assert (X : exists eol s2, (match strip [13; 10] s1 with Some r => Some r | None => strip [10] s1 end) = Some s2 /\ s1 = eol ++ s2 /\ (eol = [10] \/ eol = [13; 10]) \/ (match strip [13; 10] s1 with Some r => Some r | None => strip [10] s1 end) = None).
    { destruct (strip [13; 10] s1) as [r|] eqn:A; [apply strip_iff in A; exists [13; 10], r; left; auto|]. destruct (strip [10] s1) as [r|] eqn:B; [apply strip_iff in B; exists [10], r; left; auto|exists [], []; auto]. }
    destruct X as (eol & s2 & [(-> & -> & Heol)| ->]); [|discriminate].
    destruct (find_sub (10 :: END_SIGNATURE) s2) as [t|] eqn:E2; [|discriminate]. apply find_sub_some in E2 as (tail & ->). unfold dup_string.
    pose proof (strchr_cut_spec 0 t) as Ct.
    assert (Y : exists b64 nul, (match strchr_cut 0 t with Some (a, b) => if is_nil b then Some a else None | None => Some t end) = Some b64 /\ t = b64 ++ nul /\ (nul = [] \/ nul = [0]) \/ (match strchr_cut 0 t with Some (a, b) => if is_nil b then Some a else None | None => Some t end) = None).
    { destruct (strchr_cut 0 t) as [[a b]|]; [destruct b; cbn [is_nil]|].
      - destruct Ct as (-> & _). exists a, [0]. left. auto. - exists [], []. auto. - exists t, []. left. rewrite app_nil_r. auto. }
    destruct Y as (b64 & nul & [(-> & -> & Hnul)| ->]); [|discriminate].
    destruct (sshbuf_b64tod [] b64 junk) as [b| |] eqn:B; try discriminate. intros H. injection H as ->.
    subst s. rewrite !zlen_app in L. pose proof (zlen_nonneg _ b64). pose proof (zlen_nonneg _ nul). pose proof (zlen_nonneg _ eol). pose proof (zlen_nonneg _ tail).
    pose proof (zlen_nonneg _ (10 :: END_SIGNATURE)). pose proof (zlen_nonneg _ (bs "-----BEGIN SSH SIGNATURE-----")).
    destruct (C54_strict [] b64 junk) as (S1 & _); [lia|vm_compute; discriminate|]. destruct (S1 _ B) as (d' & D1 & D2 & ->). cbn [app].
    exists eol, b64, nul, tail. splits; auto.
  - intros (eol & t & nul & tail & -> & Heol & Hnul & Hd & Ht).
    rewrite (proj2 (strip_iff _ _ _) eq_refl).
    assert (W : forall c, In c (t ++ nul) -> c <> 45).
    { intros c Hc. apply in_app_or in Hc. destruct Hc as [Hc|Hc]; [|destruct Hnul as [-> | ->]; [destruct Hc|destruct Hc as [<-|[]]; lia]]. intros ->.
      apply squeeze_In in Hc; [|reflexivity]. rewrite Ht in Hc. apply base64_nice in Hc; [lia|assumption]. }
    assert (Z0 : ~ In 0 t). { intros Hc. apply squeeze_In in Hc; [|reflexivity]. rewrite Ht in Hc. apply base64_nice in Hc; [lia|assumption]. }
    set (rest := (t ++ nul) ++ [10] ++ bs "-----END SSH SIGNATURE-----" ++ tail).
    assert (X : (match strip [13; 10] (eol ++ rest) with Some r => Some r | None => strip [10] (eol ++ rest) end) = Some rest).
    { destruct Heol as [-> | ->]; [reflexivity|]. cbn [app strip]. reflexivity. }
    rewrite X. unfold rest. change (find_sub (10 :: END_SIGNATURE) ((t ++ nul) ++ [10] ++ bs "-----END SSH SIGNATURE-----" ++ tail)) with (find_sub (10 :: 45 :: bs "----END SSH SIGNATURE-----") ((t ++ nul) ++ 10 :: 45 :: bs "----END SSH SIGNATURE-----" ++ tail)).
    rewrite find_sub_first by (intros Hc; apply W in Hc; lia).
    assert (Y : dup_string (t ++ nul) = Some t).
    { unfold dup_string. pose proof (strchr_cut_spec 0 (t ++ nul)) as Ct. destruct Hnul as [-> | ->].
      - rewrite app_nil_r in *. destruct (strchr_cut 0 t) as [[a b]|]; [|reflexivity]. destruct Ct as (Ct & _). exfalso. apply Z0. rewrite Ct. apply in_or_app. right. now left.
      - destruct (strchr_cut 0 (t ++ [0])) as [[a b]|]; [|exfalso; apply Ct; apply in_or_app; right; now left]. destruct Ct as (Ct & Na).
        assert (Lb : b = [] /\ t = a).
        { clear - Ct Na Z0. revert a Ct Na. induction t as [|x t IH]; intros a Ct Na.
          - destruct a as [|y a]; cbn in Ct; injection Ct; intros; [subst; auto|]. destruct a; discriminate.
          - destruct a as [|y a]; cbn in Ct.
            + injection Ct as -> _. exfalso. apply Z0. now left.
            + injection Ct as -> Ct. destruct (IH (fun H => Z0 (or_intror H)) a Ct (fun H => Na (or_intror H))) as (-> & ->). auto. }
        destruct Lb as (-> & ->). reflexivity. }
    rewrite Y. assert (Lt : zlen t <= 134217728).
    { rewrite !zlen_app in L. pose proof (zlen_nonneg _ nul). pose proof (zlen_nonneg _ eol). pose proof (zlen_nonneg _ tail). pose proof (zlen_nonneg _ (bs "-----END SSH SIGNATURE-----")). pose proof (zlen_nonneg _ (bs "-----BEGIN SSH SIGNATURE-----")). pose proof (zlen_nonneg _ [10]). lia. }
    pose proof (zlen_squeeze t) as Lq. rewrite Ht in Lq. pose proof (base64_long d Hd) as Lg.
    destruct (b64tod_spec [] t junk) as [(d' & D1 & D2 & D3)|(_ & D)]; [lia|vm_compute; discriminate| |exfalso; exact (D d Hd Ht)].
    rewrite Ht in D2. pose proof (base64_long d' D1) as Lg'. rewrite <- D2 in Lg'. apply base64_inj in D2; auto; try lia. subst d'. rewrite D3. unfold of_put.
    destruct (AuthOptModel.put d (Some [])) as [b|] eqn:P; [apply put_iff in P as (-> & _); reflexivity|]. exfalso.
    unfold AuthOptModel.put in P. change SSHBUF_SIZE_MAX with 134217728 in P. change (zlen []) with 0 in P. replace (134217728 <? 0 + zlen d) with false in P by lia. discriminate.
Qed.
Lemma folded_last : forall col s t, folded col s t -> (s <> [] \/ 0 < col) -> exists t', t = t' ++ [10].
Proof.
  intros col s t F. induction F as [|col H|col c s t H F IH|c s t F IH]; intros N.
  - destruct N; [contradiction|lia].
  - now exists [].
  - destruct IH as (t' & ->); [right; lia|]. now exists (c :: t').
  - inversion F; subst; [exists [c]; reflexivity|lia|]; (destruct IH as (t' & E); [left; discriminate|]; rewrite E; now exists (c :: 10 :: t')).
Qed.
Lemma armor_text : forall d s, is_bytes d -> d <> [] -> zlen d < 2147483648 -> sshsig_armor d = Some s -> text_of d s.
Proof.
  intros d s Hd Hn Hl H. unfold sshsig_armor in H. destruct (AuthOptModel.put (BEGIN_SIGNATURE ++ [10]) (Some [])) as [b0|] eqn:P; [|discriminate]. apply put_iff in P as (-> & _). cbn [app] in H.
  rewrite dtob64_cases in H by assumption. destruct d as [|d0 d1] eqn:Ed; [contradiction|]. rewrite <- Ed in *. replace (zlen d =? 0) with false in H by (rewrite Ed, zlen_cons; pose proof (zlen_nonneg _ d1); lia).
  unfold of_put in H. destruct (wrap_go (base64 d) 0 (Some (BEGIN_SIGNATURE ++ [10]))) as [b|] eqn:Wr; [|discriminate].
  assert (Lb : 0 < zlen (base64 d)). { pose proof (base64_long d Hd). rewrite Ed, zlen_cons in *. pose proof (zlen_nonneg _ d1). lia. }
  apply wrap_folded in Wr as (t & F & ->); [|lia|split; [lia|rewrite zlen_base64 by assumption; lia]]. change (0 mod 70) with 0 in F.
  pose proof (folded_squeeze _ _ _ F) as Sq. apply folded_last in F; [|left; intros E; rewrite E in Lb; vm_compute in Lb; discriminate]. destruct F as (t' & ->).
  destruct (AuthOptModel.put END_SIGNATURE (Some ((BEGIN_SIGNATURE ++ [10]) ++ t' ++ [10]))) as [b1|] eqn:P1; [|discriminate]. apply put_iff in P1 as (-> & _). apply put_iff in H as (-> & _).
  exists [10], t', [], [10]. unfold BEGIN_SIGNATURE, END_SIGNATURE. rewrite app_nil_r, <- !app_assoc. splits; auto.
  rewrite squeeze_app in Sq. change (squeeze [10]) with (@nil Z) in Sq. rewrite app_nil_r in Sq. rewrite Sq. apply squeeze_id. apply Forall_forall. intros c Hc.
  apply C54_stray in Hc; [|assumption]. destruct Hc as [Hc| ->]; [|reflexivity].
  assert (G : forallb (fun c => negb (isspace c)) alphabet = true) by reflexivity. rewrite forallb_forall in G. specialize (G c Hc). now destruct (isspace c).
Qed.
Lemma armor_size : forall d s, sshsig_armor d = Some s -> zlen s <= 134217728.
Proof.
  intros d s H. unfold sshsig_armor in H. destruct (AuthOptModel.put (BEGIN_SIGNATURE ++ [10]) (Some [])) as [b0|] eqn:P; [|discriminate]. destruct (sshbuf_dtob64 d b0 true) as [b| |]; try discriminate.
  destruct (AuthOptModel.put END_SIGNATURE (Some b)) as [b1|]; [|discriminate]. apply put_iff in H. tauto.
Qed.
