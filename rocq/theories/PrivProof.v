(** Proofs for C78: the parsers of private key files against their grammar. *)
From Coq Require Import String.
From Verif Require Import Base Text SshbufModel SshbufSpec SshbufProof WireSpec WireProof AddrModel MiscNumModel AuthOptModel Dec CertModel CertSpec CertProof AuthOptProof SigModel SigProof2 SigProof3 Base64Model Base64Spec Base64Proof Base64Props KeyModel KeySpec KeyProof KeyProof2 KeyProof3 PrivModel PrivSpec.
Local Open Scope Z_scope.

(** ** Padding *)
Lemma pad_ok_iff : forall l i, pad_ok i l = true <-> l = map (fun j => (i + Z.of_nat j) mod 256) (seq 1 (length l)).
Proof.
  induction l as [|c l IH]; intros i; cbn [pad_ok length seq map]; [split; reflexivity|]. rewrite andb_true_iff, Z.eqb_eq, IH. rewrite <- (seq_shift (length l) 1), map_map.
  assert (E : map (fun x => (i + Z.of_nat (S x)) mod 256) (seq 1 (length l)) = map (fun j => (i + 1 + Z.of_nat j) mod 256) (seq 1 (length l))) by (apply map_ext; intros j; f_equal; lia).
  rewrite E. change (Z.of_nat 1) with 1. split; [intros (H1 & H2); congruence|intros H]. assert (H1 : c = (i + 1) mod 256) by congruence. assert (H2 : l = map (fun j => (i + 1 + Z.of_nat j) mod 256) (seq 1 (length l))) by congruence. auto.
Qed.
Lemma padding_iff : forall l, pad_ok 0 l = true <-> padding l.
Proof. intros l. rewrite pad_ok_iff. reflexivity. Qed.
Lemma pad_ok_app : forall a i c, pad_ok i a = true -> c = (i + zlen a + 1) mod 256 -> pad_ok i (a ++ [c]) = true.
Proof.
  induction a as [|x a IH]; intros i c H E; cbn [pad_ok app] in *.
  - rewrite zlen_nil in E. rewrite E. replace (i + 0 + 1) with (i + 1) by lia. rewrite Z.eqb_refl. reflexivity.
  - apply andb_true_iff in H as (H1 & H2). rewrite H1. cbn [andb]. apply IH; [assumption|]. rewrite zlen_cons in E. rewrite E. f_equal. lia.
Qed.
Lemma pad_go_spec : forall block fuel b0 a out, 0 < block -> pad_ok 0 a = true -> pad_go fuel (zlen a) block (Some (b0 ++ a)) = Some out ->
  exists p, out = b0 ++ p /\ pad_ok 0 p = true /\ zlen out mod block = 0.
Proof.
  intros block. induction fuel as [|fuel IH]; intros b0 a out Hb Ha H; cbn [pad_go] in H; destruct (zlen (b0 ++ a) mod block =? 0) eqn:E.
  - injection H as <-. exists a. splits; auto. lia.
  - discriminate.
  - injection H as <-. exists a. splits; auto. lia.
  - destruct (AuthOptModel.put [(zlen a + 1) mod 256] (Some (b0 ++ a))) as [b1|] eqn:P; [|destruct fuel; discriminate]. apply put_iff in P as (-> & _).
    rewrite <- app_assoc in H. replace (zlen a + 1) with (zlen (a ++ [(zlen a + 1) mod 256])) in H at 1 by (rewrite zlen_app, zlen_cons, zlen_nil; lia).
    apply IH in H; auto. apply pad_ok_app; [assumption|]. f_equal.
Qed.
Lemma pad_go_total : forall block fuel i b, 0 < block -> zlen b + (- zlen b) mod block <= 134217728 -> (- zlen b) mod block <= Z.of_nat fuel -> exists out, pad_go fuel i block (Some b) = Some out.
Proof.
  intros block. induction fuel as [|fuel IH]; intros i b Hb L M; cbn [pad_go]; destruct (zlen b mod block =? 0) eqn:E; try (now exists b).
  - pose proof (Z.mod_pos_bound (- zlen b) block Hb). rewrite Z.mod_opp_l_nz in M by lia. pose proof (Z.mod_pos_bound (zlen b) block Hb). lia.
  - pose proof (Z.mod_pos_bound (zlen b) block Hb). rewrite Z.mod_opp_l_nz in * by lia.
    assert (P : AuthOptModel.put [(i + 1) mod 256] (Some b) = Some (b ++ [(i + 1) mod 256])) by (apply put_iff; split; [reflexivity|rewrite zlen_app, zlen_cons, zlen_nil; lia]).
    rewrite P. assert (Z1 : zlen (b ++ [(i + 1) mod 256]) = zlen b + 1) by (rewrite zlen_app, zlen_cons, zlen_nil; lia).
    assert (M1 : (- (zlen b + 1)) mod block = block - zlen b mod block - 1).
    { symmetry. apply (Z.mod_unique (- (zlen b + 1)) block (- (zlen b / block) - 1)); [lia|]. pose proof (Z.div_mod (zlen b) block). nia. }
    apply IH; [assumption|rewrite Z1, M1; lia|rewrite Z1, M1; lia].
Qed.

(** ** The text *)
Lemma end_line_eq : MARK_END = end_line. Proof. reflexivity. Qed.
Definition no_end (body tail : list Z) : Prop := forall x y z, body = x ++ [10] ++ y -> y ++ [10] ++ tail <> end_line ++ z.
Lemma collect_iff : forall l t, collect l = Some t <->
  exists body rest, l = body ++ [10] ++ end_line ++ rest /\ no_end body (end_line ++ rest) /\ t = filter (fun c => negb ((c =? 10) || (c =? 13))) body.
Proof.
  induction l as [|c l IH]; intros t; cbn [collect]; [split; [discriminate|intros ([|] & rest & H & _); discriminate]|]. rewrite end_line_eq.
  destruct (strip end_line l) as [rest|] eqn:S.
  - apply strip_iff in S. destruct (c =? 10) eqn:E; cbn [andb orb].
    + apply Z.eqb_eq in E. subst c l. split.
      * intros H. injection H as <-. exists [], rest. splits; [reflexivity| |reflexivity]. intros x y z H. destruct x; discriminate H.
      * intros (body & rest' & H & N & ->). destruct body as [|b body]; [reflexivity|]. exfalso. cbn [app] in H. assert (Hb : b = 10) by congruence. subst b. apply (N [] body rest); [reflexivity|]. cbn [app]. congruence.
    + destruct (c =? 13) eqn:E13.
      * rewrite IH. apply Z.eqb_eq in E13. subst c. split.
        -- intros (body & rest' & -> & N & ->). exists (13 :: body), rest'. splits; [reflexivity| |reflexivity]. intros x y z H. destruct x as [|x0 x]; [discriminate H|]. apply (N x y z). cbn [app] in *. congruence.
        -- intros (body & rest' & H & N & ->). destruct body as [|b body]; [discriminate H|]. assert (b = 13) by (cbn [app] in *; congruence). subst b. exists body, rest'. splits; [cbn [app] in *; congruence| |reflexivity].
           intros x y z Hx. apply (N (13 :: x) y z). rewrite Hx. reflexivity.
      * split.
        -- destruct (collect l) as [t'|] eqn:C; [|discriminate]. intros H. injection H as <-. destruct (proj1 (IH t') eq_refl) as (body & rest' & -> & N & ->). exists (c :: body), rest'. cbn [filter]. rewrite E, E13. cbn [orb negb]. splits; [reflexivity| |reflexivity].
           intros x y z H. destruct x as [|x0 x]; [cbn [app] in H; assert (c = 10) by congruence; lia|]. apply (N x y z). cbn [app] in *. congruence.
        -- intros (body & rest' & H & N & ->). destruct body as [|b body]; [cbn [app] in H; assert (c = 10) by congruence; lia|]. assert (b = c) by (cbn [app] in *; congruence). subst b. cbn [filter]. rewrite E, E13. cbn [orb negb].
           rewrite (proj2 (IH (filter (fun c => negb ((c =? 10) || (c =? 13))) body))); [reflexivity|]. exists body, rest'. splits; [cbn [app] in *; congruence| |reflexivity]. intros x y z Hx. apply (N (c :: x) y z). rewrite Hx. reflexivity.
  - rewrite andb_false_r.
    assert (NS : forall z, l <> end_line ++ z). { intros z H. assert (strip end_line l = Some z) by (now apply strip_iff). congruence. }
    destruct ((c =? 10) || (c =? 13)) eqn:E.
    + rewrite IH. split.
      * intros (body & rest' & -> & N & ->). exists (c :: body), rest'. cbn [filter]. rewrite E. cbn [negb]. splits; [reflexivity| |reflexivity].
        intros x y z H. destruct x as [|x0 x]; cbn [app] in H; [assert (Hy : y = body) by congruence; subst y; apply NS|]. apply (N x y z). cbn [app] in *. congruence.
      * intros (body & rest' & H & N & ->). destruct body as [|b body]; [exfalso; apply (NS rest'); cbn [app] in *; congruence|]. assert (b = c) by (cbn [app] in *; congruence). subst b. exists body, rest'. cbn [filter]. rewrite E. cbn [negb]. splits; [cbn [app] in *; congruence| |reflexivity].
        intros x y z Hx. apply (N (c :: x) y z). rewrite Hx. reflexivity.
    + split.
      * destruct (collect l) as [t'|] eqn:C; [|discriminate]. intros H. injection H as <-. destruct (proj1 (IH t') eq_refl) as (body & rest' & -> & N & ->). exists (c :: body), rest'. cbn [filter]. rewrite E. cbn [negb]. splits; [reflexivity| |reflexivity].
        intros x y z H. destruct x as [|x0 x]; [cbn [app] in H; assert (c = 10) by congruence; lia|]. apply (N x y z). cbn [app] in *. congruence.
      * intros (body & rest' & H & N & ->). destruct body as [|b body]; [cbn [app] in H; assert (c = 10) by congruence; lia|]. assert (b = c) by (cbn [app] in *; congruence). subst b. cbn [filter]. rewrite E. cbn [negb].
        rewrite (proj2 (IH (filter (fun c => negb ((c =? 10) || (c =? 13))) body))); [reflexivity|]. exists body, rest'. splits; [cbn [app] in *; congruence| |reflexivity]. intros x y z Hx. apply (N (c :: x) y z). rewrite Hx. reflexivity.
Qed.
Lemma cstr_filter : forall body, squeeze (cstr (filter (fun c => negb ((c =? 10) || (c =? 13))) body)) = squeeze (cstr body) /\ zlen (cstr (filter (fun c => negb ((c =? 10) || (c =? 13))) body)) <= zlen body.
Proof.
  induction body as [|c body (IH1 & IH2)]; [split; [reflexivity|cbn; lia]|]. cbn [filter cstr]. destruct ((c =? 10) || (c =? 13)) eqn:E; cbn [negb].
  - split; [|rewrite zlen_cons; lia]. rewrite IH1. destruct (c =? 0) eqn:E0; [lia|]. unfold squeeze. cbn [filter]. replace (white c) with true; [reflexivity|]. assert (c = 10 \/ c = 13) as [-> | ->] by lia; reflexivity.
  - cbn [cstr]. destruct (c =? 0); [split; [reflexivity|rewrite zlen_nil, zlen_cons; pose proof (zlen_nonneg _ body); lia]|]. split; [|rewrite !zlen_cons; lia]. unfold squeeze in *. cbn [filter]. rewrite IH1. reflexivity.
Qed.
Lemma uudecode_iff : forall junk file d, zlen file <= 134217728 -> (uudecode junk file = Some d <-> text_of file (magic ++ d)).
Proof.
  intros junk file d L. unfold uudecode, text_of. change MARK_BEGIN with begin_line. change MARK_END with end_line. change AUTH_MAGIC with magic. split.
  - destruct (zlen file <? _); [discriminate|]. destruct (strip begin_line file) as [r|] eqn:S; [|discriminate]. apply strip_iff in S. subst file.
    destruct (collect r) as [t|] eqn:C; [|discriminate]. apply collect_iff in C as (body & rest & -> & N & ->).
    destruct (cstr_filter body) as (F1 & F2). destruct (sshbuf_b64tod [] _ junk) as [b| |] eqn:B; try discriminate. intros H. apply strip_iff in H. subst b.
    destruct (C54_strict [] (cstr (filter (fun c => negb ((c =? 10) || (c =? 13))) body)) junk) as (S1 & _); [rewrite !zlen_app in L; pose proof (zlen_nonneg _ begin_line); pose proof (zlen_nonneg _ [10]); pose proof (zlen_nonneg _ end_line); pose proof (zlen_nonneg _ rest); lia|vm_compute; discriminate|].
    destruct (S1 _ B) as (d' & D1 & D2 & D3). cbn [app] in D3. subst d'. exists body, rest. splits; auto. congruence.
  - intros (body & rest & -> & N & Bd & Sq). assert (L2 : zlen (begin_line ++ body ++ [10] ++ end_line ++ rest) <? zlen begin_line + zlen end_line = false).
    { apply Z.ltb_ge. rewrite !zlen_app. pose proof (zlen_nonneg _ body). pose proof (zlen_nonneg _ [10]). pose proof (zlen_nonneg _ rest). lia. }
    rewrite L2. rewrite (proj2 (strip_iff _ _ _) eq_refl). rewrite (proj2 (collect_iff _ (filter (fun c => negb ((c =? 10) || (c =? 13))) body))); [|exists body, rest; splits; auto].
    destruct (cstr_filter body) as (F1 & F2).
    assert (Lb : zlen body <= 134217728). { rewrite !zlen_app in L. pose proof (zlen_nonneg _ begin_line). pose proof (zlen_nonneg _ [10]). pose proof (zlen_nonneg _ end_line). pose proof (zlen_nonneg _ rest). lia. }
    destruct (b64tod_spec [] (cstr (filter (fun c => negb ((c =? 10) || (c =? 13))) body)) junk) as [(d' & D1 & D2 & D3)|[_ E]]; [lia|vm_compute; discriminate| |exfalso; apply (E (magic ++ d)); [assumption|congruence]].
    pose proof (base64_long d' D1) as B1. pose proof (base64_long _ Bd) as B2. rewrite <- D2 in B1. rewrite <- Sq in B2.
    assert (Sz : zlen (squeeze (cstr body)) <= zlen body). { rewrite <- F1. eapply Z.le_trans; [|exact F2]. generalize (cstr (filter (fun c => negb ((c =? 10) || (c =? 13))) body)). induction l as [|c l IH]; [reflexivity|]. unfold squeeze in *. cbn [filter]. destruct (negb (white c)); rewrite !zlen_cons; lia. }
    assert (d' = magic ++ d) as ->. { apply base64_inj; auto; [rewrite F1 in B1; lia|lia|congruence]. }
    rewrite D3. rewrite (proj2 (put_iff (magic ++ d) [] (magic ++ d))); [cbn [of_put]; now apply strip_iff|]. split; [reflexivity|]. lia.
Qed.

(** ** Ciphers *)
Lemma cipher_sizes : forall cn ci, cipher_by_name cn = Some ci -> sizes cn (ci_block ci) (ci_key ci + ci_iv ci) (ci_auth ci).
Proof.
  intros cn ci. unfold cipher_by_name. destruct (find (fun x => beqb (fst x) cn) ciphers) as [[n c]|] eqn:F; [|discriminate]. intros H. injection H as <-.
  apply List.find_some in F as (I & E). cbn [fst snd] in *. apply beqb_eq in E. subst n. unfold sizes. cbn [ciphers In] in I |- *.
  repeat (destruct I as [I|I]; [assert (Hc : c = c) by reflexivity; inversion I; subst; cbn [ci_block ci_key ci_iv ci_auth]; clear; intuition reflexivity|]). destruct I.
Qed.
Lemma sizes_cipher : forall cn block keys tag, sizes cn block keys tag -> exists ci, cipher_by_name cn = Some ci /\ ci_block ci = block /\ ci_key ci + ci_iv ci = keys /\ ci_auth ci = tag.
Proof.
  intros cn block keys tag H. unfold sizes in H. cbn [In] in H.
  repeat (destruct H as [H|H]; [inversion H; subst; eexists; split; [vm_compute; reflexivity|vm_compute; auto]|]). destruct H.
Qed.
Lemma sizes_pos : forall cn block keys tag, sizes cn block keys tag -> (block = 8 \/ block = 16) /\ 0 <= tag <= 16 /\ 0 <= keys.
Proof. intros cn block keys tag H. unfold sizes in H. cbn [In] in H. repeat (destruct H as [H|H]; [inversion H; subst; lia|]). destruct H. Qed.
Lemma sizes_fun : forall cn b k t b' k' t', sizes cn b k t -> sizes cn b' k' t' -> b = b' /\ k = k' /\ t = t'.
Proof.
  intros cn b k t b' k' t' H H'. apply sizes_cipher in H as (ci & E & <- & <- & <-). apply sizes_cipher in H' as (ci' & E' & <- & <- & <-). rewrite E in E'. injection E' as <-. auto.
Qed.
Lemma sizes_name : forall cn b k t, sizes cn b k t -> ~ In 0 cn /\ zlen cn <= 100 /\ is_bytes cn.
Proof.
  assert (G : forall n, forallb (fun c => (1 <=? c) && (c <? 256)) n = true -> zlen n <= 100 -> ~ In 0 n /\ zlen n <= 100 /\ is_bytes n).
  { intros n H L. rewrite forallb_forall in H. splits; [intros I; apply H in I; discriminate|assumption|]. apply Forall_forall. intros c Hc. apply H in Hc. unfold is_byte. lia. }
  intros cn b k t H. unfold sizes in H. cbn [In] in H. repeat (destruct H as [H|H]; [inversion H; subst; apply G; [vm_compute; reflexivity|vm_compute; discriminate]|]). destruct H.
Qed.
