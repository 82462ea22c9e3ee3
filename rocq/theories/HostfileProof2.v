(** Proofs about the known-hosts file, continued: names, keys, lookups. *)
From Coq Require Import String.
From Verif Require Import Base Text SshbufModel AuthOptModel AuthOptProof KrlProof5 MatchModel MatchSpec MatchProps Base64Model Base64Spec Base64Proof Base64Props HostfileModel HostfileSpec HostfileProof.

(** ** Keys *)
Lemma zlen_app_le_l : forall (a b : list Z), zlen a <= zlen (a ++ b).
Proof. intros. rewrite zlen_app. pose proof (zlen_nonneg _ b). lia. Qed.
Lemma zlen_app_le_r : forall (a b : list Z), zlen b <= zlen (a ++ b).
Proof. intros. rewrite zlen_app. pose proof (zlen_nonneg _ a). lia. Qed.

Lemma squeeze_short : forall s, zlen (squeeze s) <= zlen s.
Proof. induction s as [|c s IH]; [reflexivity|]. rewrite squeeze_cons. destruct (isspace c); rewrite ?zlen_cons; lia. Qed.
Lemma read_key : forall P rest k, zlen rest < 100000000 -> (sshkey_read P rest = Some k <-> key_text P rest k).
Proof.
  intros P rest k L. unfold sshkey_read. destruct (till_ws_split rest) as (E & F & D). destruct (till_ws rest) as [name r]. cbn [fst snd] in *.
  assert (Lr : zlen r <= zlen rest) by (rewrite E; apply zlen_app_le_r).
  destruct (drop_ws_split r) as (w & Ew & Bw).
  assert (U : forall n' w' b' t', rest = n' ++ w' ++ b' ++ t' -> Forall (fun c => ~ blank c) n' -> blanks w' -> w' <> [] -> solid b' ->
     (t' = [] \/ blank (hd 0 t')) -> n' = name /\ r <> [] /\ drop_ws r = b' ++ t' /\ till_ws (drop_ws r) = (b', t')).
  { intros n' w' b' t' R Fn Bw' Nw Sb Dt. assert (T1 : till_ws rest = (name, r)) by (rewrite E; apply till_ws_app; assumption).
    assert (T2 : till_ws rest = (n', w' ++ b' ++ t')). { rewrite R. apply till_ws_app; [assumption|]. right. destruct w' as [|x w']; [congruence|]. inversion Bw'; subst. assumption. }
    rewrite T1 in T2. injection T2 as -> ->. assert (drop_ws (w' ++ b' ++ t') = b' ++ t') as DR.
    { rewrite drop_ws_app by assumption. destruct (hd_solid _ Sb) as (c & b2 & -> & Bc). cbn [app]. apply drop_ws_head. exact Bc. }
    splits; auto. { destruct w'; [congruence|discriminate]. } rewrite DR. apply till_ws_app; [exact (proj2 Sb)|exact Dt]. }
  destruct r as [|x r'].
  { split; [discriminate|]. intros (n' & w' & b' & t' & blob & R & Fn & Bw' & Nw & Sb & Dt & _). destruct (U _ _ _ _ R Fn Bw' Nw Sb Dt) as (_ & X & _). congruence. }
  set (r := x :: r') in *.
  destruct (hp_type P name) as [[ty nid]|] eqn:HT.
  2:{ split; [discriminate|]. intros (n' & w' & b' & t' & blob & R & Fn & Bw' & Nw & Sb & Dt & HT' & _). destruct (U _ _ _ _ R Fn Bw' Nw Sb Dt) as (-> & _). congruence. }
  destruct (drop_ws r) as [|c q] eqn:DR.
  { split; [discriminate|]. intros (n' & w' & b' & t' & blob & R & Fn & Bw' & Nw & Sb & Dt & _). destruct (U _ _ _ _ R Fn Bw' Nw Sb Dt) as (_ & _ & X & _).
    destruct (hd_solid _ Sb) as (c & b2 & -> & Bc). discriminate X. }
  pose proof (drop_ws_nonblank _ _ _ DR) as Bc.
  destruct (till_ws_split (c :: q)) as (E2 & F2 & D2). destruct (till_ws (c :: q)) as [b64 tail] eqn:T. cbn [fst snd] in *.
  assert (Sb : solid b64). { split; [|exact F2]. intros ->. cbn [app] in E2. destruct D2 as [D2|D2]; rewrite <- E2 in D2; [discriminate|]. cbn [hd] in D2. contradiction. }
  assert (Lb : zlen b64 < 100000000). { assert (zlen b64 <= zlen (c :: q)) by (rewrite E2; apply zlen_app_le_l). assert (zlen (c :: q) <= zlen r) by (rewrite Ew; apply zlen_app_le_r). lia. }
  assert (Uq : forall n' w' b' t', rest = n' ++ w' ++ b' ++ t' -> Forall (fun c => ~ blank c) n' -> blanks w' -> w' <> [] -> solid b' ->
     (t' = [] \/ blank (hd 0 t')) -> n' = name /\ b' = b64).
  { intros n' w' b' t' R Fn Bw' Nw Sb' Dt. destruct (U _ _ _ _ R Fn Bw' Nw Sb' Dt) as (-> & _ & _ & X). rewrite ?DR in X. rewrite ?T in X. injection X as X1 X2. auto. }
  clear U.
  destruct (b64tod_spec [] b64 (fun _ => 0)) as [(d & D1 & D3 & D4)|[D4 D5]]; [lia|rewrite zlen_nil; lia| |].
  - assert (Ld : zlen d < 100000000).
    { pose proof (base64_long d D1) as X. rewrite <- D3 in X. pose proof (squeeze_short b64). lia. }
    rewrite D4, put_ok by (rewrite ?zlen_nil; lia). cbn [of_put app].
    assert (UD : forall d', is_bytes d' -> squeeze b64 = base64 d' -> d' = d).
    { intros d' H1 H2. apply base64_inj; auto; [|lia|congruence]. pose proof (base64_long d' H1). rewrite <- H2, D3, zlen_base64 in H by assumption. lia. }
    destruct (hp_parse P d) as [k'|] eqn:HP.
    2:{ split; [discriminate|]. intros (n' & w' & b' & t' & blob & R & Fn & Bw' & Nw & Sb' & Dt & _ & I & Q & HP'). destruct (Uq _ _ _ _ R Fn Bw' Nw Sb' Dt) as (-> & ->). rewrite (UD _ I Q) in HP'. congruence. }
    assert (KT : k' = k -> hk_type k = ty -> hk_nid k = nid -> key_text P rest k).
    { intros -> K2 K3. exists name, w, b64, tail, d. splits; auto.
      - rewrite E, Ew, E2. reflexivity.
      - intros ->. cbn [app] in Ew. destruct D as [D|D]; [discriminate|]. rewrite Ew in D. cbn [hd] in D. contradiction.
      - rewrite HT, K2, K3. reflexivity. }
    assert (TK : key_text P rest k -> k' = k /\ hk_type k = ty /\ hk_nid k = nid).
    { intros (n' & w' & b' & t' & blob & R & Fn & Bw' & Nw & Sb' & Dt & HT' & I & Q & HP'). destruct (Uq _ _ _ _ R Fn Bw' Nw Sb' Dt) as (-> & ->). rewrite (UD _ I Q) in HP'.
      rewrite HT in HT'. injection HT' as -> ->. rewrite HP in HP'. injection HP' as ->. auto. }
    destruct (hk_type k' =? ty) eqn:K1; cbn [negb].
    2:{ split; [discriminate|]. intros H. apply TK in H. destruct H as (-> & H & _). lia. }
    destruct (hk_nid k' =? nid) eqn:K2; cbn [negb].
    2:{ split; [discriminate|]. intros H. apply TK in H. destruct H as (-> & _ & H). lia. }
    split; [intros [= ->]; apply KT; auto; lia|]. intros H. apply TK in H. destruct H as (-> & _). reflexivity.
  - rewrite D4. split; [discriminate|]. intros (n' & w' & b' & t' & blob & R & Fn & Bw' & Nw & Sb' & Dt & _ & I & Q & _). destruct (Uq _ _ _ _ R Fn Bw' Nw Sb' Dt) as (-> & ->). exfalso. exact (D5 _ I Q).
Qed.

(** ** Names *)
Lemma before_some : forall c s a, before c s = Some a -> exists t, s = a ++ c :: t /\ ~ In c a.
Proof.
  induction s as [|x s IH]; intros a H; cbn [before] in H; [discriminate|]. destruct (x =? c) eqn:E.
  - injection H as <-. exists s. split; [cbn [app]; f_equal; lia|intros []].
  - destruct (before c s) as [b|] eqn:B; [|discriminate]. injection H as <-. destruct (IH b eq_refl) as (t & -> & N). exists t. split; [reflexivity|].
    intros [X|X]; [lia|contradiction].
Qed.
Lemma before_at : forall c a t, ~ In c a -> before c (a ++ c :: t) = Some a.
Proof.
  induction a as [|x a IH]; intros t H; cbn [app before]; [rewrite Z.eqb_refl; reflexivity|].
  destruct (x =? c) eqn:E; [exfalso; apply H; left; lia|]. rewrite IH; [reflexivity|]. intros X. apply H. right. exact X.
Qed.
Lemma base64_nobar : forall d, is_bytes d -> ~ In 124 (base64 d).
Proof. intros d H X. apply C54_stray in X; [|exact H]. destruct X as [X|X]; [|discriminate]. vm_compute in X. intuition discriminate. Qed.

Lemma hash_with_ok : forall P salt host, hp_ok P -> is_bytes salt -> zlen salt = 20 -> hash_with P salt host = Some (hashed_name P host salt).
Proof.
  intros P salt host HP Hs Ls. destruct (HP salt host) as [H1 H2]. unfold hash_with. rewrite !ntop_spec by assumption. rewrite !zlen_base64 by assumption. rewrite Ls, H2. reflexivity.
Qed.
Lemma hashed_match : forall P host hosts, hp_ok P -> hd 0 hosts = 124 -> zlen hosts < 100000000 ->
  (match_maybe_hashed P host hosts = Some true <-> exists salt, is_bytes salt /\ zlen salt = 20 /\ hosts = hashed_name P host salt).
Proof.
  intros P host hosts HP Hh L. destruct hosts as [|c t]; [discriminate Hh|]. cbn [hd] in Hh. subst c. unfold match_maybe_hashed.
  change (124 =? HASH_DELIM) with true. cbv iota. unfold host_hash. split.
  - intros H. unfold extract_salt in H. destruct (zlen (124 :: t) <? 3); [discriminate|].
    destruct (beqb (ztake 3 (124 :: t)) HASH_MAGIC); [|discriminate]. cbn [negb] in H.
    destruct (before HASH_DELIM (zdrop 3 (124 :: t))) as [b|] eqn:B; [|discriminate].
    destruct ((zlen b =? 0) || (1024 <? zlen b)) eqn:Lb; [discriminate|].
    destruct (pton_spec b (repeat 0 256)) as [(d & t' & D1 & D2 & D3 & D4 & D5)|[D4 _]]; [lia| |rewrite D4 in H; discriminate].
    rewrite D4 in H. destruct (zlen d =? 20) eqn:L20; [|discriminate]. rewrite D5 in H.
    rewrite hash_with_ok in H by (auto; lia). assert (BE : beqb (hashed_name P host d) (124 :: t) = true) by congruence. apply beqb_eq in BE. exists d. splits; auto; lia.
  - intros (salt & H1 & H2 & ->). assert (extract_salt (hashed_name P host salt) (repeat 0 256) = Some salt) as ->.
    { unfold hashed_name, extract_salt. destruct (zlen (bs "|1|" ++ base64 salt ++ bs "|" ++ base64 (hp_hmac P salt host)) <? 3) eqn:X.
      { rewrite zlen_app in X. change (zlen (bs "|1|")) with 3 in X. pose proof (zlen_nonneg _ (base64 salt ++ bs "|" ++ base64 (hp_hmac P salt host))). lia. }
      clear X. change 3 with (zlen (bs "|1|")). rewrite ztake_app_exact, zdrop_app_exact by reflexivity. change (beqb (bs "|1|") HASH_MAGIC) with true. cbn [negb].
      change (bs "|" ++ base64 (hp_hmac P salt host)) with (HASH_DELIM :: base64 (hp_hmac P salt host)). rewrite before_at by (apply base64_nobar; assumption).
      rewrite zlen_base64 by assumption. rewrite H2. change ((20 + 2) / 3 * 4) with 28. cbn [Z.eqb orb]. change (1024 <? 28) with false. cbv iota.
      destruct (pton_spec (base64 salt) (repeat 0 256)) as [(d & t' & D1 & D2 & D3 & D4 & D5)|[_ D5]]; [rewrite zlen_base64, H2 by assumption; reflexivity| |].
      - rewrite squeeze_id in D2 by (apply letters_nonwhite; assumption). assert (salt = d) as <-.
        { apply base64_inj; auto; [lia|]. pose proof (base64_long d D1) as X. rewrite <- D2, zlen_base64, H2 in X by assumption. change ((20 + 2) / 3 * 4) with 28 in X. lia. }
        rewrite D4, H2. change (20 =? 20) with true. cbv iota. rewrite <- H2, D5. reflexivity.
      - exfalso. specialize (D5 salt H1 (squeeze_id _ (letters_nonwhite _ H1))). unfold need in D5. rewrite H2 in D5. vm_compute in D5. discriminate D5. }
    rewrite hash_with_ok by auto. rewrite beqb_refl. reflexivity.
Qed.
Lemma names_match : forall P host hosts, hp_ok P -> Forall MatchSpec.fits (entries hosts) -> zlen hosts < 100000000 ->
  (match_maybe_hashed P host hosts = Some true <-> listed P host hosts).
Proof.
  intros P host hosts HP F L. unfold listed. destruct (hd 0 hosts =? 124) eqn:E; [apply hashed_match; auto; lia|].
  destruct (C11_hostname host hosts F) as [_ H]. rewrite <- H.
  assert (match_maybe_hashed P host hosts = match match_hostname host hosts with Some 1 => Some true | _ => Some false end) as ->.
  { unfold match_maybe_hashed. destruct hosts as [|c t]; [reflexivity|]. cbn [hd] in E. replace (c =? HASH_DELIM) with false by (unfold HASH_DELIM; lia). reflexivity. }
  destruct (match_hostname host hosts) as [v|]; [|split; discriminate]. destruct v as [|p|p]; try (split; discriminate). destruct p; try (split; discriminate). tauto.
Qed.

(** ** Entries *)
Lemma parts_iff : forall l m hosts rest, parts l = Some (m, hosts, rest) <-> entry_line l m hosts rest.
Proof. intros. split; [apply parts_sound|apply parts_complete]. Qed.
Lemma entry_sizes : forall l m hosts rest, entry_line l m hosts rest -> zlen hosts <= zlen l /\ zlen rest <= zlen l.
Proof.
  intros l m hosts rest (w1 & lead & w2 & -> & _). rewrite !zlen_app. pose proof (zlen_nonneg _ w1). pose proof (zlen_nonneg _ lead). pose proof (zlen_nonneg _ w2).
  pose proof (zlen_nonneg _ hosts). pose proof (zlen_nonneg _ rest). lia.
Qed.
(** What a matching-only scan reports for a line that has a key *)
Lemma line_parts : forall P host ip wm l, match parts l with
  | None => forall i, pure_line P host ip wm l = Some i -> li_key i = None /\ li_line i = l /\ (li_status i = HKF_INVALID \/ li_status i = HKF_COMMENT)
  | Some (m, hosts, rest) =>
      pure_line P host ip wm l =
        match match_maybe_hashed P host hosts with
        | None => Some (mkLI l HKF_INVALID false false m None)
        | Some mh =>
            match (match ip with None => Some false | Some a => match_maybe_hashed P a hosts end) with
            | None => Some (mkLI l HKF_INVALID mh false m None)
            | Some mi =>
                if wm && negb (mh || mi) then None else
                match sshkey_read P rest with
                | None => Some (mkLI l HKF_INVALID mh mi m None)
                | Some k => Some (mkLI l (if mh || mi then HKF_MATCHED else HKF_OK) mh mi m (Some k))
                end
            end
        end
  end.
Proof.
  intros P host ip wm l. unfold parts, pure_line. destruct (match drop_ws l with [] => true | c :: _ => c =? 35 end).
  { destruct wm; intros i H; [discriminate|]. injection H as <-. auto. }
  destruct (pure_markers (drop_ws l)) as [[mk cp1]|].
  2:{ destruct wm; intros i H; [discriminate|]. injection H as <-. auto. }
  destruct (till_ws cp1) as [hosts r]. cbv zeta. destruct (match drop_ws (tl r) with [] => true | d :: _ => d =? 35 end) eqn:Q.
  - intros i H. destruct (match_maybe_hashed P host hosts) as [mh|]; [|injection H as <-; auto].
    destruct (match ip with None => Some false | Some a => match_maybe_hashed P a hosts end) as [mi|]; [|injection H as <-; auto].
    destruct (wm && negb (mh || mi)); [discriminate|]. injection H as <-. auto.
  - destruct (match_maybe_hashed P host hosts) as [mh|]; [|reflexivity].
    destruct (match ip with None => Some false | Some a => match_maybe_hashed P a hosts end) as [mi|]; [|reflexivity].
    destruct (wm && negb (mh || mi)); reflexivity.
Qed.
Definition line_says (P : hprims) (l host : list Z) (m : marker) (k : hkey) : Prop :=
  exists hosts rest, entry_line l m hosts rest /\ listed P host hosts /\ key_text P rest k.
Lemma line_entry : forall P host l note, hp_ok P -> text_line l ->
  (forall m hosts rest, entry_line l m hosts rest -> Forall MatchSpec.fits (entries hosts)) ->
  forall e, In e (flat_map (record_hostkey note) (opt_list (pure_line P host None true l))) <-> he_note e = note /\ line_says P l host (he_marker e) (he_key e).
Proof.
  intros P host l note HP (_ & _ & L) F e. pose proof (line_parts P host None true l) as H. destruct (parts l) as [[[m hosts] rest]|] eqn:E.
  2:{ split.
      - destruct (pure_line P host None true l) as [i|]; cbn [opt_list flat_map app]; [|intros []]. rewrite app_nil_r. specialize (H i eq_refl). unfold record_hostkey.
        intros X. exfalso. destruct H as (H & _). rewrite H in X. destruct (li_status i); destruct X.
      - intros (_ & hosts & rest & X & _). apply parts_iff in X. congruence. }
  rewrite H. pose proof (proj1 (parts_iff _ _ _ _) E) as EL. destruct (entry_sizes _ _ _ _ EL) as [L1 L2].
  pose proof (names_match P host hosts HP (F _ _ _ EL) ltac:(lia)) as NM.
  assert (LS : line_says P l host (he_marker e) (he_key e) <-> he_marker e = m /\ listed P host hosts /\ key_text P rest (he_key e)).
  { split.
    - intros (h' & r' & X & Y & Z1). apply parts_iff in X. rewrite E in X. injection X as <- <- <-. auto.
    - intros (<- & Y & Z1). exists hosts, rest. auto. }
  rewrite LS, <- NM, <- (read_key P rest (he_key e)) by lia.
  destruct (match_maybe_hashed P host hosts) as [mh|]; cbn [opt_list flat_map app record_hostkey li_status].
  2:{ split; [intros []|intros (_ & _ & X & _); discriminate]. }
  rewrite orb_false_r. destruct mh; cbn [andb negb].
  - destruct (sshkey_read P rest) as [k|]; cbn [opt_list flat_map app record_hostkey li_status li_key li_marker].
    + split.
      * intros [<-|[]]. cbn [he_note he_key he_marker]. auto.
      * intros (X & Y & _ & Z1). injection Z1 as ->. left. destruct e as [ek em en]. cbn [he_note he_key he_marker] in *. congruence.
    + split; [intros []|intros (_ & _ & _ & X); discriminate].
  - cbn [opt_list flat_map]. split; [intros []|intros (_ & _ & X & _); discriminate].
Qed.

Lemma file_entries : forall P host f es, hp_ok P -> Forall text_line (lines_of f) -> short_names (lines_of f) ->
  exists es2, load_hostkeys P host (Some es) (tfile f) = Some (es ++ es2) /\
  forall e, In e es2 <-> he_note e = note_of f /\ says P (lines_of f) host (he_marker e) (he_key e).
Proof.
  intros P host [[ls note] junk] es HP T F. cbn [lines_of note_of fst snd tfile] in *. unfold load_hostkeys. rewrite hostkeys_text by assumption.
  eexists. split; [reflexivity|]. intros e. rewrite in_flat_map. split.
  - intros (i & I1 & I2). apply in_flat_map in I1. destruct I1 as (l & L1 & L2). rewrite Forall_forall in T.
    destruct (proj1 (line_entry P host l note HP (T l L1) (fun m h r X => F l m h r L1 X) e)) as (N & h & r & X & Y & Z1).
    { apply in_flat_map. eauto. }
    split; [exact N|]. exists l, h, r. auto.
  - intros (N & l & h & r & L1 & X & Y & Z1). rewrite Forall_forall in T.
    assert (I : In e (flat_map (record_hostkey note) (opt_list (pure_line P host None true l)))).
    { apply (line_entry P host l note HP (T l L1) (fun m h r X => F l m h r L1 X) e). split; [exact N|]. exists h, r. auto. }
    apply in_flat_map in I. destruct I as (i & I1 & I2). exists i. split; [|exact I2]. apply in_flat_map. eauto.
Qed.
Lemma load_text : forall P host fs, hp_ok P -> Forall (fun f => Forall text_line (lines_of f) /\ short_names (lines_of f)) fs ->
  exists es, load_all P host (map tfile fs) = Some es /\
  forall e, In e es <-> exists f, In f fs /\ he_note e = note_of f /\ says P (lines_of f) host (he_marker e) (he_key e).
Proof.
  intros P host fs HP H. unfold load_all.
  assert (G : forall es0, exists es, fold_left (load_hostkeys P host) (map tfile fs) (Some es0) = Some (es0 ++ es) /\
     forall e, In e es <-> exists f, In f fs /\ he_note e = note_of f /\ says P (lines_of f) host (he_marker e) (he_key e)).
  { induction H as [|f fs [A B] HF IH]; intros es0.
    - exists []. rewrite app_nil_r. split; [reflexivity|]. intros e. split; [intros []|intros (f & [] & _)].
    - cbn [map fold_left]. destruct (file_entries P host f es0 HP A B) as (es2 & -> & E2). destruct (IH (es0 ++ es2)) as (es3 & -> & E3).
      exists (es2 ++ es3). rewrite app_assoc. split; [reflexivity|]. intros e. rewrite in_app_iff, E2, E3. split.
      + intros [X|(f' & X & Y)]; [exists f|exists f']; split; auto; [left; reflexivity|right; exact X].
      + intros (f' & [<- |X] & Y); [left; exact Y|right; eauto]. }
  destruct (G []) as (es & E & F). exists es. auto.
Qed.

(** ** Verdicts *)
Lemma marker_eqb_eq : forall a b, marker_eqb a b = true <-> a = b.
Proof. intros [] []; split; try discriminate; reflexivity. Qed.
Lemma ca_is_iff : forall k e, ca_is k e = true <-> signed_by k e.
Proof.
  intros k e. unfold ca_is, signed_by. destruct (hk_cert k) as [[b ca]|].
  - rewrite beqb_eq. split; [intros ->; eauto|]. intros (b' & X). congruence.
  - split; [discriminate|]. intros (b' & X). discriminate.
Qed.
Lemma revoked_iff : forall es k, key_revoked es k = true <->
  exists e, In e es /\ he_marker e = MRK_REVOKE /\ (same_public k (he_key e) \/ signed_by k (he_key e)).
Proof.
  intros es k. unfold key_revoked. rewrite existsb_exists. split; intros (e & I & H); exists e; (split; [exact I|]).
  - apply andb_true_iff in H. destruct H as [H1 H2]. apply marker_eqb_eq in H1. split; [exact H1|]. apply orb_true_iff in H2. destruct H2 as [H2|H2].
    + left. apply beqb_eq. exact H2.
    + right. apply andb_true_iff in H2. apply ca_is_iff. exact (proj2 H2).
  - destruct H as [H1 H2]. apply andb_true_iff. split; [apply marker_eqb_eq; exact H1|]. apply orb_true_iff. destruct H2 as [H2|H2].
    + left. apply beqb_eq. exact H2.
    + right. apply andb_true_iff. split; [|apply ca_is_iff; exact H2]. destruct H2 as (b & H2). unfold sshkey_is_cert. rewrite H2. reflexivity.
Qed.
Lemma equal_plain : forall k e, hk_cert k = None -> (sshkey_equal k e = true <-> same_key k e).
Proof.
  intros k e H. unfold sshkey_equal, sshkey_is_cert, same_key, equal_public. rewrite H. cbn [is_some]. rewrite andb_true_r, andb_true_iff, beqb_eq, Z.eqb_eq. tauto.
Qed.
Definition trusts (k : hkey) (e : hentry) : Prop :=
  (hk_cert k = None /\ he_marker e = MRK_NONE /\ same_key k (he_key e)) \/ (he_marker e = MRK_CA /\ signed_by k (he_key e)).
Lemma find_key_cert : forall es k st f, hk_cert k <> None ->
  (find_key es k true st f = (st, f) /\ forall e, In e es -> ~ trusts k e) \/
  (exists e, In e es /\ trusts k e /\ find_key es k true st f = (HOST_OK, Some e)).
Proof.
  intros es k st f C. induction es as [|e es IH]; [left; split; [reflexivity|intros e []]|]. cbn [find_key].
  destruct (marker_eqb (he_marker e) MRK_CA) eqn:M; cbn [negb].
  - destruct (ca_is k (he_key e)) eqn:K.
    + right. exists e. apply marker_eqb_eq in M. apply ca_is_iff in K. splits; [left; reflexivity| |reflexivity]. right. auto.
    + destruct IH as [[A B]|(e' & A & B & D)]; [left|right; exists e'; splits; auto; right; exact A]. split; [exact A|]. intros e' [<- |X]; [|apply B; exact X].
      intros [(T & _)|(_ & T)]; [congruence|]. apply ca_is_iff in T. congruence.
  - destruct IH as [[A B]|(e' & A & B & D)]; [left|right; exists e'; splits; auto; right; exact A]. split; [exact A|]. intros e' [<- |X]; [|apply B; exact X].
    intros [(T & _)|(T & _)]; [congruence|]. apply marker_eqb_eq in T. congruence.
Qed.
Lemma find_key_plain : forall es k st f, hk_cert k = None ->
  (find_key es k false st f = (st, f) /\ forall e, In e es -> he_marker e <> MRK_NONE) \/
  (exists e, In e es /\ trusts k e /\ find_key es k false st f = (HOST_OK, Some e)) \/
  ((forall e, In e es -> ~ trusts k e) /\ exists e, In e es /\ he_marker e = MRK_NONE /\ find_key es k false st f = (HOST_CHANGED, Some e)).
Proof.
  intros es k st f C. revert st f. induction es as [|e es IH]; intros st f; [left; split; [reflexivity|intros e []]|]. cbn [find_key].
  destruct (marker_eqb (he_marker e) MRK_NONE) eqn:M; cbn [negb].
  - apply marker_eqb_eq in M. destruct (sshkey_equal k (he_key e)) eqn:K.
    + right. left. exists e. apply equal_plain in K; [|exact C]. splits; [left; reflexivity| |reflexivity]. left. auto.
    + assert (NT : ~ trusts k e). { intros [(_ & _ & T)|(T & _)]; [|congruence]. apply equal_plain in T; [congruence|exact C]. }
      destruct (IH HOST_CHANGED (Some e)) as [[A B]|[(e' & A & B & D)|(A & e' & B & D & E)]].
      * right. right. split; [|exists e; splits; auto; left; reflexivity]. intros e' [<- |X]; [exact NT|]. intros [(_ & T & _)|(T & (b & T2))]; [exact (B e' X T)|congruence].
      * right. left. exists e'. splits; auto. right. exact A.
      * right. right. split; [|exists e'; splits; auto; right; exact B]. intros e2 [<- |X]; [exact NT|apply A; exact X].
  - assert (MN : he_marker e <> MRK_NONE) by (intros X; apply marker_eqb_eq in X; congruence).
    assert (NT : ~ trusts k e). { intros [(_ & T & _)|(_ & (b & T))]; congruence. }
    destruct (IH st f) as [[A B]|[(e' & A & B & D)|(A & e' & B & D & E)]].
    + left. split; [exact A|]. intros e' [<- |X]; auto.
    + right. left. exists e'. splits; auto. right. exact A.
    + right. right. split; [|exists e'; splits; auto; right; exact B]. intros e2 [<- |X]; [exact NT|apply A; exact X].
Qed.
