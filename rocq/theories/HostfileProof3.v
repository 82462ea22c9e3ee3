(** Proofs about replacing and adding known-hosts entries. *)
From Coq Require Import String.
From Verif Require Import Base Text SshbufModel AuthOptModel AuthOptProof KrlProof5 MatchModel MatchSpec MatchProps Base64Model Base64Spec Base64Proof Base64Props HostfileModel HostfileSpec HostfileProof HostfileProof2.

Lemma pure_line_all : forall P host ip l, exists i, pure_line P host ip false l = Some i /\ li_line i = l.
Proof.
  intros P host ip l. unfold pure_line. destruct (match drop_ws l with [] => true | c :: _ => c =? 35 end); [eexists; split; reflexivity|].
  destruct (pure_markers (drop_ws l)) as [[mk cp1]|]; [|eexists; split; reflexivity]. destruct (till_ws cp1) as [hosts r]. cbv zeta.
  destruct (match_maybe_hashed P host hosts) as [mh|]; [|eexists; split; reflexivity].
  destruct (match ip with None => Some false | Some a => match_maybe_hashed P a hosts end) as [mi|]; [|eexists; split; reflexivity]. cbn [andb].
  destruct (match drop_ws (tl r) with [] => true | d :: _ => d =? 35 end); [eexists; split; reflexivity|].
  destruct (sshkey_read P (drop_ws (tl r))); eexists; split; reflexivity.
Qed.
Definition info (P : hprims) (host : list Z) (ip : option (list Z)) (l : list Z) : line_info :=
  match pure_line P host ip false l with Some i => i | None => mkLI l HKF_COMMENT false false MRK_NONE None end.
Lemma scan_infos : forall P host ip ls, flat_map (fun l => opt_list (pure_line P host ip false l)) ls = map (info P host ip) ls.
Proof.
  intros. induction ls as [|l ls IH]; [reflexivity|]. cbn [flat_map map]. rewrite IH. unfold info at 2. destruct (pure_line_all P host ip l) as (i & -> & _). reflexivity.
Qed.
Lemma info_line : forall P host ip l, li_line (info P host ip l) = l.
Proof. intros. unfold info. destruct (pure_line_all P host ip l) as (i & -> & E). exact E. Qed.

(** A line with a usable key: what is reported *)
Lemma bad_hash_any : forall P a b hosts, hp_ok P -> match_maybe_hashed P a hosts = None -> match_maybe_hashed P b hosts = None.
Proof.
  intros P a b hosts HP H. unfold match_maybe_hashed in *. destruct hosts as [|c t].
  { destruct (match_hostname a []) as [v|]; [|discriminate]. destruct v as [|p|p]; try discriminate. destruct p; discriminate. }
  destruct (c =? HASH_DELIM).
  2:{ destruct (match_hostname a (c :: t)) as [v|]; [|discriminate]. destruct v as [|p|p]; try discriminate. destruct p; discriminate. }
  unfold host_hash in *. destruct (extract_salt (c :: t) (repeat 0 256)) as [salt|] eqn:X; [|reflexivity].
  assert (S : is_bytes salt /\ zlen salt = 20).
  { unfold extract_salt in X. destruct (zlen (c :: t) <? 3); [discriminate|]. destruct (negb (beqb (ztake 3 (c :: t)) HASH_MAGIC)); [discriminate|].
    destruct (before HASH_DELIM (zdrop 3 (c :: t))) as [bb|]; [|discriminate]. destruct ((zlen bb =? 0) || (1024 <? zlen bb)) eqn:L; [discriminate|].
    destruct (pton_spec bb (repeat 0 256)) as [(d & t' & D1 & D2 & D3 & D4 & D5)|[D4 _]]; [lia| |rewrite D4 in X; discriminate].
    rewrite D4 in X. destruct (zlen d =? 20) eqn:L20; [|discriminate]. injection X as <-. rewrite D5. split; [exact D1|lia]. }
  rewrite hash_with_ok in H by tauto. discriminate.
Qed.
Definition mips (P : hprims) (ip : option (list Z)) (hosts : list Z) : Prop := exists a, ip = Some a /\ listed P a hosts.
Lemma info_matched : forall P host ip l, hp_ok P -> text_line l ->
  (forall m hosts rest, entry_line l m hosts rest -> Forall MatchSpec.fits (entries hosts)) ->
  forall k, (li_status (info P host ip l) = HKF_MATCHED /\ li_marker (info P host ip l) = MRK_NONE /\ li_key (info P host ip l) = Some k) <->
  exists hosts rest, entry_line l MRK_NONE hosts rest /\ (listed P host hosts \/ mips P ip hosts) /\ key_text P rest k /\
     (li_host (info P host ip l) = true <-> listed P host hosts) /\ (li_ip (info P host ip l) = true <-> mips P ip hosts).
Proof.
  intros P host ip l HP (_ & _ & L) F k. unfold info. destruct (pure_line_all P host ip l) as (i & Ei & _). rewrite Ei.
  pose proof (line_parts P host ip false l) as H. destruct (parts l) as [[[m hosts] rest]|] eqn:E.
  2:{ destruct (H i Ei) as (K & _ & S). split; [intros (_ & _ & X); congruence|]. intros (hosts & rest & X & _). apply parts_iff in X. congruence. }
  rewrite Ei in H. pose proof (proj1 (parts_iff _ _ _ _) E) as EL. destruct (entry_sizes _ _ _ _ EL) as [L1 L2].
  assert (NM : forall h, match_maybe_hashed P h hosts = Some true <-> listed P h hosts). { intros h. apply (names_match P h hosts HP (F _ _ _ EL)). lia. }
  assert (UQ : forall h r, entry_line l MRK_NONE h r -> m = MRK_NONE /\ h = hosts /\ r = rest). { intros h r X. apply parts_iff in X. rewrite E in X. injection X as -> -> ->. auto. }
  cbn [andb] in H. destruct (match_maybe_hashed P host hosts) as [mh|] eqn:MH.
  2:{ injection H as ->. cbn [li_status]. split; [intros (X & _); discriminate|]. intros (h & r & X & Y & _). destruct (UQ _ _ X) as (_ & -> & ->).
      exfalso. destruct Y as [Y|(a & _ & Y)]; apply NM in Y; rewrite (bad_hash_any P host _ hosts HP MH) in Y; discriminate. }
  assert (IP : exists mi, (match ip with None => Some false | Some a => match_maybe_hashed P a hosts end) = Some mi /\ (mi = true <-> mips P ip hosts)).
  { destruct ip as [a|].
    - destruct (match_maybe_hashed P a hosts) as [mi|] eqn:MI; [|rewrite (bad_hash_any P a host hosts HP MI) in MH; discriminate]. exists mi. split; [reflexivity|].
      assert (mips P (Some a) hosts <-> listed P a hosts) as ->. { unfold mips. split; [intros (b & B & X); congruence|eauto]. }
      rewrite <- NM, MI. split; congruence.
    - exists false. split; [reflexivity|]. split; [discriminate|]. intros (a & X & _). discriminate. }
  destruct IP as (mi & IE & IM). rewrite IE in H.
  assert (HM : mh = true <-> listed P host hosts) by (rewrite <- NM; rewrite MH; split; congruence).
  pose proof (read_key P rest k ltac:(lia)) as RK.
  destruct (sshkey_read P rest) as [k'|] eqn:SR; injection H as ->; cbn [li_status li_marker li_key li_host li_ip].
  - split.
    + intros (X & -> & [= ->]). exists hosts, rest. splits; auto; [|apply RK; reflexivity]. rewrite <- HM, <- IM. destruct mh, mi; auto; discriminate.
    + intros (h & r & X & Y & Z1 & _). destruct (UQ _ _ X) as (-> & -> & ->). apply RK in Z1. splits; auto. rewrite <- HM, <- IM in Y. destruct Y as [-> | ->]; [reflexivity|]. rewrite orb_true_r. reflexivity.
  - split; [intros (X & _); discriminate|]. intros (h & r & X & Y & Z1 & _). destruct (UQ _ _ X) as (-> & -> & ->). apply RK in Z1. discriminate.
Qed.

(** ** Which lines stay *)
Definition wanted (keys : list (option hkey)) (k : hkey) : bool :=
  existsb (fun q => match q with Some q => sshkey_equal q k | None => false end) keys.
Lemma mark_none : forall keys k mh mi masks, length masks = length keys -> (mark_key keys k mh mi masks = None <-> wanted keys k = false).
Proof.
  induction keys as [|q keys IH]; intros k mh mi masks L; destruct masks as [|[a b] masks]; try discriminate L; cbn [mark_key wanted existsb]; [tauto|].
  injection L as L. destruct (match q with Some q => sshkey_equal q k | None => false end); [cbn [orb]; split; discriminate|]. cbn [orb].
  rewrite <- (IH k mh mi masks L). unfold wanted. destruct (mark_key keys k mh mi masks); split; congruence.
Qed.
(** marks: entry j says something true about requested key j *)
Definition marks_ok (good : hkey -> bool -> Prop) (keys : list (option hkey)) (masks : list (bool * bool)) : Prop :=
  Forall2 (fun q m => match q with Some q => (fst m = true -> good q true) /\ (snd m = true -> good q false) | None => True end) keys masks.
Lemma marks_mono : forall (g1 g2 : hkey -> bool -> Prop) keys masks, (forall q b, g1 q b -> g2 q b) -> marks_ok g1 keys masks -> marks_ok g2 keys masks.
Proof. intros g1 g2 keys masks M H. induction H as [|q m keys masks A B IH]; constructor; auto. destruct q; auto. destruct A. auto. Qed.
Lemma marks_mono_in : forall (g1 g2 : hkey -> bool -> Prop) keys masks, (forall q, In (Some q) keys -> forall b, g1 q b -> g2 q b) -> marks_ok g1 keys masks -> marks_ok g2 keys masks.
Proof.
  intros g1 g2 keys masks M H. induction H as [|q m keys masks A B IH]; constructor.
  - destruct q as [q|]; [|exact I]. destruct A as [A1 A2]. split; intros X; apply (M q (or_introl eq_refl)); auto.
  - apply IH. intros q' I'. apply M. right. exact I'.
Qed.
Lemma mark_some : forall good keys k mh mi masks masks', marks_ok good keys masks ->
  (forall q, sshkey_equal q k = true -> (mh = true -> good q true) /\ (mi = true -> good q false)) ->
  mark_key keys k mh mi masks = Some masks' -> marks_ok good keys masks'.
Proof.
  intros good keys k mh mi masks masks' H G. revert masks'. induction H as [|q [a b] keys masks A B IH]; intros masks' M; cbn [mark_key] in M; [discriminate|].
  destruct (match q with Some q => sshkey_equal q k | None => false end) eqn:E.
  - injection M as <-. constructor; [|exact B]. destruct q as [q|]; [|exact I]. destruct A as [A1 A2]. cbn [fst snd] in *. destruct (G q E) as [G1 G2].
    rewrite !orb_true_iff. split; intros [X|X]; auto.
  - destruct (mark_key keys k mh mi masks) as [ms|]; [|discriminate]. injection M as <-. constructor; auto. apply IH. reflexivity.
Qed.
Lemma marks_len : forall good keys masks, marks_ok good keys masks -> length masks = length keys.
Proof. intros good keys masks H. induction H; cbn [length]; congruence. Qed.

Definition dropb (keys : list (option hkey)) (i : line_info) : bool :=
  match li_status i, li_marker i, li_key i with
  | HKF_MATCHED, MRK_NONE, Some k => negb (wanted keys k)
  | _, _, _ => false
  end.
Lemma text_app : forall a b, text (a ++ b) = text a ++ text b.
Proof. intros. unfold text. apply flat_map_app. Qed.
Lemma text_one : forall l, text [l] = l ++ [10].
Proof. intros. unfold text. cbn [flat_map]. apply app_nil_r. Qed.

Section Delete.
Variables (P : hprims) (host : list Z) (ip : option (list Z)) (keys : list (option hkey)).
Definition kept (ls : list (list Z)) : list (list Z) := filter (fun l => negb (dropb keys (info P host ip l))) ls.
(** some line of [ls] has an equal key and names the host ([true]) or the address *)
Definition covered (ls : list (list Z)) (q : hkey) (b : bool) : Prop :=
  exists l k, In l ls /\ li_status (info P host ip l) = HKF_MATCHED /\ li_marker (info P host ip l) = MRK_NONE /\ li_key (info P host ip l) = Some k /\
    sshkey_equal q k = true /\ (if b then li_host (info P host ip l) else li_ip (info P host ip l)) = true.
Lemma delete_fold : forall ls done out masks modified, out = text (kept done) -> marks_ok (covered (kept done)) keys masks ->
  modified = existsb (fun l => dropb keys (info P host ip l)) done ->
  exists masks', fold_left (host_delete keys) (map (info P host ip) ls) (out, masks, modified) =
    (text (kept (done ++ ls)), masks', existsb (fun l => dropb keys (info P host ip l)) (done ++ ls)) /\
  marks_ok (covered (kept (done ++ ls))) keys masks'.
Proof.
  induction ls as [|l ls IH]; intros done out masks modified Ho Hm Hd; cbn [map fold_left].
  { rewrite app_nil_r. exists masks. subst. auto. }
  assert (EA : done ++ l :: ls = (done ++ [l]) ++ ls) by (rewrite <- app_assoc; reflexivity). rewrite EA.
  assert (KA : kept (done ++ [l]) = kept done ++ (if dropb keys (info P host ip l) then [] else [l])).
  { unfold kept. rewrite filter_app. cbn [filter]. destruct (dropb keys (info P host ip l)); reflexivity. }
  assert (MM : forall mk, marks_ok (covered (kept done)) keys mk -> marks_ok (covered (kept (done ++ [l]))) keys mk).
  { intros mk. apply marks_mono. intros q b (l' & k & X1 & X2). exists l', k. split; [|exact X2]. rewrite KA. apply in_or_app. left. exact X1. }
  assert (ST : exists out' masks' md', host_delete keys (out, masks, modified) (info P host ip l) = (out', masks', md') /\ out' = text (kept (done ++ [l])) /\
     marks_ok (covered (kept (done ++ [l]))) keys masks' /\ md' = existsb (fun l => dropb keys (info P host ip l)) (done ++ [l])).
  { rewrite existsb_app. cbn [existsb]. rewrite orb_false_r, <- Hd. unfold host_delete.
    assert (STAY : dropb keys (info P host ip l) = false -> out ++ li_line (info P host ip l) ++ [10] = text (kept (done ++ [l]))).
    { intros D. rewrite KA, D, text_app, text_one, info_line, Ho. reflexivity. }
    destruct (li_status (info P host ip l)) eqn:S; destruct (li_marker (info P host ip l)) eqn:M; destruct (li_key (info P host ip l)) as [k|] eqn:K;
      try (assert (dropb keys (info P host ip l) = false) as D by (unfold dropb; rewrite ?S, ?M, ?K; reflexivity);
           do 3 eexists; (split; [reflexivity|]); (split; [apply STAY; exact D|]); (split; [apply MM; exact Hm|]); rewrite D, orb_false_r; reflexivity).
    assert (D : dropb keys (info P host ip l) = negb (wanted keys k)) by (unfold dropb; rewrite ?S, ?M, ?K; reflexivity).
    pose proof (mark_none keys k (li_host (info P host ip l)) (li_ip (info P host ip l)) masks (marks_len _ _ _ Hm)) as MN.
    destruct (mark_key keys k (li_host (info P host ip l)) (li_ip (info P host ip l)) masks) as [ms|] eqn:MK.
    - assert (W : wanted keys k = true) by (destruct (wanted keys k); [reflexivity|]; destruct MN as [_ MN]; discriminate (MN eq_refl)).
      rewrite W in D. cbn [negb] in D. do 3 eexists. split; [reflexivity|]. split; [apply STAY; exact D|]. split; [|rewrite D, orb_false_r; reflexivity].
      eapply mark_some; [apply MM; exact Hm| |exact MK]. intros q Q.
      assert (I : In l (kept (done ++ [l]))) by (rewrite KA, D; apply in_or_app; right; left; reflexivity).
      split; intros X; exists l, k; splits; auto.
    - destruct MN as [MN _]. rewrite (MN eq_refl) in D. cbn [negb] in D. do 3 eexists. split; [reflexivity|]. split; [rewrite KA, D, app_nil_r; exact Ho|]. split; [apply MM; exact Hm|].
      rewrite D, orb_true_r. reflexivity. }
  destruct ST as (out' & masks' & md' & E & O' & M' & D'). rewrite E. apply (IH (done ++ [l]) out' masks' md' O' M' D').
Qed.
End Delete.

(** ** Written lines *)
Lemma tolower_plain : forall c, plain_char c -> plain_char (tolower c).
Proof. intros c H. unfold plain_char, blank, tolower, isupper in *. destruct ((65 <=? c) && (c <=? 90)) eqn:E; lia. Qed.
Lemma tolower_idem : forall c, tolower (tolower c) = tolower c.
Proof. intros c. unfold tolower, isupper. destruct ((65 <=? c) && (c <=? 90)) eqn:E; [|rewrite E; reflexivity]. destruct ((65 <=? c + 32) && (c + 32 <=? 90)) eqn:E2; lia. Qed.
Lemma lower_plain : forall n, plain_name n -> plain_name (map tolower n).
Proof.
  intros n (A & B & C). unfold plain_name. splits.
  - destruct n; [congruence|discriminate].
  - unfold zlen in *. rewrite map_length. exact B.
  - induction C as [|c n D E IH]; constructor; [apply tolower_plain; exact D|]. destruct n; [constructor|]. apply IH; [discriminate|]. rewrite zlen_cons in B. lia.
Qed.
Lemma lower_idem : forall n, map tolower (map tolower n) = map tolower n.
Proof. intros n. rewrite map_map. apply map_ext. apply tolower_idem. Qed.
Lemma plain_solid : forall n, plain_name n -> solid n.
Proof. intros n (A & _ & C). split; [exact A|]. apply Forall_impl with (2 := C). intros c (H & _). exact H. Qed.
Lemma plain_hd : forall n, plain_name n -> plain_char (hd 0 n).
Proof. intros n (A & _ & C). destruct n as [|c n]; [congruence|]. inversion C; subst. assumption. Qed.
Lemma glob_self : forall n, Forall plain_char n -> glob n n.
Proof. intros n H. induction H as [|c n A B IH]; constructor; auto; unfold plain_char in A; lia. Qed.

Lemma split_none : forall n, ~ In 44 n -> split 44 n = [n].
Proof.
  induction n as [|c n IH]; intros H; [reflexivity|]. cbn [split]. destruct (c =? 44) eqn:E; [exfalso; apply H; left; lia|].
  rewrite IH by (intros X; apply H; right; exact X). reflexivity.
Qed.
Lemma split_at : forall n m, ~ In 44 n -> split 44 (n ++ 44 :: m) = n :: split 44 m.
Proof.
  induction n as [|c n IH]; intros m H; [reflexivity|]. cbn [app split]. destruct (c =? 44) eqn:E; [exfalso; apply H; left; lia|].
  rewrite IH by (intros X; apply H; right; exact X). reflexivity.
Qed.
Lemma plain_nocomma : forall n, plain_name n -> ~ In 44 n.
Proof. intros n (_ & _ & C) X. rewrite Forall_forall in C. apply C in X. unfold plain_char in X. lia. Qed.
Lemma entries_one : forall n, plain_name n -> entries n = [n].
Proof. intros n H. unfold entries. rewrite split_none by (apply plain_nocomma; exact H). destruct H as (A & _). destruct n; [congruence|reflexivity]. Qed.
Lemma entries_two : forall n m, plain_name n -> plain_name m -> entries (n ++ 44 :: m) = [n; m].
Proof.
  intros n m H K. unfold entries. rewrite split_at by (apply plain_nocomma; exact H). rewrite split_none by (apply plain_nocomma; exact K). destruct K as (A & _). destruct m; [congruence|reflexivity].
Qed.
Lemma plain_positive : forall n, plain_name n -> negative n = false /\ covers true (map tolower n) n.
Proof.
  intros n H. pose proof (plain_hd n H) as D. assert (N : negative n = false). { destruct n as [|c n]; [reflexivity|]. cbn [negative hd] in *. unfold plain_char in D. lia. }
  split; [exact N|]. unfold covers, fold_case, body. rewrite N. apply glob_self. exact (proj2 (proj2 (lower_plain n H))).
Qed.
Lemma listed_plain : forall P es hosts n, hd 0 hosts <> 124 -> entries hosts = es -> Forall plain_name es -> In n es ->
  forall h, map tolower h = map tolower n -> listed P h hosts.
Proof.
  intros P es hosts n Hh E F I h Eh. unfold listed. replace (hd 0 hosts =? 124) with false by lia. rewrite E, Eh. rewrite Forall_forall in F. split.
  - intros (e & E1 & E2 & _). destruct (plain_positive e (F e E1)) as [X _]. congruence.
  - exists n. split; [exact I|]. apply plain_positive. apply F. exact I.
Qed.

Lemma write_key : forall P k, writable P k -> sshkey_write k = Some (hk_name k ++ 32 :: base64 (hk_blob k)).
Proof.
  intros P k (_ & _ & _ & B & N & L & _). unfold sshkey_write. destruct (C54_round_trip (hk_blob k) false B L) as (t & -> & -> & _). reflexivity.
Qed.
Lemma base64_nonblank : forall d, is_bytes d -> Forall (fun c => ~ blank c /\ c <> 10 /\ c <> 0) (base64 d).
Proof.
  intros d H. pose proof (letters_nonwhite d H) as W. rewrite Forall_forall in *. intros c X. specialize (W c X).
  assert (c <> 0). { intros ->. apply C54_stray in X; [|exact H]. destruct X as [X|X]; [|discriminate]. vm_compute in X. intuition discriminate. }
  unfold isspace in W. unfold blank. lia.
Qed.
Definition wline (hosts : list Z) (k : hkey) : list Z := hosts ++ 32 :: hk_name k ++ 32 :: base64 (hk_blob k).
Lemma wline_key : forall P k, writable P k -> key_text P (hk_name k ++ 32 :: base64 (hk_blob k)) k.
Proof.
  intros P k (_ & Np & T & B & N & L & Q). exists (hk_name k), [32], (base64 (hk_blob k)), [], (hk_blob k). rewrite app_nil_r. splits; auto.
  - exact (proj2 (plain_solid _ Np)).
  - constructor; [left; reflexivity|constructor].
  - discriminate.
  - split.
    + intros X. apply N, zlen_zero_nil. pose proof (base64_long _ B) as Y. rewrite X, zlen_nil in Y. pose proof (zlen_nonneg _ (hk_blob k)). lia.
    + apply Forall_impl with (2 := base64_nonblank _ B). tauto.
  - apply squeeze_id, letters_nonwhite, B.
Qed.
Lemma wline_entry : forall P hosts k, writable P k -> solid hosts -> hd 0 hosts <> 64 -> hd 0 hosts <> 35 ->
  entry_line (wline hosts k) MRK_NONE hosts (hk_name k ++ 32 :: base64 (hk_blob k)).
Proof.
  intros P hosts k W S A B. destruct W as (_ & Np & _). pose proof (plain_hd _ Np) as D. destruct Np as (N & _).
  assert (HH : hd 0 (hk_name k ++ 32 :: base64 (hk_blob k)) = hd 0 (hk_name k)) by (destruct (hk_name k); [congruence|reflexivity]).
  exists [], [], [32]. rewrite HH. unfold plain_char in D. splits; try tauto; try discriminate; try reflexivity.
  - constructor.
  - split; [reflexivity|exact B].
  - constructor; [left; reflexivity|constructor].
  - destruct (hk_name k); discriminate.
Qed.
Lemma wline_says : forall P hosts k host, writable P k -> solid hosts -> hd 0 hosts <> 64 -> hd 0 hosts <> 35 -> listed P host hosts ->
  says P [wline hosts k] host MRK_NONE k.
Proof. intros. exists (wline hosts k), hosts, (hk_name k ++ 32 :: base64 (hk_blob k)). splits; [left; reflexivity|eapply wline_entry; eassumption|assumption|eapply wline_key; eassumption]. Qed.
Lemma plain_text : forall n, plain_name n -> ~ In 10 n /\ ~ In 0 n.
Proof. intros n (_ & _ & C). rewrite Forall_forall in C. split; intros X; apply C in X; unfold plain_char in X; lia. Qed.
Lemma wline_text : forall P hosts k, writable P k -> ~ In 10 hosts -> ~ In 0 hosts -> zlen hosts < 3000 -> text_line (wline hosts k).
Proof.
  intros P hosts k (_ & Np & _ & B & _ & L & _) H1 H2 H3. pose proof (base64_nonblank _ B) as NB. rewrite Forall_forall in NB. destruct (plain_text _ Np) as [N1 N2].
  unfold wline, text_line. splits.
  - intros X. apply in_app_or in X. destruct X as [X|[X|X]]; [auto|discriminate|]. apply in_app_or in X. destruct X as [X|[X|X]]; [auto|discriminate|]. apply NB in X. lia.
  - intros X. apply in_app_or in X. destruct X as [X|[X|X]]; [auto|discriminate|]. apply in_app_or in X. destruct X as [X|[X|X]]; [auto|discriminate|]. apply NB in X. lia.
  - rewrite zlen_app, zlen_cons, zlen_app, zlen_cons, zlen_base64 by assumption. destruct Np as (_ & Np & _). lia.
Qed.
Lemma hashed_solid : forall P host salt, hp_ok P -> is_bytes salt -> zlen salt = 20 -> let h := hashed_name P host salt in
  solid h /\ hd 0 h = 124 /\ ~ In 10 h /\ ~ In 0 h /\ zlen h = 60.
Proof.
  intros P host salt HP B L h. destruct (HP salt host) as [H1 H2]. pose proof (base64_nonblank _ B) as N1. pose proof (base64_nonblank _ H1) as N2.
  assert (F : Forall (fun c => ~ blank c /\ c <> 10 /\ c <> 0) h).
  { unfold h, hashed_name. apply Forall_app. split; [change (bs "|1|") with [124; 49; 124]; repeat (constructor; [unfold blank; lia|]); constructor|]. apply Forall_app. split; [exact N1|].
    apply Forall_app. split; [change (bs "|") with [124]; repeat (constructor; [unfold blank; lia|]); constructor|exact N2]. }
  splits; [split; [discriminate|apply Forall_impl with (2 := F); tauto]|reflexivity| | |].
  - intros X. rewrite Forall_forall in F. apply F in X. lia.
  - intros X. rewrite Forall_forall in F. apply F in X. lia.
  - unfold h, hashed_name. rewrite !zlen_app, !zlen_base64 by assumption. rewrite L, H2. reflexivity.
Qed.
Lemma hashed_listed : forall P host salt, is_bytes salt -> zlen salt = 20 -> listed P host (hashed_name P host salt).
Proof. intros P host salt B L. unfold listed. change (hd 0 (hashed_name P host salt) =? 124) with true. cbv iota. exists salt. auto. Qed.

Definition salt_fine (s : list Z) : Prop := is_bytes s /\ zlen s = 20.
Lemma says_app_l : forall P a b host m k, says P a host m k -> says P (a ++ b) host m k.
Proof. intros P a b host m k (l & h & r & X & Y). exists l, h, r. split; [apply in_or_app; left; exact X|exact Y]. Qed.
Lemma says_app_r : forall P a b host m k, says P b host m k -> says P (a ++ b) host m k.
Proof. intros P a b host m k (l & h & r & X & Y). exists l, h, r. split; [apply in_or_app; right; exact X|exact Y]. Qed.
Definition short_line (l : list Z) : Prop := forall m hosts rest, entry_line l m hosts rest -> Forall MatchSpec.fits (entries hosts).

Lemma wline_short : forall P hosts k, writable P k -> solid hosts -> hd 0 hosts <> 64 -> hd 0 hosts <> 35 -> Forall MatchSpec.fits (entries hosts) -> short_line (wline hosts k).
Proof.
  intros P hosts k W S A B F m h r E. pose proof (wline_entry P hosts k W S A B) as E2. apply parts_iff in E. apply parts_iff in E2. rewrite E in E2. injection E2 as -> -> ->. exact F.
Qed.
Lemma plain_fits : forall n, plain_name n -> MatchSpec.fits n.
Proof. intros n H. destruct (plain_positive n H) as [N _]. unfold MatchSpec.fits, body. rewrite N. destruct H as (_ & H & _). unfold zlen in H. lia. Qed.

Lemma write_one_ok : forall P name k hash, hp_ok P -> writable P k -> plain_name name -> 
  (forall s, hash = Some s -> salt_fine s /\ map tolower name = name) ->
  exists l, write_one P name k hash = (text [l], true) /\ text_line l /\ short_line l /\ says P [l] name MRK_NONE k.
Proof.
  intros P name k hash HP W N H. unfold write_one. rewrite (write_key P k W). destruct hash as [s|].
  - destruct (H s eq_refl) as ((B & L) & LW). rewrite LW. rewrite hash_with_ok by assumption. destruct (hashed_solid P name s HP B L) as (S & Hh & T1 & T2 & T3).
    exists (wline (hashed_name P name s) k). splits.
    + rewrite text_one. unfold wline. rewrite <- !app_assoc. cbn [app]. rewrite <- !app_assoc. reflexivity.
    + eapply wline_text; eauto. lia.
    + eapply wline_short; eauto; try lia. unfold hashed_name.
      assert (NC : ~ In 44 (hashed_name P name s)).
      { intros X. unfold hashed_name in X. apply in_app_or in X. destruct X as [X|X]; [vm_compute in X; intuition discriminate|]. destruct (HP s name) as [H1 H2].
        assert (AL : forall d, is_bytes d -> ~ In 44 (base64 d)). { intros d D Y. apply C54_stray in Y; [|exact D]. destruct Y as [Y|Y]; [|discriminate]. vm_compute in Y. intuition discriminate. }
        apply in_app_or in X. destruct X as [X|X]; [exact (AL _ B X)|]. apply in_app_or in X. destruct X as [X|X]; [vm_compute in X; intuition discriminate|exact (AL _ H1 X)]. }
      fold (hashed_name P name s). unfold entries. rewrite split_none by exact NC. change (hashed_name P name s) with (124 :: tl (hashed_name P name s)). cbn [drop_last_empty is_nil].
      constructor; [|constructor]. unfold MatchSpec.fits, body. cbn [negative]. change (124 =? 33) with false. cbv iota. unfold zlen in T3. change (124 :: tl (hashed_name P name s)) with (hashed_name P name s). lia.
    + eapply wline_says; eauto; try lia. apply hashed_listed; assumption.
  - pose proof (lower_plain _ N) as LN. pose proof (plain_hd _ LN) as LH. unfold plain_char in LH. destruct (plain_text _ LN) as [T1 T2]. exists (wline (map tolower name) k). splits.
    + rewrite text_one. unfold wline. rewrite <- !app_assoc. cbn [app]. rewrite <- !app_assoc. reflexivity.
    + eapply wline_text; eauto. destruct LN as (_ & LN & _). lia.
    + eapply wline_short; eauto; try tauto. { apply plain_solid; exact LN. } rewrite entries_one by exact LN. constructor; [apply plain_fits; exact LN|constructor].
    + eapply wline_says; eauto; try tauto. { apply plain_solid; exact LN. } eapply listed_plain with (n := map tolower name); [tauto|apply entries_one; exact LN|constructor; [exact LN|constructor]|left; reflexivity|]. rewrite lower_idem. reflexivity.
Qed.
Lemma write_entry_ok : forall P host ip k hash salts, hp_ok P -> writable P k -> plain_name host -> (forall a, ip = Some a -> plain_name a) ->
  (hash = true -> salt_fine (hd [] salts) /\ salt_fine (hd [] (tl salts)) /\ map tolower host = host /\ forall a, ip = Some a -> map tolower a = a) ->
  exists al, write_host_entry P host ip k hash salts = (text al, true) /\ al <> [] /\ Forall text_line al /\ Forall short_line al /\
    says P al host MRK_NONE k /\ forall a, ip = Some a -> says P al a MRK_NONE k.
Proof.
  intros P host ip k hash salts HP W N NI H. unfold write_host_entry. destruct hash.
  - destruct (H eq_refl) as (S1 & S2 & L1 & L2). destruct (write_one_ok P host k (Some (hd [] salts)) HP W N) as (l & -> & T & SH & SY). { intros s [= <-]. auto. }
    destruct ip as [a|].
    + destruct (write_one_ok P a k (Some (hd [] (tl salts))) HP W (NI a eq_refl)) as (l2 & -> & T2 & SH2 & SY2). { intros s [= <-]. auto. }
      exists ([l] ++ [l2]). splits.
      * rewrite text_app. reflexivity.
      * discriminate.
      * apply Forall_app. auto.
      * apply Forall_app. auto.
      * apply says_app_l. exact SY.
      * intros b [= <-]. apply says_app_r. exact SY2.
    + exists [l]. splits; auto; discriminate.
  - destruct ip as [a|].
    + rewrite (write_key P k W). pose proof (lower_plain _ N) as LN. pose proof (NI a eq_refl) as NA. pose proof (plain_hd _ LN) as LH. unfold plain_char in LH.
      destruct (plain_text _ LN) as [T1 T2]. destruct (plain_text _ NA) as [T3 T4].
      set (hosts := map tolower host ++ 44 :: a).
      assert (HH : hd 0 hosts = hd 0 (map tolower host)). { unfold hosts. destruct LN as (LN & _). destruct (map tolower host); [congruence|reflexivity]. }
      assert (SO : solid hosts). { unfold hosts. split; [destruct (map tolower host); discriminate|]. apply Forall_app. split; [apply plain_solid; exact LN|]. constructor; [unfold blank; lia|apply plain_solid; exact NA]. }
      assert (EN : entries hosts = [map tolower host; a]) by (apply entries_two; assumption).
      exists [wline hosts k]. splits; [|discriminate| | | |].
      * rewrite text_one. unfold wline, hosts. repeat (rewrite <- ?app_assoc; cbn [app]). reflexivity.
      * constructor; [|constructor]. eapply wline_text; eauto.
        -- unfold hosts. intros X. apply in_app_or in X. destruct X as [X|[X|X]]; auto; discriminate.
        -- unfold hosts. intros X. apply in_app_or in X. destruct X as [X|[X|X]]; auto; discriminate.
        -- unfold hosts. rewrite zlen_app, zlen_cons. destruct LN as (_ & LN & _). destruct NA as (_ & NA & _). lia.
      * constructor; [|constructor]. eapply wline_short; eauto; try (rewrite HH; tauto). rewrite EN. constructor; [apply plain_fits; exact LN|]. constructor; [apply plain_fits; exact NA|constructor].
      * eapply wline_says; eauto; try (rewrite HH; tauto). eapply listed_plain with (n := map tolower host); [rewrite HH; tauto|exact EN|constructor; [exact LN|constructor; [exact NA|constructor]]|left; reflexivity|]. rewrite lower_idem. reflexivity.
      * intros b [= <-]. eapply wline_says; eauto; try (rewrite HH; tauto). eapply listed_plain with (n := a); [rewrite HH; tauto|exact EN|constructor; [exact LN|constructor; [exact NA|constructor]]|right; left; reflexivity|]. reflexivity.
    + destruct (write_one_ok P host k None HP W N) as (l & -> & T & SH & SY); [discriminate|]. exists [l]. splits; auto; discriminate.
Qed.

(** ** Adding the requested keys *)
Definition known_after (P : hprims) (ls : list (list Z)) (host : list Z) (q : hkey) : Prop := exists k, says P ls host MRK_NONE k /\ same_key q k.
Lemma known_app : forall P a b host q, known_after P a host q \/ known_after P b host q -> known_after P (a ++ b) host q.
Proof. intros P a b host q [(k & X & Y)|(k & X & Y)]; exists k; split; auto; [apply says_app_l|apply says_app_r]; exact X. Qed.
Lemma add_keys_ok : forall P host ip hash salt, hp_ok P -> plain_name host -> (forall a, ip = Some a -> plain_name a) ->
  (hash = true -> (forall i, salt_fine (hd [] (salt i)) /\ salt_fine (hd [] (tl (salt i)))) /\ map tolower host = host /\ forall a, ip = Some a -> map tolower a = a) ->
  forall base keys masks, (forall q, In (Some q) keys -> writable P q) ->
  marks_ok (fun q b => if b : bool then known_after P base host q else forall a, ip = Some a -> known_after P base a q) keys masks ->
  forall i out modified, exists al,
    add_keys P host ip hash salt i keys masks out modified = (out ++ text al, modified || negb (is_nil al), true) /\
    Forall text_line al /\ Forall short_line al /\
    forall q, In (Some q) keys -> known_after P (base ++ al) host q /\ forall a, ip = Some a -> known_after P (base ++ al) a q.
Proof.
  intros P host ip hash salt HP N NI SL base keys masks W M. revert W. induction M as [|q m keys masks A B IH]; intros W i out modified.
  { exists []. cbn [add_keys]. change (text []) with (@nil Z). rewrite app_nil_r, orb_false_r. splits; auto. intros q []. }
  destruct m as [mh mi]. cbn [add_keys]. destruct q as [k|].
  2:{ destruct (IH (fun q X => W q (or_intror X)) (S i) out modified) as (al & E & T & SH & K). exists al. splits; auto. intros q [X|X]; [discriminate|auto]. }
  cbn [fst snd] in A. destruct A as [A1 A2].
  assert (LIFT : forall h al, known_after P base h k -> known_after P (base ++ al) h k) by (intros; apply known_app; auto).
  destruct (mh && (mi || negb (is_some ip))) eqn:SK.
  { destruct (IH (fun q X => W q (or_intror X)) (S i) out modified) as (al & E & T & SH & K). exists al. splits; auto. intros q [X|X]; [|auto]. injection X as <-.
    apply andb_true_iff in SK. destruct SK as [S1 S2]. split; [auto|]. intros a Ea. apply LIFT. rewrite Ea in S2. cbn [is_some negb] in S2. rewrite orb_false_r in S2. apply A2; auto. }
  assert (Wk : writable P k) by (apply W; left; reflexivity).
  assert (NEED : exists al0, (if negb mh && negb mi then write_host_entry P host ip k hash (salt i)
              else if negb mh && (mi || negb (is_some ip)) then write_host_entry P host None k hash (salt i)
              else if mh && negb mi && is_some ip then
                match ip with Some a => write_host_entry P a None k hash (salt i) | None => ([], true) end
              else ([], true)) = (text al0, true) /\ al0 <> [] /\ Forall text_line al0 /\ Forall short_line al0 /\
              (known_after P base host k \/ known_after P al0 host k) /\ forall a, ip = Some a -> known_after P base a k \/ known_after P al0 a k).
  { assert (SELF : forall al h, says P al h MRK_NONE k -> known_after P al h k) by (intros al h X; exists k; split; [exact X|split; reflexivity]).
    destruct mh; cbn [negb andb].
    - destruct mi; [discriminate SK|]. destruct ip as [a|]; [|discriminate SK]. cbn [negb andb is_some].
      destruct (write_entry_ok P a None k hash (salt i) HP Wk (NI a eq_refl)) as (al & -> & X1 & X2 & X3 & X4 & _); [discriminate| |].
      { intros Hh. destruct (SL Hh) as (S1 & S2 & S3). destruct (S1 i). splits; auto. discriminate. }
      exists al. splits; auto. intros b [= <-]. auto.
    - destruct mi; cbn [negb andb orb].
      + destruct (write_entry_ok P host None k hash (salt i) HP Wk N) as (al & -> & X1 & X2 & X3 & X4 & _); [discriminate| |].
        { intros Hh. destruct (SL Hh) as (S1 & S2 & S3). destruct (S1 i). splits; auto. discriminate. }
        exists al. splits; auto.
      + destruct (write_entry_ok P host ip k hash (salt i) HP Wk N NI) as (al & -> & X1 & X2 & X3 & X4 & X5).
        { intros Hh. destruct (SL Hh) as (S1 & S2 & S3). destruct (S1 i). splits; auto. }
        exists al. splits; auto. }
  destruct NEED as (al0 & -> & X1 & X2 & X3 & X4 & X5).
  destruct (IH (fun q X => W q (or_intror X)) (S i) (out ++ text al0) true) as (al & E & T & SH & K). exists (al0 ++ al). splits.
  - rewrite E, text_app, app_assoc. destruct al0; [congruence|]. cbn [app is_nil negb orb]. rewrite orb_true_r. reflexivity.
  - apply Forall_app. auto.
  - apply Forall_app. auto.
  - intros q [X|X].
    + injection X as <-. rewrite app_assoc. split; [apply known_app; left; apply known_app; exact X4|]. intros a Ea. apply known_app. left. apply known_app. exact (X5 a Ea).
    + destruct (K q X) as [K1 K2].
      assert (MID : forall h, known_after P (base ++ al) h q -> known_after P (base ++ al0 ++ al) h q).
      { intros h (k' & (l & hh & r & Y1 & Y2) & Y3). exists k'. split; [|exact Y3]. exists l, hh, r. split; [|exact Y2]. apply in_app_or in Y1. apply in_or_app. destruct Y1; [left; assumption|right; apply in_or_app; right; assumption]. }
      split; [apply MID; exact K1|]. intros a Ea. apply MID. exact (K2 a Ea).
Qed.
