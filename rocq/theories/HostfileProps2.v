(** C64: rewriting a known-hosts file loses nothing and always leaves a whole file. *)
From Coq Require Import String.
From Verif Require Import Base Text MatchModel MatchSpec Base64Model Base64Spec HostfileModel HostfileSpec HostfileProof HostfileProof2 HostfileProof3 HostfileProps.

(** Whatever fails and wherever the process or the machine stops: the file has its
    old contents, or it has the contents the temporary file had when it was
    renamed and the old contents are in the backup; an unsuccessful call never
    changes the file and never leaves the temporary file it made behind. *)
Theorem C64_crash : forall P host ip keys hash s fs content sts ok,
  f_main fs = Some content -> hostfile_replace_entries P host ip keys hash s fs = Some (sts, ok) ->
  (forall st, In st sts -> f_main st = Some content \/ (ok = true /\ f_back st = Some content /\ f_temp st = None /\ st = last sts fs /\
     exists before, In before sts /\ f_main before = Some content /\ f_temp before = f_main st)) /\
  (ok = false -> f_main (last sts fs) = Some content) /\
  (sr_mkstemp s = true -> f_temp (last sts fs) = None) /\
  hd fs sts = fs.
Proof.
  intros P host ip keys hash s fs content sts ok C H. unfold hostfile_replace_entries in H.
  destruct (sr_mkstemp s); cbn [negb] in H.
  2:{ injection H as <- <-. splits; [intros st [<- |[]]; left; exact C|intros _; exact C|discriminate|reflexivity]. }
  destruct (if sr_open s then f_main fs else None) as [c|] eqn:EO.
  2:{ injection H as <- <-. cbn [app last]. splits; [|intros _; exact C|reflexivity|reflexivity]. intros st X. cbn [In] in X. left. intuition (subst; exact C). }
  destruct (hostkeys_foreach P host ip false c (sr_junk s)) as [is|]; [|discriminate].
  destruct (fold_left (host_delete keys) is ([], map (fun _ => (false, false)) keys, false)) as [[out0 masks] md0].
  destruct (add_keys P host ip hash (sr_salt s) 0 keys masks out0 md0) as [[out1 md1] ok1].
  assert (DONE : forall l, (forall st, In st l -> f_main st = Some content) -> hd fs l = fs -> l <> [] ->
     Some (l ++ [mkFS (f_main fs) None (f_back (last l fs))], false) = Some (sts, ok) ->
     (forall st, In st sts -> f_main st = Some content \/ (ok = true /\ f_back st = Some content /\ f_temp st = None /\ st = last sts fs /\
       exists before, In before sts /\ f_main before = Some content /\ f_temp before = f_main st)) /\
     (ok = false -> f_main (last sts fs) = Some content) /\ (true = true -> f_temp (last sts fs) = None) /\ hd fs sts = fs).
  { intros l A B NL E. injection E as <- <-. rewrite last_last. splits; [|intros _; exact C|reflexivity|].
    - intros st X. apply in_app_or in X. left. destruct X as [X|[<- |[]]]; [auto|exact C].
    - destruct l; [congruence|exact B]. }
  destruct ok1; cbn [negb] in H.
  2:{ revert H. apply DONE; [|reflexivity|discriminate]. intros st X. cbn [In] in X. intuition (subst; exact C). }
  destruct md1.
  - destruct (sr_unlink s); cbn [negb] in H. 2:{ revert H. apply DONE; [|reflexivity|discriminate]. intros st X. cbn [In] in X. intuition (subst; exact C). }
    destruct (sr_link s); cbn [negb] in H. 2:{ revert H. apply DONE; [|reflexivity|discriminate]. intros st X. cbn [In] in X. intuition (subst; exact C). }
    destruct (sr_rename s); cbn [negb] in H. 2:{ revert H. apply DONE; [|reflexivity|discriminate]. intros st X. cbn [In] in X. intuition (subst; exact C). }
    injection H as <- <-. cbn [last]. splits; [|discriminate|reflexivity|reflexivity]. intros st X. cbn [In] in X.
    destruct X as [<- |[<- |[<- |[<- |[<- |[<- |[]]]]]]]; try (left; exact C). right. cbn [f_main f_back f_temp]. splits; auto.
    exists (mkFS (f_main fs) (Some (ztake (sr_written s) out1)) (f_main fs)). cbn [f_main f_temp In]. auto 10.
  - injection H as <- <-. cbn [last]. splits; [|discriminate|reflexivity|reflexivity]. intros st X. cbn [In] in X. left. intuition (subst; exact C).
Qed.
Print Assumptions C64_crash.

(** What a successful call puts into the file: the old lines, in order and
    unchanged, without exactly those that name the host (or the address) with an
    unmarked key that was not requested -- comments, invalid lines, markers and
    other hosts all stay -- followed by lines after which every requested key is
    known for the host and for the address.  If there is nothing to remove or
    add the file and its backup are not touched. *)
Theorem C64_contents : forall P host ip keys hash s fs ls,
  hp_ok P -> Forall text_line ls -> short_names ls -> f_main fs = Some (text ls) ->
  plain_name host -> (forall a, ip = Some a -> plain_name a) -> (forall q, In (Some q) keys -> writable P q) ->
  (hash = true -> (forall i, salt_fine (hd [] (sr_salt s i)) /\ salt_fine (hd [] (tl (sr_salt s i)))) /\
     map tolower host = host /\ forall a, ip = Some a -> map tolower a = a) ->
  exists sts ok drop added, hostfile_replace_entries P host ip keys hash s fs = Some (sts, ok) /\
    (forall l, In l ls -> (drop l = true <-> superseded P host ip keys l)) /\
    let now := filter (fun l => negb (drop l)) ls ++ added in
    Forall text_line now /\ short_names now /\
    (forall q, In (Some q) keys -> (exists k, says P now host MRK_NONE k /\ same_key q k) /\
       forall a, ip = Some a -> exists k, says P now a MRK_NONE k /\ same_key q k) /\
    (ok = true -> f_main (last sts fs) = Some (ztake (sr_written s) (text now)) /\ f_back (last sts fs) = Some (text ls)
       \/ now = ls /\ f_main (last sts fs) = Some (text ls) /\ f_back (last sts fs) = f_back fs) /\
    (ok = true -> zlen (text now) <= sr_written s -> f_main (last sts fs) = Some (text now)) /\
    (ok = false <-> sr_mkstemp s = false \/ sr_open s = false \/
       (existsb drop ls || negb (is_nil added)) = true /\ (sr_unlink s = false \/ sr_link s = false \/ sr_rename s = false)) /\
    (existsb drop ls || negb (is_nil added) = false -> forall st, In st sts -> f_main st = Some (text ls) /\ f_back st = f_back fs).
Proof.
  intros P host ip keys hash s fs ls HP T SN FM PN PI WK SL.
  set (drop := fun l => dropb keys (info P host ip l)).
  destruct (delete_fold P host ip keys ls [] [] (map (fun _ => (false, false)) keys) false eq_refl) as (masks & EF & MO); [|reflexivity|].
  { clear. induction keys as [|q keys IH]; cbn [map]; constructor; [destruct q; [split; discriminate|exact I]|exact IH]. }
  cbn [app] in EF, MO. set (kp := kept P host ip keys ls) in *.
  assert (TF : forall l, In l ls -> text_line l) by (apply Forall_forall; exact T).
  assert (KL : forall l, In l kp -> In l ls) by (intros l X; apply filter_In in X; tauto).
  assert (MK : marks_ok (fun q b => if b : bool then known_after P kp host q else forall a, ip = Some a -> known_after P kp a q) keys masks).
  { assert (IK : forall q, In (Some q) keys -> forall b, covered P host ip kp q b -> if b : bool then known_after P kp host q else forall a, ip = Some a -> known_after P kp a q).
    { intros q Iq b (l & k & X1 & X2 & X3 & X4 & X5 & X6). pose proof (KL l X1) as Xl.
      destruct (proj1 (info_matched P host ip l HP (TF l Xl) (fun m h r Y => SN l m h r Xl Y) k) (conj X2 (conj X3 X4))) as (h & r & Y1 & Y2 & Y3 & Y4 & Y5).
      assert (SKY : same_key q k) by (apply equal_plain; [exact (proj1 (WK q Iq))|exact X5]).
      destruct b.
      - exists k. split; [|exact SKY]. exists l, h, r. splits; auto. apply Y4. exact X6.
      - intros a Ea. apply Y5 in X6. destruct X6 as (a' & Ea' & X6). rewrite Ea in Ea'. injection Ea' as <-. exists k. split; [|exact SKY]. exists l, h, r. auto. }
    apply marks_mono_in with (2 := MO). exact IK. }
  destruct (add_keys_ok P host ip hash (sr_salt s) HP PN PI SL kp keys masks WK MK 0%nat (text kp) (existsb drop ls)) as (al & EA & TA & SA & KA).
  assert (DS : forall l, In l ls -> (drop l = true <-> superseded P host ip keys l)).
  { intros l Il. pose proof (info_matched P host ip l HP (TF l Il) (fun m h r Y => SN l m h r Il Y)) as IM. unfold drop, superseded. split.
    - intros D. unfold dropb in D. destruct (li_status (info P host ip l)) eqn:S; try discriminate. destruct (li_marker (info P host ip l)) eqn:M; try discriminate.
      destruct (li_key (info P host ip l)) as [k|] eqn:K; [|discriminate]. destruct (proj1 (IM k) (conj eq_refl (conj eq_refl eq_refl))) as (h & r & Y1 & Y2 & Y3 & _).
      exists h, r, k. splits; auto. intros q Iq SK. apply (equal_plain q k (proj1 (WK q Iq))) in SK. unfold wanted in D.
      assert (existsb (fun q => match q with Some q => sshkey_equal q k | None => false end) keys = true) as X by (apply existsb_exists; exists (Some q); auto).
      rewrite X in D. discriminate.
    - intros (h & r & k & Y1 & Y2 & Y3 & Y4).
      assert (S : li_status (info P host ip l) = HKF_MATCHED /\ li_marker (info P host ip l) = MRK_NONE /\ li_key (info P host ip l) = Some k).
      { destruct (IM k) as [_ IM2]. apply IM2. exists h, r.
        destruct (TF l Il) as (_ & _ & L). pose proof (proj2 (parts_iff l MRK_NONE h r) Y1) as E. pose proof (line_parts P host ip false l) as H. rewrite E in H. destruct (entry_sizes _ _ _ _ Y1) as [L1 L2].
        assert (NM : forall h0, match_maybe_hashed P h0 h = Some true <-> listed P h0 h). { intros h0. apply (names_match P h0 h HP (SN _ _ _ _ Il Y1)). lia. }
        assert (NB : match_maybe_hashed P host h <> None). { intros B. destruct Y2 as [Y2|(a & _ & Y2)]; apply NM in Y2; rewrite (bad_hash_any P host _ h HP B) in Y2; discriminate. }
        assert (NI : forall a, match_maybe_hashed P a h <> None). { intros a B. apply NB. exact (bad_hash_any P a _ h HP B). }
        pose proof (proj2 (read_key P r k ltac:(lia)) Y3) as RK. rewrite RK in H. cbn [andb] in H. unfold info. rewrite H.
        destruct (match_maybe_hashed P host h) as [mh|] eqn:MH; [|congruence].
        destruct ip as [a|].
        - destruct (match_maybe_hashed P a h) as [mi|] eqn:MI; [|destruct (NI a MI)]. cbn [li_host li_ip]. splits; auto.
          + rewrite <- NM, MH. split; congruence.
          + assert (mips P (Some a) h <-> listed P a h) as ->. { unfold mips. split; [intros (b & B & X); congruence|eauto]. } rewrite <- NM, MI. split; congruence.
        - cbn [li_host li_ip]. splits; auto.
          + rewrite <- NM, MH. split; congruence.
          + split; [discriminate|]. intros (a & X & _). discriminate. }
      destruct S as (S1 & S2 & S3). unfold dropb. rewrite S1, S2, S3. apply negb_true_iff. unfold wanted. destruct (existsb _ keys) eqn:X; [|reflexivity]. exfalso.
      apply existsb_exists in X. destruct X as ([q|] & X1 & X2); [|discriminate]. apply (Y4 q X1). apply equal_plain; [exact (proj1 (WK q X1))|exact X2]. }
  assert (NOW : Forall text_line (kp ++ al) /\ short_names (kp ++ al)).
  { split.
    - apply Forall_app. split; [|exact TA]. apply Forall_forall. intros l X. apply TF, KL, X.
    - intros l m h r X E. apply in_app_or in X. destruct X as [X|X]; [exact (SN l m h r (KL l X) E)|]. rewrite Forall_forall in SA. exact (SA l X m h r E). }
  assert (SAME : existsb drop ls || negb (is_nil al) = false -> kp ++ al = ls).
  { intros X. apply orb_false_iff in X. destruct X as [X1 X2]. destruct al; [|discriminate]. rewrite app_nil_r. unfold kp, kept. fold drop. clear - X1. induction ls as [|l ls IH]; [reflexivity|].
    cbn [existsb] in X1. apply orb_false_iff in X1. destruct X1 as [X1 X2]. cbn [filter]. unfold drop in X1. rewrite X1. cbn [negb]. f_equal. apply IH. exact X2. }
  unfold hostfile_replace_entries. rewrite FM. destruct (sr_mkstemp s) eqn:MKS; cbn [negb].
  2:{ do 2 eexists. exists drop, al. split; [reflexivity|]. split; [exact DS|]. cbv zeta. fold kp. change (filter (fun l => negb (drop l)) ls) with kp. splits; try tauto; try discriminate. 
      intros _ st [<- |[]]. auto. }
  destruct (sr_open s) eqn:OP.
  2:{ do 2 eexists. exists drop, al. split; [reflexivity|]. split; [exact DS|]. cbv zeta. change (filter (fun l => negb (drop l)) ls) with kp. splits; try tauto; try discriminate.
      intros _ st X. cbn [app In last f_back f_main] in X. intuition (subst; auto). }
  rewrite hostkeys_text by exact T. rewrite scan_infos, EF. fold drop. rewrite EA.
  cbn [negb]. rewrite <- text_app.
  destruct (existsb drop ls || negb (is_nil al)) eqn:MD.
  - destruct (sr_unlink s); cbn [negb].
    2:{ do 2 eexists. exists drop, al. split; [reflexivity|]. split; [exact DS|]. cbv zeta. rewrite MD. change (filter (fun l => negb (drop l)) ls) with kp. splits; try tauto; try discriminate. }
    destruct (sr_link s); cbn [negb].
    2:{ do 2 eexists. exists drop, al. split; [reflexivity|]. split; [exact DS|]. cbv zeta. rewrite MD. change (filter (fun l => negb (drop l)) ls) with kp. splits; try tauto; try discriminate. }
    destruct (sr_rename s); cbn [negb].
    2:{ do 2 eexists. exists drop, al. split; [reflexivity|]. split; [exact DS|]. cbv zeta. rewrite MD. change (filter (fun l => negb (drop l)) ls) with kp. splits; try tauto; try discriminate. }
    do 2 eexists. exists drop, al. split; [reflexivity|]. split; [exact DS|]. cbv zeta. rewrite MD. change (filter (fun l => negb (drop l)) ls) with kp. cbn [last f_main f_back]. splits; try tauto; try discriminate.
    all: try (intros _ LW; f_equal; apply ztake_all; exact LW).
    all: try (split; [discriminate|]; intros [X|[X|(_ & [X|[X|X]])]]; discriminate).
  - do 2 eexists. exists drop, al. split; [reflexivity|]. split; [exact DS|]. cbv zeta. rewrite MD. change (filter (fun l => negb (drop l)) ls) with kp. cbn [last f_main f_back]. splits; try tauto; try discriminate.
    all: try (intros _; right; splits; [first [exact (SAME eq_refl)|exact (SAME MD)]|reflexivity|reflexivity]).
    all: try (intros _ _; first [rewrite (SAME eq_refl)|rewrite (SAME MD)]; reflexivity).
    all: try (split; [discriminate|]; intros [X|[X|(X & _)]]; discriminate).
    all: intros _ st X; cbn [In] in X; destruct X as [<- |[<- |[<- |[<- |[]]]]]; auto.
Qed.
Print Assumptions C64_contents.

Definition ex_fs : fsys := mkFS (Some (text [bs "# my hosts"; bs "h t QQ=="; bs "@revoked h t QQ=="; bs "*.org t Qw=="; bs "h,i t Qg=="])) None (Some (bs "older")).
Definition ex_run (w : Z) : sysrun := mkSR true true true true true w (fun _ => []) [].
Example C64_ex : plain_name (bs "h") /\ writable ex_P (ex_key 66) /\ writable ex_P (ex_key 68) /\
  hostfile_replace_entries ex_P (bs "h") (Some (bs "9.9")) [Some (ex_key 66); None; Some (ex_key 68)] false (ex_run 1000) ex_fs =
  Some ([ex_fs; mkFS (f_main ex_fs) (Some []) (f_back ex_fs);
    mkFS (f_main ex_fs) (Some (text [bs "# my hosts"; bs "@revoked h t QQ=="; bs "*.org t Qw=="; bs "h,i t Qg=="; bs "9.9 t Qg=="; bs "h,9.9 t RA=="])) (f_back ex_fs);
    mkFS (f_main ex_fs) (Some (text [bs "# my hosts"; bs "@revoked h t QQ=="; bs "*.org t Qw=="; bs "h,i t Qg=="; bs "9.9 t Qg=="; bs "h,9.9 t RA=="])) None;
    mkFS (f_main ex_fs) (Some (text [bs "# my hosts"; bs "@revoked h t QQ=="; bs "*.org t Qw=="; bs "h,i t Qg=="; bs "9.9 t Qg=="; bs "h,9.9 t RA=="])) (f_main ex_fs);
    mkFS (Some (text [bs "# my hosts"; bs "@revoked h t QQ=="; bs "*.org t Qw=="; bs "h,i t Qg=="; bs "9.9 t Qg=="; bs "h,9.9 t RA=="])) None (f_main ex_fs)], true).
Proof.
  assert (PN : forall n, n = bs "h" \/ n = bs "t" -> plain_name n).
  { intros n [-> | ->]; (split; [discriminate|]); (split; [reflexivity|]); constructor; try constructor; unfold plain_char, blank; vm_compute; intuition discriminate. }
  splits; [apply PN; auto| | |vm_compute; reflexivity].
  - unfold writable. splits; try reflexivity; [apply PN; auto|repeat constructor; unfold is_byte; cbn; lia|discriminate].
  - unfold writable. splits; try reflexivity; [apply PN; auto|repeat constructor; unfold is_byte; cbn; lia|discriminate].
Qed.

(** Errors while writing the temporary file (a full disk) are not looked at: the
    call can succeed and leave a file without the lines of other hosts (the
    backup still has them). *)
Theorem C64_short_write_refuted : exists P host keys s fs sts, hp_ok P /\ plain_name host /\ (forall q, In (Some q) keys -> writable P q) /\
  f_main fs = Some (text [bs "*.org t Qw=="; bs "h t QQ=="]) /\
  hostfile_replace_entries P host None keys false s fs = Some (sts, true) /\ f_main (last sts fs) = Some (bs "*.o").
Proof.
  exists ex_P, (bs "h"), [], (ex_run 3), (mkFS (Some (text [bs "*.org t Qw=="; bs "h t QQ=="])) None None). eexists. splits; try reflexivity.
  - exact ex_P_ok.
  - split; [discriminate|]. split; [reflexivity|]. constructor; [|constructor]. unfold plain_char, blank. vm_compute. intuition discriminate.
  - intros q [].
Qed.
Print Assumptions C64_short_write_refuted.

(** Adding a key: the old contents stay as they are; an unfinished last line is
    finished first; the new line makes the key known for the host. *)
Theorem C64_append : forall P ls part host k hash salts, hp_ok P -> plain_name host -> writable P k -> text_line part ->
  (hash = true -> salt_fine (hd [] salts) /\ salt_fine (hd [] (tl salts)) /\ map tolower host = host) ->
  exists l, text_line l /\ says P [l] host MRK_NONE k /\
    add_host_to_hostfile P (text ls ++ part) host k hash salts =
      (text (ls ++ (if is_nil part then [] else [part]) ++ [l]), true) /\
    exists more, text (ls ++ (if is_nil part then [] else [part]) ++ [l]) = (text ls ++ part) ++ more.
Proof.
  intros P ls part host k hash salts HP PN W (T10 & _) SL. unfold add_host_to_hostfile.
  assert (WL : exists l, write_host_entry P host None k hash salts = (text [l], true) /\ text_line l /\ says P [l] host MRK_NONE k).
  { unfold write_host_entry. destruct hash.
    - destruct (SL eq_refl) as (S1 & _ & S3). destruct (write_one_ok P host k (Some (hd [] salts)) HP W PN) as (l & -> & T & _ & SY); [intros s [= <-]; auto|]. exists l. auto.
    - destruct (write_one_ok P host k None HP W PN) as (l & -> & T & _ & SY); [discriminate|]. exists l. auto. }
  destruct WL as (l & -> & T & SY). exists l. split; [exact T|]. split; [exact SY|].
  assert (LN : last_is_nl (text ls ++ part) = is_nil part).
  { unfold last_is_nl. rewrite rev_app_distr. destruct part as [|c part].
    - cbn [rev app is_nil]. destruct (rev (text ls)) as [|x r] eqn:E; [reflexivity|]. destruct ls as [|l0 ls0] using rev_ind; [discriminate E|]. rewrite text_app, text_one, !rev_app_distr in E. injection E as <- _. reflexivity.
    - destruct (rev (c :: part)) as [|x r] eqn:E; [apply (f_equal (@length Z)) in E; rewrite rev_length in E; discriminate|]. cbn [app is_nil].
      assert (In x (c :: part)) by (apply in_rev; rewrite E; left; reflexivity). destruct (x =? 10) eqn:X; [|reflexivity]. exfalso. apply T10. replace 10 with x by lia. assumption. }
  rewrite LN. destruct part as [|c part]; cbn [is_nil].
  - cbn [app]. rewrite !app_nil_r, text_app. split; [reflexivity|]. eauto.
  - cbn [app]. change ([c :: part; l]) with ([c :: part] ++ [l]). rewrite text_app, text_app, !text_one. split.
    + f_equal. rewrite <- !app_assoc. reflexivity.
    + exists ([10] ++ l ++ [10]). rewrite <- !app_assoc. reflexivity.
Qed.
Print Assumptions C64_append.
Example C64_append_ex : add_host_to_hostfile ex_P (bs "a t QQ==") (bs "H") (ex_key 66) false [] = (text [bs "a t QQ=="; bs "h t Qg=="], true).
Proof. reflexivity. Qed.
