(** Proofs for C57: entries and files. *)
From Coq Require Import String.
From Verif Require Import Base Text SshbufModel SshbufSpec WireSpec WireProof MatchModel MatchSpec MatchProof MiscNumModel AddrModel AddrSpec AddrProof PermitModel Dec AuthOptModel AuthOptSpec AuthOptProof AuthOptProof2 AuthOptProof3 CertModel CertSpec CertProof.

Lemma from_cert_plain : forall pton k co, sshauthopt_from_cert pton k = Some co -> a_princ co = None /\ a_ca co = 0.
Proof.
  intros pton k co H. unfold sshauthopt_from_cert in H. destruct (k_cert k) as [c|]; [|discriminate]. destruct (negb (c_type c =? SSH2_CERT_TYPE_USER)); [discriminate|].
  assert (L : forall fuel which o b o', cert_list pton fuel which o b = Some (Some o') -> a_princ o' = a_princ o /\ a_ca o' = a_ca o).
  { clear. induction fuel as [|fuel IH]; intros which o b o' H; [discriminate|]. cbn [cert_list] in H. destruct (is_nil b); [injection H as <-; auto|].
    destruct (get_cstr b) as [[n c1]|]; [|discriminate]. destruct (get_str c1) as [[d c2]|]; [|discriminate].
    assert (S : forall o1 rest, (if which then crit_option pton o n d else ext_option o n d) = FYes o1 rest -> a_princ o1 = a_princ o /\ a_ca o1 = a_ca o).
    { destruct o as [f1 f2 f3 f4 f5 f6 f7 f8 f9 f10 f11 f12 f13 f14 f15 f16 f17 f18]. intros o1 rest E. unfold crit_option, ext_option in E. cbn [a_cmd a_from_cert] in E.
      repeat match type of E with context [match ?x with _ => _ end] => destruct x end; try discriminate; injection E as <- <-; auto. }
    destruct (if which then crit_option pton o n d else ext_option o n d) as [|o1 rest|]; [destruct which; [discriminate|now apply IH in H]| |discriminate].
    destruct (is_nil rest); [|discriminate]. apply IH in H as [-> ->]. now apply (S o1 rest). }
  unfold cert_option_list in H. destruct (cert_list pton (S (length (c_critical c))) true sshauthopt_new (c_critical c)) as [[o1|]|] eqn:E1; try discriminate.
  destruct (cert_list pton (S (length (c_extensions c))) false o1 (c_extensions c)) as [[o2|]|] eqn:E2; try discriminate. injection H as <-.
  apply L in E1 as [P1 Q1], E2 as [P2 Q2]. rewrite P2, Q2, P1, Q1. auto.
Qed.

Section Files.
Variable pton : list Z -> option xaddr.
Variable serv : list Z -> option Z.
Variable ptime : list Z -> option Z.
Variable rd : list Z -> option (list Z).
Variable now : Z.
Variables ip host user : list Z.
Notation authorise := (authorise_keyopts pton now ip host).
Notation line := (check_authkey_line pton serv ptime rd now ip host user).
Notation accepts := (accepts serv ptime rd pton now ip host user).
Notation meets := (meets pton now ip host).

Lemma authorise_iff : forall o ca, authorise o ca = true <-> meets o /\ (a_princ o <> None -> a_ca o <> 0) /\ (a_ca o <> 0 -> ca = true).
Proof.
  intros o ca. unfold authorise_keyopts, CertSpec.meets.
  destruct (negb (a_expiry o =? 0) && (0 <? now) && (a_expiry o <? now)) eqn:E1; [split; [discriminate|intros [[H _] _]; lia]|].
  assert (X1 : a_expiry o <> 0 -> 0 < now -> now <= a_expiry o) by lia.
  destruct (match a_princ o with Some _ => a_ca o =? 0 | None => false end) eqn:E2.
  { split; [discriminate|]. intros (_ & H & _). destruct (a_princ o); [|discriminate]. assert (K : a_ca o <> 0) by (apply H; discriminate). lia. }
  assert (X2 : a_princ o <> None -> a_ca o <> 0) by (destruct (a_princ o); [intros _; lia|congruence]).
  destruct (negb ca && negb (a_ca o =? 0)) eqn:E3.
  { split; [discriminate|]. intros (_ & _ & H). destruct ca; [discriminate|]. assert (K : a_ca o <> 0) by (cbn in E3; lia). specialize (H K). discriminate. }
  assert (X3 : a_ca o <> 0 -> ca = true) by (intros K; destruct ca; [reflexivity|cbn in E3; lia]).
  destruct (match a_from_keys o with Some l => match match_host_and_ip pton (Some host) (Some ip) l with Some v => negb (v =? 1) | None => true end | None => false end) eqn:E4.
  { split; [discriminate|]. intros ((_ & H & _) & _). destruct (a_from_keys o) as [l|]; [|discriminate]. rewrite (H l eq_refl) in E4. discriminate. }
  assert (X4 : forall l, a_from_keys o = Some l -> match_host_and_ip pton (Some host) (Some ip) l = Some 1).
  { intros l El. rewrite El in E4. destruct (match_host_and_ip _ _ _ l) as [v|]; [|discriminate]. f_equal. lia. }
  destruct (a_from_cert o) as [l|].
  - split; [intros H; split; [|auto]; split; [assumption|]; split; [assumption|]; intros l' El; injection El as <-; lia|].
    intros ((_ & _ & H) & _). specialize (H l eq_refl). lia.
  - split; [intros _|reflexivity]. split; [|auto]. split; [assumption|]. split; [assumption|]. discriminate.
Qed.
Lemma skip_spec : forall s, exists sp, s = sp ++ skip_blanks s /\ blanks sp /\ no_blank_first (skip_blanks s).
Proof.
  induction s as [|c s IH]; [exists []; repeat split; constructor|]. cbn [skip_blanks]. destruct ((c =? 32) || (c =? 9)) eqn:E.
  - destruct IH as (sp & E1 & B & N). exists (c :: sp). split; [cbn; now f_equal|]. split; [constructor; [lia|assumption]|assumption].
  - exists []. split; [reflexivity|]. split; [constructor|cbn; lia].
Qed.
Lemma skip_app : forall sp r, blanks sp -> no_blank_first r -> skip_blanks (sp ++ r) = r.
Proof.
  induction sp as [|c sp IH]; intros r B N; cbn [app].
  - destruct r as [|c r]; [reflexivity|]. cbn in *. now replace ((c =? 32) || (c =? 9)) with false by lia.
  - inversion B; subst. cbn [skip_blanks]. replace ((c =? 32) || (c =? 9)) with true by lia. now apply IH.
Qed.
Lemma princ_iff : forall l c, match_principals_option l c = true <-> principals_meet l c.
Proof.
  intros l c. unfold match_principals_option, principals_meet. rewrite existsb_exists. split.
  - intros (p & Hp & H). pose proof (match_list_spec p l) as M. destruct (match_list p l) as [n|]; [|discriminate]. destruct M as (a & b & E & Hn & _). exists p, n. split; [assumption|]. split; [rewrite E; apply in_or_app; right; now left|assumption].
  - intros (p & n & Hp & H1 & H2). exists p. split; [assumption|]. pose proof (match_list_spec p l) as M. destruct (match_list p l); [reflexivity|]. destruct (M n H1 H2).
Qed.
(** The key and the options of an entry *)
Lemma entry_iff : forall cp key ko,
  entry serv ptime rd cp key ko <->
  exists kopts, match rd cp with
    | Some found => Some (found, None)
    | None => match sshkey_advance_past_options cp with
              | None => None
              | Some rest => match rd (skip_blanks rest) with None => None | Some found => Some (found, Some cp) end
              end
    end = Some (key, kopts) /\ sshauthopt_parse serv ptime kopts = Some ko.
Proof.
  intros cp key ko. unfold entry. split.
  - intros [[-> ->]|(-> & its & tail & sp & rest & R & -> & B & N & Hr & E)]; [exists None; auto|].
    rewrite (advance_reads _ _ _ R), skip_app by assumption. rewrite Hr. exists (Some cp). split; [reflexivity|]. apply parse_iff. eauto.
  - intros (kopts & H & P). destruct (rd cp) as [found|]; [left; injection H as <- <-; cbn in P; injection P as <-; auto|right]. split; [reflexivity|].
    destruct (sshkey_advance_past_options cp) as [rest|] eqn:A; [|discriminate]. destruct (rd (skip_blanks rest)) as [found|] eqn:Er; [|discriminate]. injection H as <- <-.
    apply parse_iff in P as (its & tail & R & E). rewrite (advance_reads _ _ _ R) in A. injection A as ->. destruct (skip_spec rest) as (sp & E1 & B & N).
    exists its, rest, sp, (skip_blanks rest). auto 10.
Qed.
Lemma line_iff : forall k cp o, line k cp = Some o <-> accepts k cp o.
Proof.
  intros k cp o. unfold check_authkey_line, CertSpec.accepts.
  set (ko := match rd cp with Some found => _ | None => _ end).
  assert (En : forall key p, entry serv ptime rd cp key p <-> exists kopts, ko = Some (key, kopts) /\ sshauthopt_parse serv ptime kopts = Some p) by (intros; apply entry_iff).
  clearbody ko. split.
  - destruct ko as [[found kopts]|]; [|discriminate]. destruct (sshauthopt_parse serv ptime kopts) as [p|] eqn:Ep; [|discriminate]. intros H.
    exists found, p. split; [apply En; eauto|]. destruct (k_cert k) as [c|] eqn:Ec.
    + destruct (negb (beqb found (c_ca c)) || (a_ca p =? 0)) eqn:E1; [discriminate|]. destruct (beqb found (c_ca c)) eqn:Eb; [|discriminate]. apply beqb_eq in Eb. cbn [negb orb] in E1.
      destruct (authorise p true) eqn:E2; [|discriminate]. apply authorise_iff in E2 as (M & _). cbn [negb] in H.
      destruct (sshauthopt_from_cert pton k) as [co|]; [|discriminate]. destruct (authorise co false) eqn:E3; [|discriminate]. apply authorise_iff in E3 as (M3 & _). cbn [negb] in H.
      destruct (sshauthopt_merge p co) as [fin|] eqn:Em; [|discriminate].
      destruct (match a_princ p with Some l => negb (match_principals_option l c) | None => false end) eqn:E4; [discriminate|].
      destruct (check_authority_now now k false false false (match a_princ p with Some _ => None | None => Some user end)) eqn:E5; [|discriminate]. injection H as <-.
      apply (now_iff now k ForUser) in E5 as (Hn & c0 & Hc & S).
      split; [assumption|]. split; [assumption|]. split; [lia|]. split; [assumption|].
      split; [|split; [|exists co; auto]].
      * assert (c0 = c) by congruence. subst c0. exact S.
      * intros l El. rewrite El in E4. apply princ_iff. now destruct (match_principals_option l c).
    + destruct (negb (beqb found (k_pub k)) || negb (a_ca p =? 0)) eqn:E1; [discriminate|]. destruct (beqb found (k_pub k)) eqn:Eb; [|discriminate]. apply beqb_eq in Eb. cbn [negb orb] in E1.
      destruct (authorise p false) eqn:E2; [|discriminate]. injection H as <-. apply authorise_iff in E2 as (M & M2 & _). split; [assumption|]. split; [assumption|]. split; [lia|].
      split; [|reflexivity]. destruct (a_princ p); [|reflexivity]. exfalso. apply M2; [discriminate|lia].
  - intros (key & p & E & M & H). apply En in E as (kopts & -> & Ep). rewrite Ep. destruct (k_cert k) as [c|] eqn:Ec.
    + destruct H as (-> & Hca & Hn & S & Hp & co & Hf & Mc & Hm). rewrite beqb_refl. replace (a_ca p =? 0) with false by lia. cbn [negb orb].
      replace (authorise p true) with true by (symmetry; apply authorise_iff; auto). cbn [negb]. rewrite Hf.
      assert (Co : a_princ co = None /\ a_ca co = 0) by now apply (from_cert_plain pton k).
      replace (authorise co false) with true by (symmetry; apply authorise_iff; destruct Co as [C1 C2]; split; [assumption|]; rewrite C1, C2; split; congruence). cbn [negb]. rewrite Hm.
      replace (match a_princ p with Some l => negb (match_principals_option l c) | None => false end) with false.
      2:{ symmetry. destruct (a_princ p) as [l|] eqn:El; [|reflexivity]. rewrite (proj2 (princ_iff l c)); [reflexivity|now apply Hp]. }
      rewrite (proj2 (now_iff now k ForUser false false _)); [reflexivity|]. split; [assumption|]. exists c. split; assumption.
    + destruct H as (-> & Hca & Hp & ->). rewrite beqb_refl. replace (a_ca p =? 0) with true by lia. cbn [negb orb].
      replace (authorise p false) with true; [reflexivity|]. symmetry. apply authorise_iff. split; [assumption|]. rewrite Hp. split; congruence.
Qed.
(** ** Files *)
Lemma first_of_file : forall A (f : A -> option aopt) P, (forall x o, f x = Some o <-> P x o) ->
  forall l o, first_file f l = Some o <-> first_of P l o.
Proof.
  intros A f P Hf. induction l as [|x l IH]; intros o; cbn [first_file].
  - split; [discriminate|]. intros (a & y & b & E & _). now destruct a.
  - destruct (f x) as [o1|] eqn:E.
    + split.
      * intros H. injection H as <-. exists [], x, l. split; [reflexivity|]. split; [now apply Hf|intros ? ? []].
      * intros (a & y & b & El & Hy & Ha). destruct a as [|z a]; injection El as <- El.
        -- apply Hf in Hy. congruence.
        -- exfalso. apply (Ha x o1); [now left|now apply Hf].
    + rewrite IH. split; intros (a & y & b & El & Hy & Ha).
      * exists (x :: a), y, b. split; [now rewrite El|]. split; [assumption|]. intros z o' [<- |Hz]; [rewrite <- Hf; congruence|now apply Ha].
      * destruct a as [|z a]; injection El as <- El; [apply Hf in Hy; congruence|]. exists a, y, b. split; [assumption|]. split; [assumption|]. intros w o' Hw. apply Ha. now right.
Qed.
Lemma file_lines : forall l, (match skip_blanks l with [] => true | x :: _ => (x =? 10) || (x =? 35) end = false -> file_line l (skip_blanks l)) /\
  (forall e, file_line l e -> e = skip_blanks l /\ match skip_blanks l with [] => true | x :: _ => (x =? 10) || (x =? 35) end = false).
Proof.
  intros l. destruct (skip_spec l) as (sp & E & B & N). split.
  - intros H. exists sp. split; [assumption|]. split; [assumption|]. destruct (skip_blanks l) as [|c r]; [discriminate|]. cbn in N. lia.
  - intros e (sp' & -> & B' & H). assert (K : no_blank_first e) by (destruct e; [contradiction|cbn; tauto]). rewrite (skip_app sp' e B' K). split; [reflexivity|]. clear - H. destruct e as [|c e]; [contradiction|]. lia.
Qed.
Notation keys := (check_authkeys_file pton serv ptime rd now ip host user).
Notation line_accepts := (line_accepts serv ptime rd pton now ip host user).
Lemma keys_iff : forall k lines o, keys k lines = Some o <-> first_of (line_accepts k) lines o.
Proof.
  intros k lines o. rewrite <- (first_of_file _ (fun l => if match skip_blanks l with [] => true | x :: _ => (x =? 10) || (x =? 35) end then None else line k (skip_blanks l))).
  - assert (E : keys k lines = first_file (fun l => if match skip_blanks l with [] => true | x :: _ => (x =? 10) || (x =? 35) end then None else line k (skip_blanks l)) lines); [|now rewrite E].
    induction lines as [|l r IH]; [reflexivity|]. cbn [check_authkeys_file first_file]. cbv zeta. rewrite IH.
    destruct (match skip_blanks l with [] => true | x :: _ => (x =? 10) || (x =? 35) end); reflexivity.
  - intros l o0. destruct (file_lines l) as [F1 F2]. unfold CertSpec.line_accepts.
    destruct (match skip_blanks l with [] => true | x :: _ => (x =? 10) || (x =? 35) end).
    + split; [discriminate|]. intros (e & He & _). apply F2 in He as [_ He]. discriminate.
    + rewrite line_iff. split; [intros H; exists (skip_blanks l); auto|]. intros (e & He & H). apply F2 in He as [-> _]. assumption.
Qed.
(** ** Principals *)
Lemma trim_iff : forall t b, t <> [] -> (trim t = b <-> trimmed t b).
Proof.
  assert (T : forall r, r <> [] -> exists w b, r = w ++ b /\ trim_rev r = b /\ Forall blank3 w /\ b <> [] /\ (length b = 1%nat \/ ~ blank3 (hd 0 b))).
  { induction r as [|c r IH]; intros H; [contradiction|]. cbn [trim_rev]. destruct r as [|d r]; cbn [is_nil].
    - exists [], [c]. split; [reflexivity|]. split; [reflexivity|]. split; [constructor|]. split; [discriminate|]. now left.
    - destruct ((c =? 10) || (c =? 32) || (c =? 9)) eqn:E.
      + destruct IH as (w & b & E1 & E2 & W & Nb & L); [discriminate|]. exists (c :: w), b. rewrite E1. rewrite E1 in E2. split; [reflexivity|]. split; [assumption|]. split; [constructor; [unfold blank3; lia|assumption]|auto].
      + exists [], (c :: d :: r). split; [reflexivity|]. split; [reflexivity|]. split; [constructor|]. split; [discriminate|]. right. cbn. unfold blank3. lia. }
  assert (U : forall t b b', trimmed t b -> trimmed t b' -> b = b').
  { assert (V : forall b w b' w', Forall blank3 w -> b ++ w = b' ++ w' -> b' <> [] -> (length b = 1%nat \/ ~ blank3 (last b 0)) -> b <> [] -> Forall blank3 w' -> (length b' = 1%nat \/ ~ blank3 (last b' 0)) -> (length b' <= length b)%nat -> b = b').
    { intros b w b' w' W E N' L N W' L' Le. apply app_eq_app in E as (z & [[E1 E2]|[E1 E2]]).
      - subst. destruct z as [|c z]; [now rewrite app_nil_r|]. exfalso. destruct L as [L|L].
        + rewrite app_length in L. cbn in L. destruct b' as [|x b']; [contradiction|cbn in L; lia].
        + apply L. assert (Z0 : c :: z = removelast (c :: z) ++ [last (c :: z) 0]) by (apply app_removelast_last; discriminate). rewrite Z0, app_assoc, last_last. apply Forall_app in W' as [W' _]. rewrite Forall_forall in W'. apply W'. clear. revert c. induction z as [|x z IH]; intros c; [now left|]. right. apply IH.
      - subst. rewrite app_length in Le. destruct z; [now rewrite app_nil_r|cbn in Le; lia]. }
    intros t b b' (w & E & W & N & L) (w' & E' & W' & N' & L'). destruct (Nat.le_ge_cases (length b') (length b)) as [Le|Le].
    - apply (V b w b' w'); auto. congruence.
    - symmetry. apply (V b' w' b w); auto. congruence. }
  assert (K : forall t, t <> [] -> trimmed t (trim t)).
  { intros t H. destruct (T (rev t)) as (w & b & E1 & E2 & W & Nb & L); [intros K; apply H; now rewrite <- (rev_involutive t), K|].
    unfold trim. rewrite E2. exists (rev w). assert (Et : t = rev b ++ rev w) by (rewrite <- rev_app_distr, <- E1; now rewrite rev_involutive). split; [assumption|].
    split; [apply Forall_rev; assumption|]. split; [intros K; apply Nb; now rewrite <- (rev_involutive b), K|]. rewrite rev_length. destruct L as [L|L]; [now left|right].
    destruct b as [|c b]; [contradiction|]. cbn [rev]. rewrite last_last. exact L. }
  intros t b H. split; [intros <-; now apply K|]. intros Hb. exact (U _ _ _ (K t H) Hb).
Qed.
Lemma strrchr_spec : forall c s, match strrchr_cut c s with None => ~ In c s | Some (a, b) => s = a ++ c :: b /\ ~ In c b end.
Proof.
  intros c. induction s as [|x s IH]; cbn [strrchr_cut]; [intros []|]. destruct (strrchr_cut c s) as [[a b]|].
  - destruct IH as [-> H]. auto.
  - destruct (x =? c) eqn:E; [split; [cbn; f_equal; lia|assumption]|]. intros [H|H]; [lia|auto].
Qed.
Lemma split_iff : forall b name opts, line_name b name opts <-> split_line b = (name, if opts then Some b else None).
Proof.
  assert (Last : forall (c : Z) a b a' b', ~ In c b -> ~ In c b' -> a ++ c :: b = a' ++ c :: b' -> b = b').
  { intros c a b a' b' H H' E. apply app_eq_app in E as (z & [[E1 E2]|[E1 E2]]); destruct z as [|x z]; cbn [app] in E2; try congruence; injection E2 as E0 E2; exfalso; [apply H'|apply H]; rewrite E2; apply in_or_app; right; now left. }
  intros b name opts. unfold split_line, line_name. pose proof (strrchr_spec 32 b) as S. destruct (strrchr_cut 32 b) as [[x r]|].
  - destruct S as [E N]. destruct (skip_spec r) as (sp & Er & B & Nb). split.
    + intros [(-> & H & _)|(-> & x' & s & sp' & r' & E' & -> & B' & N' & D)]; [exfalso; apply H; rewrite E; apply in_or_app; right; now left|].
      destruct D as [(-> & D)|(_ & D & _)]; [|exfalso; apply D; rewrite E; apply in_or_app; right; now left].
      assert (R : r = sp' ++ name) by (apply (Last 32 x r x'); congruence). subst r. now rewrite skip_app.
    + intros H. injection H as H1 H2. destruct opts; [|discriminate]. right. split; [reflexivity|]. exists x, 32, sp, r. rewrite <- H1, <- Er. auto 10.
  - pose proof (strrchr_spec 9 b) as S9. destruct (strrchr_cut 9 b) as [[x r]|].
    + destruct S9 as [E N]. destruct (skip_spec r) as (sp & Er & B & Nb). split.
      * intros [(-> & _ & H & _)|(-> & x' & s & sp' & r' & E' & -> & B' & N' & D)]; [exfalso; apply H; rewrite E; apply in_or_app; right; now left|].
        destruct D as [(-> & D)|(-> & _ & D)]; [exfalso; apply S; rewrite E'; apply in_or_app; right; now left|].
        assert (R : r = sp' ++ name) by (apply (Last 9 x r x'); congruence). subst r. now rewrite skip_app.
      * intros H. injection H as H1 H2. destruct opts; [|discriminate]. right. split; [reflexivity|]. exists x, 9, sp, r. rewrite <- H1, <- Er. auto 10.
    + split.
      * intros [(-> & _ & _ & ->)|(-> & x' & s & sp' & r' & E' & -> & B' & N' & D)]; [reflexivity|]. exfalso.
        destruct D as [(-> & D)|(-> & _ & D)]; [apply S|apply S9]; rewrite E'; apply in_or_app; right; now left.
      * intros H. injection H as H1 H2. destruct opts; [discriminate|]. auto.
Qed.
Notation pline := (check_principals_line serv ptime).
Lemma principal_iff : forall c l o,
  (if match cut_comment (skip_blanks l) with [] => true | x :: _ => x =? 10 end then None else pline (cut_comment (skip_blanks l)) c) = Some o <-> principal_accepts serv ptime c l o.
Proof.
  intros c l o. unfold principal_accepts, principal_line. destruct (skip_spec l) as (sp & El & B & N).
  assert (Cut : forall t tail, ~ In 35 t -> (tail = [] \/ exists r, tail = 35 :: r) -> cut_comment (t ++ tail) = t).
  { intros t tail H D. unfold cut_comment. pose proof (strchr_cut_spec 35 (t ++ tail)) as S. destruct (strchr_cut 35 (t ++ tail)) as [[x y]|].
    - destruct S as [E Nx]. destruct D as [-> |(r & ->)]; [rewrite app_nil_r in E; exfalso; apply H; rewrite E; apply in_or_app; right; now left|].
      apply app_eq_app in E as (z & [[E1 E2]|[E1 E2]]); destruct z as [|w z]; cbn [app] in E2.
      + now rewrite E1, app_nil_r.
      + exfalso. injection E2 as E0 E2. apply H. rewrite E1, <- E0. apply in_or_app. right. now left.
      + now rewrite E1, app_nil_r.
      + exfalso. injection E2 as E0 E2. apply Nx. rewrite E1, <- E0. apply in_or_app. right. now left.
    - destruct D as [-> |(r & ->)]; [now rewrite app_nil_r|]. exfalso. apply S. apply in_or_app. right. now left. }
  split.
  - set (t := cut_comment (skip_blanks l)). assert (T : exists tail, skip_blanks l = t ++ tail /\ ~ In 35 t /\ (tail = [] \/ exists r, tail = 35 :: r)).
    { unfold t, cut_comment. pose proof (strchr_cut_spec 35 (skip_blanks l)) as S. destruct (strchr_cut 35 (skip_blanks l)) as [[x y]|]; [destruct S as [E Nx]; exists (35 :: y); eauto|exists []; rewrite app_nil_r; auto]. }
    destruct T as (tail & Et & Nt & Tl). intros H. destruct (match t with [] => true | x :: _ => x =? 10 end) eqn:E0; [discriminate|].
    assert (Ht : t <> []) by (intros ->; discriminate). unfold check_principals_line in H. destruct (split_line (trim t)) as [name lo] eqn:Es.
    destruct (sshauthopt_parse serv ptime lo) as [o1|] eqn:Ep; [|discriminate]. destruct (existsb (beqb name) (c_principals c)) eqn:Ex; [|discriminate]. injection H as <-.
    apply existsb_exists in Ex as (n & Hn & Hb). apply beqb_eq in Hb. subst n. exists name. split; [assumption|].
    assert (LO : exists opts : bool, lo = if opts then Some (trim t) else None).
    { unfold split_line in Es. destruct (strrchr_cut 32 (trim t)) as [[? ?]|]; [exists true; congruence|]. destruct (strrchr_cut 9 (trim t)) as [[? ?]|]; [exists true; congruence|exists false; congruence]. }
    destruct LO as (opts & ->). exists sp, t, tail, (trim t), opts. rewrite <- Et. split; [assumption|]. split; [assumption|]. split; [assumption|]. split; [assumption|]. split; [assumption|].
    split; [destruct t; [contradiction|cbn; lia]|]. split; [now apply trim_iff|]. split; [now apply split_iff|].
    destruct opts; [now apply parse_iff|unfold sshauthopt_parse in Ep; congruence].
  - intros (n & Hn & sp' & t & tail & b & opts & -> & B' & N' & Nt & Tl & Hd & Tr & Ln & Op). rewrite skip_app by assumption. rewrite Cut by assumption.
    assert (Ht : t <> []) by (intros ->; now apply Hd). replace (match t with [] => true | x :: _ => x =? 10 end) with false by (destruct t; [contradiction|cbn in Hd; lia]).
    unfold check_principals_line. rewrite (proj2 (trim_iff t b Ht) Tr). apply split_iff in Ln. rewrite Ln.
    assert (P : sshauthopt_parse serv ptime (if opts then Some b else None) = Some o) by (destruct opts; [now apply parse_iff|now rewrite Op]). rewrite P.
    replace (existsb (beqb n) (c_principals c)) with true; [reflexivity|]. symmetry. apply existsb_exists. exists n. split; [assumption|apply beqb_refl].
Qed.
Notation princs := (process_principals serv ptime).
Lemma princs_iff : forall c lines o, princs lines c = Some o <-> first_of (principal_accepts serv ptime c) lines o.
Proof.
  intros c lines o. rewrite <- (first_of_file _ (fun l => if match cut_comment (skip_blanks l) with [] => true | x :: _ => x =? 10 end then None else pline (cut_comment (skip_blanks l)) c)).
  - match goal with |- _ <-> ?f = _ => assert (E : princs lines c = f); [|now rewrite E] end.
    induction lines as [|l r IH]; [reflexivity|]. cbn [process_principals first_file]. cbv zeta. rewrite IH.
    destruct (match cut_comment (skip_blanks l) with [] => true | x :: _ => x =? 10 end); reflexivity.
  - intros l o0. apply principal_iff.
Qed.

(** ** Routes *)
Section Routes.
Variable s : sources.
Notation by_file := (by_file serv ptime rd pton now ip host user s).
Notation by_command := (by_command serv ptime rd pton now ip host user s).
Notation by_authority := (by_authority serv ptime pton now ip host user s).
Lemma by_file_iff : forall k o, first_file (keys k) (s_files s) = Some o <-> by_file k o.
Proof. intros k o. unfold CertSpec.by_file. apply first_of_file. intros x o0. apply keys_iff. Qed.
Lemma by_command_iff : forall k o, from_cmd (keys k) (s_keys_cmd s) = Some o <-> by_command k o.
Proof.
  intros k o. unfold from_cmd, CertSpec.by_command. destruct (s_keys_cmd s) as [[out [|]]|].
  - rewrite keys_iff. split; [eauto|]. intros (out' & E & H). now injection E as <-.
  - split; [discriminate|intros (out' & E & _); discriminate].
  - split; [discriminate|intros (out' & E & _); discriminate].
Qed.
Lemma listed_iff : forall c o,
  match (match s_princ_files s with Some fs => first_file (fun f => princs f c) fs | None => None end) with
  | Some o => Some o
  | None => from_cmd (fun f => princs f c) (s_princ_cmd s)
  end = Some o <-> listed serv ptime s c o.
Proof.
  intros c o. unfold listed.
  assert (F : forall o', match s_princ_files s with Some fs => first_file (fun f => princs f c) fs | None => None end = Some o' <-> listed_in_files serv ptime s c o').
  { intros o'. unfold listed_in_files. destruct (s_princ_files s) as [fs|].
    - rewrite (first_of_file _ (fun f => princs f c) (fun f => first_of (principal_accepts serv ptime c) f)) by (intros; apply princs_iff). split; [eauto|]. intros (fs' & E & H). now injection E as <-.
    - split; [discriminate|intros (fs & E & _); discriminate]. }
  assert (G : forall o', from_cmd (fun f => princs f c) (s_princ_cmd s) = Some o' <-> exists out, s_princ_cmd s = Some (out, true) /\ first_of (principal_accepts serv ptime c) out o').
  { intros o'. unfold from_cmd. destruct (s_princ_cmd s) as [[out [|]]|].
    - rewrite princs_iff. split; [eauto|]. intros (out' & E & H). now injection E as <-.
    - split; [discriminate|intros (out' & E & _); discriminate].
    - split; [discriminate|intros (out' & E & _); discriminate]. }
  destruct (match s_princ_files s with Some fs => first_file (fun f => princs f c) fs | None => None end) as [o1|] eqn:E.
  - rewrite <- F. split; [intros H; left; congruence|]. intros [H|[H _]]; [congruence|]. destruct (H o1). now apply F.
  - rewrite G. split; [intros H; right; split; [|assumption]; intros o'; rewrite <- F; discriminate|]. intros [H|[_ H]]; [|assumption]. apply F in H. discriminate.
Qed.
Lemma by_authority_iff : forall k o, user_cert_trusted_ca pton serv ptime now ip host user s k = Some o <-> by_authority k o.
Proof.
  intros k o. unfold user_cert_trusted_ca, CertSpec.by_authority. destruct (k_cert k) as [c|] eqn:Ec.
  2:{ split; [discriminate|]. intros (c & t & co & E & _). discriminate. }
  destruct (s_trusted s) as [trusted|] eqn:Et.
  2:{ split; [discriminate|]. intros (c0 & t & co & _ & E & _). discriminate. }
  pose proof (listed_iff c) as L. revert L.
  set (found := match (match s_princ_files s with Some fs => first_file (fun f => princs f c) fs | None => None end) with Some o => Some o | None => from_cmd (fun f => princs f c) (s_princ_cmd s) end).
  intros L. cbv zeta. change (match match s_princ_files s with Some fs => first_file (fun f => princs f c) fs | None => None end with Some o0 => Some o0 | None => from_cmd (fun f => princs f c) (s_princ_cmd s) end) with found.
  set (use := match s_princ_files s with Some _ => true | None => match s_princ_cmd s with Some _ => true | None => false end end).
  assert (U : use = true <-> ~ (s_princ_files s = None /\ s_princ_cmd s = None)).
  { unfold use. destruct (s_princ_files s), (s_princ_cmd s); split; intros; try (intros [? ?]; discriminate); try reflexivity; try discriminate. exfalso; auto. }
  assert (UF : use = false -> found = None).
  { unfold use, found. destruct (s_princ_files s); [discriminate|]. destruct (s_princ_cmd s); [discriminate|reflexivity]. }
  assert (U0 : use = false <-> s_princ_files s = None /\ s_princ_cmd s = None).
  { unfold use. destruct (s_princ_files s), (s_princ_cmd s); split; intros; try discriminate; auto; destruct H; discriminate. }
  clearbody found use.
  pose proof (fun req name => now_iff now k ForUser req false name) as A. cbv iota in A.
  assert (A' : forall req name, check_authority_now now k false req false name = true <-> 0 <= now /\ in_scope c ForUser req false now name).
  { intros req name. rewrite A. split; [intros (H & c0 & E & S); split; [assumption|congruence]|intros (H & S); eauto]. }
  split.
  - destruct (trusted (c_ca c)) eqn:Tr; [|discriminate]. cbn [negb]. destruct (use && match found with None => true | Some _ => false end) eqn:E1; [discriminate|].
    destruct (check_authority_now now k false true false (if use then None else Some user)) eqn:E2; [|discriminate]. cbn [negb]. apply A' in E2 as [Hn S].
    destruct (sshauthopt_from_cert pton k) as [co|] eqn:Ef; [|discriminate]. destruct (authorise co false) eqn:E3; [|discriminate]. cbn [negb]. apply authorise_iff in E3 as (M & _).
    intros H. exists c, trusted, co. repeat (split; [auto; fail|]). destruct use.
    + right. split; [now apply U|]. split; [assumption|]. destruct found as [po|]; [|discriminate]. destruct (authorise po false) eqn:E4; [|discriminate]. apply authorise_iff in E4 as (M4 & P4 & C4). cbn [negb] in H.
      exists po. split; [now apply L|]. split; [assumption|]. assert (CA : a_ca po = 0) by (destruct (Z.eq_dec (a_ca po) 0) as [Q|Q]; [assumption|specialize (C4 Q); discriminate]).
      split; [assumption|]. split; [|assumption]. destruct (a_princ po); [|reflexivity]. exfalso. apply P4; [discriminate|assumption].
    + left. rewrite (UF eq_refl) in H. injection H as <-. destruct (proj1 U0 eq_refl). auto.
  - intros (c0 & t & co & E0 & E1 & Tr & Hn & Ef & M & D). injection E0 as <-. injection E1 as <-. rewrite Tr. cbn [negb]. rewrite Ef.
    destruct (from_cert_plain _ _ _ Ef) as [Q1 Q2].
    assert (Au : authorise co false = true) by (apply authorise_iff; rewrite Q1, Q2; split; [assumption|split; congruence]). rewrite Au. cbn [negb].
    destruct D as [(D1 & D2 & S & ->)|(D & S & po & Hl & M' & P1 & P2 & Hm)].
    + rewrite (proj2 U0 (conj D1 D2)) in *. cbn [andb]. rewrite (proj2 (A' true (Some user))) by auto. cbn [negb]. now rewrite (UF eq_refl).
    + rewrite (proj2 U D) in *. apply L in Hl. rewrite Hl. cbn [andb]. rewrite (proj2 (A' true None)) by auto. cbn [negb].
      assert (Ap : authorise po false = true) by (apply authorise_iff; rewrite P1, P2; split; [assumption|split; congruence]). rewrite Ap. exact Hm.
Qed.
Lemma allowed_iff : forall revoked k o, user_key_allowed pton serv ptime rd now ip host user revoked s k = Some o <-> allowed serv ptime rd pton now ip host user s revoked k o.
Proof.
  intros revoked k o. unfold user_key_allowed, allowed. pose proof (by_file_iff k) as F. pose proof (by_authority_iff k) as A. pose proof (by_command_iff k) as C.
  destruct (revoked k); [split; [discriminate|intros [H _]; discriminate]|].
  destruct (match k_cert k with Some c => revoked (mkK (c_ca c) None) | None => false end) eqn:R.
  { split; [discriminate|]. intros (_ & H & _). destruct (k_cert k) as [c|]; [|discriminate]. rewrite (H c eq_refl) in R. discriminate. }
  assert (R' : forall c, k_cert k = Some c -> revoked (mkK (c_ca c) None) = false) by (intros c E; now rewrite E in R).
  destruct (first_file (keys k) (s_files s)) as [o1|] eqn:E1.
  { rewrite F. split; [auto|]. intros (_ & _ & [H|[H _]]); [assumption|]. destruct (H o1). now apply F. }
  assert (NF : forall o', ~ by_file k o') by (intros o'; rewrite <- F; discriminate).
  destruct (user_cert_trusted_ca pton serv ptime now ip host user s k) as [o2|] eqn:E2.
  { rewrite A. split; [auto 10|]. intros (_ & _ & [H|[_ [H|[H _]]]]); [destruct (NF _ H)|assumption|]. destruct (H o2). now apply A. }
  assert (NA : forall o', ~ by_authority k o') by (intros o'; rewrite <- A; discriminate).
  rewrite C. split; [auto 10|]. intros (_ & _ & [H|[_ [H|[_ H]]]]); [destruct (NF _ H)|destruct (NA _ H)|assumption].
Qed.
End Routes.
End Files.
