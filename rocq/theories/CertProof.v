(** Proofs for C36, C57 and C58. *)
From Coq Require Import String.
From Verif Require Import Base Text SshbufModel SshbufSpec WireSpec WireProof MatchModel MatchSpec MatchProof MiscNumModel AddrModel AddrSpec AddrProof PermitModel Dec AuthOptModel AuthOptSpec AuthOptProof AuthOptProof2 AuthOptProof3 CertModel CertSpec.

(** ** Scope *)
Lemma authority_iff : forall k p req wild t name,
  check_authority k (match p with ForHost => true | ForUser => false end) req wild t name = true <->
  exists c, k_cert k = Some c /\ in_scope c p req wild t name.
Proof.
  intros k p req wild t name. unfold check_authority. destruct (k_cert k) as [c|]; [|split; [discriminate|intros (c & E & _); discriminate]].
  assert (X : forall P, (exists c0, Some c = Some c0 /\ P c0) <-> P c) by (intros P; split; [intros (c0 & E & H); now injection E as ->|intros H; eauto]).
  rewrite X. unfold in_scope, valid_at, lists_name.
  assert (Ty : (if match p with ForHost => true | ForUser => false end then negb (c_type c =? SSH2_CERT_TYPE_HOST) else negb (c_type c =? SSH2_CERT_TYPE_USER)) = negb (c_type c =? purpose_code p)) by (destruct p; reflexivity).
  rewrite Ty. destruct (c_type c =? purpose_code p) eqn:E1; cbn [negb]; [|split; [discriminate|intros (H & _); lia]].
  destruct (t <? c_after c) eqn:E2; [split; [discriminate|intros (_ & H & _); lia]|].
  destruct (c_before c <=? t) eqn:E3; [split; [discriminate|intros (_ & H & _); lia]|].
  assert (PM : forall n, existsb (principal_matches wild n) (c_principals c) = true <-> exists p0, In p0 (c_principals c) /\ (if wild then glob n p0 else p0 = n)).
  { intros n. rewrite existsb_exists. split; intros (q & Hq & H); exists q; (split; [assumption|]); unfold principal_matches in *; destruct wild.
    - now apply match_pattern_glob.
    - apply beqb_eq in H. now symmetry.
    - now apply match_pattern_glob.
    - apply beqb_eq. now symmetry. }
  destruct (c_principals c) as [|q ps] eqn:Ep; cbn [is_nil].
  - split; [intros H; split; [lia|split; [lia|split; [intros ->; discriminate|intros K; contradiction]]]|]. intros (_ & _ & H & _). destruct req; [|reflexivity]. destruct (H eq_refl eq_refl).
  - destruct name as [n|].
    + rewrite PM. split; [intros H; split; [lia|split; [lia|split; [discriminate|intros _ n0 E; injection E as <-; assumption]]]|].
      intros (_ & _ & _ & H). apply H; [discriminate|reflexivity].
    + split; [intros _; split; [lia|split; [lia|split; [discriminate|intros _ n0 E; discriminate]]]|reflexivity].
Qed.
Lemma now_iff : forall now k p req wild name,
  check_authority_now now k (match p with ForHost => true | ForUser => false end) req wild name = true <->
  0 <= now /\ exists c, k_cert k = Some c /\ in_scope c p req wild now name.
Proof.
  intros now k p req wild name. unfold check_authority_now. destruct (now <? 0) eqn:E; [split; [discriminate|intros [H _]; lia]|].
  rewrite authority_iff. split; [intros H; split; [lia|assumption]|tauto].
Qed.

(** ** Certificate options *)
Lemma get_cstr_iff : forall b v r, is_bytes b -> (get_cstr b = Some (v, r) <-> exists w, ctext w v /\ b = w ++ r).
Proof.
  intros b v r B. split.
  - intros H. pose proof (get_cstr_no_nul _ _ _ H) as N. apply get_cstr_str in H as (v' & H & _ & C). apply get_str_spec in H as (-> & L & _ & _); [|assumption].
    exists (enc_string v'). split; [|reflexivity]. split; [assumption|]. destruct C as [-> | ->]; [auto|]. right. split; [reflexivity|]. rewrite zlen_app in L. unfold zlen at 2 in L. cbn in L. lia.
  - intros (w & (N & [[-> L]|[-> L]]) & ->); [now apply get_cstr_enc|].
    unfold get_cstr, dec_cstring. rewrite dec_string_ok by (change (SSHBUF_SIZE_MAX - 4) with 134217724; rewrite zlen_app; unfold zlen at 2; cbn; lia).
    replace (nul_ok (v ++ [0])) with true; [|symmetry; apply nul_ok_spec; right; eauto]. do 2 f_equal.
    clear - N. induction v as [|x v IH]; [reflexivity|]. cbn. destruct (x =? 0) eqn:E; [exfalso; apply N; left; lia|]. f_equal. apply IH. intros K. apply N. now right.
Qed.
Lemma ctext_bytes : forall w v r, is_bytes (w ++ r) -> ctext w v -> is_bytes r.
Proof. intros w v r B _. now apply is_bytes_app in B. Qed.

Section Options.
Variable pton : list Z -> option xaddr.
Hypothesis pton_good : forall s a, pton s = Some a -> wf a.

Lemma acl_none : forall es ret, ret = 0 \/ ret = -1 ->
  (acl_loop pton es None ret <> -1 <-> ret = 0 /\ Forall (network pton) es).
Proof.
  induction es as [|e r IH]; intros ret Hr; cbn [acl_loop].
  - split; [intros H; split; [lia|constructor]|intros [-> _]; lia].
  - destruct (is_nil e) eqn:En.
    { split; [intros H; lia|]. intros [_ F]. inversion F as [|? ? [K _] _]; subst. destruct e; [contradiction|discriminate]. }
    assert (He : e <> []) by (destruct e; discriminate). change (46 + 3) with 49.
    destruct (49 <? zlen e) eqn:El.
    { split; [intros H; lia|]. intros [_ F]. inversion F as [|? ? (_ & K & _) _]; subst. lia. }
    cbv zeta. pose proof (cidr_spec pton e pton_good) as C. destruct (addr_pton_cidr pton e) as [a l| |].
    + destruct C as (Hrd & Hc & Ha & Hl). rewrite IH by (destruct (valid_chars e); auto).
      assert (V : valid_chars e = true <-> Forall (fun c => In c CIDR_CHARS) e).
      { unfold valid_chars. rewrite forallb_forall, Forall_forall. split; intros H x Hx; specialize (H x Hx).
        - apply existsb_exists in H as (y & Hy & E). now replace x with y by lia.
        - apply existsb_exists. exists x. split; [exact H|lia]. }
      destruct (valid_chars e).
      * split; intros [H F]; (split; [assumption|]); [|now inversion F]. constructor; [|assumption]. split; [assumption|split; [lia|split; [now apply V|exists a, l; auto]]].
      * split; [intros [H _]; lia|]. intros [_ F]. inversion F as [|? ? (_ & _ & K & _) _]; subst. apply V in K. discriminate.
    + split; [intros H; lia|]. intros [_ F]. inversion F as [|? ? (_ & _ & _ & a & l & K & _) _]; subst. destruct (C _ _ K).
    + split; [intros H; lia|]. intros [_ F]. inversion F as [|? ? (_ & _ & _ & a & l & K & K2) _]; subst. destruct C as (a' & l' & Hrd & Hc). destruct (reads_fun _ _ _ _ _ _ Hrd K). subst. contradiction.
Qed.
Lemma networks_iff : forall l, networks pton l <-> addr_match_cidr_list pton None l <> -1.
Proof. intros l. unfold addr_match_cidr_list, networks, COMMA. rewrite acl_none by auto. tauto. Qed.

Lemma nil_iff : forall A (l : list A), is_nil l = true <-> l = []. Proof. intros A [|]; split; auto; discriminate. Qed.
Lemma crit_iff : forall o name data o', is_bytes data ->
  ((exists rest, crit_option pton o name data = FYes o' rest /\ rest = []) <-> critical_effect pton (name, data) o o').
Proof.
  intros o name data o' B. unfold crit_option, critical_effect.
  assert (CT : forall c, get_cstr data = Some (c, []) <-> ctext data c).
  { intros c. rewrite (get_cstr_iff data c [] B). split; [intros (w & H & E); rewrite app_nil_r in E; now subst|intros H; exists data; now rewrite app_nil_r]. }
  destruct (beqb name (bs "verify-required")) eqn:E1.
  { apply beqb_eq in E1. subst name. split.
    - intros (rest & H & Hr). injection H as <- <-. auto.
    - intros [(_ & -> & ->)|[(H & _)|(H & _)]]; [eauto|discriminate|discriminate]. }
  apply beqb_neq in E1. destruct (beqb name (bs "force-command")) eqn:E2.
  { apply beqb_eq in E2. subst name. split.
    - intros (rest & H & Hr). destruct (get_cstr data) as [[c r]|] eqn:G; [|discriminate]. destruct (a_cmd o) eqn:Ec; [discriminate|]. injection H as <- <-. subst r. pose proof (proj1 (CT c) eq_refl) as GT. right. left. eauto.
    - intros [(H & _)|[(_ & Hc & c & Ht & ->)|(H & _)]]; [discriminate| |discriminate]. apply CT in Ht. rewrite Ht, Hc. eauto. }
  apply beqb_neq in E2. destruct (beqb name (bs "source-address")) eqn:E3.
  { apply beqb_eq in E3. subst name. split.
    - intros (rest & H & Hr). destruct (get_cstr data) as [[c r]|] eqn:G; [|discriminate]. destruct (a_from_cert o) eqn:Ec; [discriminate|].
      destruct (addr_match_cidr_list pton None c =? -1) eqn:En; [discriminate|]. injection H as <- <-. subst r. pose proof (proj1 (CT c) eq_refl) as GT. right. right. split; [reflexivity|]. split; [reflexivity|]. exists c. split; [assumption|]. split; [|reflexivity].
      apply networks_iff. lia.
    - intros [(H & _)|[(H & _)|(_ & Hc & c & Ht & Hn & ->)]]; [discriminate|discriminate|]. apply CT in Ht. rewrite Ht, Hc. apply networks_iff in Hn. replace (addr_match_cidr_list pton None c =? -1) with false by lia. eauto. }
  apply beqb_neq in E3. split; [intros (rest & H & _); discriminate|]. intros [(H & _)|[(H & _)|(H & _)]]; contradiction.
Qed.
Lemma ext_cases : forall o name data, (exists set, In (name, set) ext_names /\ ext_option o name data = FYes (set o) data) \/
  ((forall set, ~ In (name, set) ext_names) /\ ext_option o name data = FNo).
Proof.
  intros o name data. unfold ext_option.
  repeat match goal with |- context [beqb name ?w] => let E := fresh "E" in destruct (beqb name w) eqn:E; [apply beqb_eq in E; left; subst name; eexists; split; [|reflexivity]; cbn; tauto|apply beqb_neq in E] end.
  right. split; [|reflexivity]. intros set H. unfold ext_names in H. cbn [In] in H. decompose [or] H; try contradiction; match goal with K : _ = _ |- _ => injection K; intros; congruence end.
Qed.
Lemma ext_names_fun : forall n s1 s2, In (n, s1) ext_names -> In (n, s2) ext_names -> forall o, s1 o = s2 o.
Proof.
  intros n s1 s2 H1 H2 o. cbn in H1, H2.
  destruct H1 as [H1|[H1|[H1|[H1|[H1|[H1|[]]]]]]]; injection H1 as E1 <-; subst n;
  destruct H2 as [H2|[H2|[H2|[H2|[H2|[H2|[]]]]]]]; injection H2; intros; subst; try reflexivity; discriminate.
Qed.

Definition eff (which : bool) : list Z * list Z -> aopt -> aopt -> Prop := if which then critical_effect pton else extension_effect.
Lemma cert_step : forall (which : bool) o name data, is_bytes data ->
  match (if which then crit_option pton o name data else ext_option o name data) with
  | FBad => forall o', ~ eff which (name, data) o o'
  | FNo => if which then forall o', ~ eff which (name, data) o o' else forall o', eff which (name, data) o o' <-> o' = o
  | FYes o1 rest => if is_nil rest then forall o', eff which (name, data) o o' <-> o' = o1 else forall o', ~ eff which (name, data) o o'
  end.
Proof.
  intros which o name data B. destruct which; unfold eff.
  - pose proof (fun o' => crit_iff o name data o' B) as C. destruct (crit_option pton o name data) as [|o1 rest|].
    + intros o' H. apply C in H as (r & H & _). discriminate.
    + destruct (is_nil rest) eqn:E.
      * apply nil_iff in E. subst rest. intros o'. rewrite <- C. split; [intros (r & H & _); now injection H as ->|intros ->; eauto].
      * intros o' H. apply C in H as (r & H & ->). injection H as _ ->. discriminate.
    + intros o' H. apply C in H as (r & H & _). discriminate.
  - destruct (ext_cases o name data) as [(set & Hi & ->)|[Hn ->]].
    + destruct (is_nil data) eqn:E.
      * apply nil_iff in E. subst data. intros o'. unfold extension_effect. split.
        -- intros [(s2 & H2 & _ & ->)|[H2 _]]; [now apply (ext_names_fun name)|destruct (H2 _ Hi)].
        -- intros ->. left. eauto.
      * intros o' [(s2 & H2 & -> & _)|[H2 _]]; [discriminate|destruct (H2 _ Hi)].
    + intros o'. unfold extension_effect. split; [intros [(s2 & H2 & _)|[_ ->]]; [destruct (Hn _ H2)|reflexivity]|intros ->; right; auto].
Qed.
Lemma cert_list_fuel : forall fuel which o c, is_bytes c -> (length c < fuel)%nat -> cert_list pton fuel which o c <> None.
Proof.
  induction fuel as [|fuel IH]; intros which o c B H; [lia|]. cbn [cert_list]. destruct (is_nil c); [discriminate|].
  destruct (get_cstr c) as [[name c1]|] eqn:G1; [|discriminate]. destruct (get_str c1) as [[data c2]|] eqn:G2; [|discriminate].
  apply get_cstr_iff in G1 as (w & _ & ->); [|assumption]. apply is_bytes_app in B as [_ B1]. apply get_str_spec in G2 as (-> & _ & Bd & B2); [|assumption].
  assert (L : (length c2 < fuel)%nat).
  { rewrite !app_length in H. unfold enc_string in H. rewrite app_length, be_enc_length in H. lia. }
  destruct (if which then crit_option pton o name data else ext_option o name data) as [|o1 rest|]; [destruct which; [discriminate|now apply IH]|destruct (is_nil rest); [now apply IH|discriminate]|discriminate].
Qed.
Lemma cert_list_iff : forall fuel which o c o', is_bytes c -> (length c < fuel)%nat ->
  (cert_list pton fuel which o c = Some (Some o') <-> exists fs, fields c fs /\ chain (eff which) fs o o').
Proof.
  induction fuel as [|fuel IH]; intros which o c o' B H; [lia|]. cbn [cert_list]. destruct (is_nil c) eqn:En.
  { apply nil_iff in En. subst c. split; [intros E; injection E as <-; exists []; split; [constructor|reflexivity]|].
    intros (fs & F & C). inversion F as [|w n d b l Ht _ _ E]; subst; [cbn in C; now subst|]. apply app_eq_nil in E as [E1 E2]. discriminate. }
  assert (F1 : forall fs, fields c fs -> exists w n d b l, fs = (n, d) :: l /\ c = w ++ enc_string d ++ b /\ ctext w n /\ zlen d <= 134217724 /\ fields b l).
  { intros fs F. inversion F; subst; [discriminate|]. eauto 12. }
  destruct (get_cstr c) as [[name c1]|] eqn:G1.
  2:{ split; [discriminate|]. intros (fs & F & _). apply F1 in F as (w & n & d & b & l & -> & Ec & Ht & _). rewrite (proj2 (get_cstr_iff c n (enc_string d ++ b) B)) in G1; [discriminate|eauto]. }
  assert (G1' := G1). apply get_cstr_iff in G1 as (w & Hw & ->); [|assumption]. assert (B' := B). apply is_bytes_app in B' as [_ B1].
  destruct (get_str c1) as [[data c2]|] eqn:G2.
  2:{ split; [discriminate|]. intros (fs & F & _). apply F1 in F as (w' & n & d & b & l & -> & Ec & Ht & Hd & _).
      assert (Q : get_cstr (w ++ c1) = Some (n, enc_string d ++ b)) by (apply get_cstr_iff; eauto). rewrite G1' in Q. assert (Q' : c1 = enc_string d ++ b) by congruence. rewrite Q', get_str_enc in G2 by assumption. discriminate. }
  assert (G2' := G2). apply get_str_spec in G2 as (-> & Ld & Bd & B2); [|assumption].
  assert (L : (length c2 < fuel)%nat). { rewrite !app_length in H. unfold enc_string in H. rewrite app_length, be_enc_length in H. lia. }
  assert (S : (exists fs, fields (w ++ enc_string data ++ c2) fs /\ chain (eff which) fs o o') <->
              exists o1 fs, eff which (name, data) o o1 /\ fields c2 fs /\ chain (eff which) fs o1 o').
  { split.
    - intros (fs & F & C). apply F1 in F as (w' & n & d & b & l & -> & Ec & Ht & Hd & F). assert (Q : get_cstr (w ++ enc_string data ++ c2) = Some (n, enc_string d ++ b)) by (apply get_cstr_iff; eauto).
      rewrite G1' in Q. assert (Q' : enc_string data ++ c2 = enc_string d ++ b) by congruence. assert (n = name) by congruence. subst n. rewrite Q', get_str_enc in G2' by assumption. assert (d = data) by congruence. assert (b = c2) by congruence. subst d b. destruct C as (o1 & C1 & C2). exists o1, l. auto.
    - intros (o1 & fs & C1 & F & C2). exists ((name, data) :: fs). split; [now constructor|]. exists o1. auto. }
  rewrite S. pose proof (cert_step which o name data Bd) as St.
  destruct (if which then crit_option pton o name data else ext_option o name data) as [|o1 rest|].
  - destruct which.
    + split; [discriminate|]. intros (o1 & fs & E & _). destruct (St _ E).
    + rewrite (IH false o c2 o' B2 L). split; [intros (fs & F & C); exists o, fs; split; [now apply St|auto]|intros (o1 & fs & E & F & C); apply St in E; subst; eauto].
  - destruct (is_nil rest).
    + rewrite (IH which o1 c2 o' B2 L). split; [intros (fs & F & C); exists o1, fs; split; [now apply St|auto]|intros (o2 & fs & E & F & C); apply St in E; subst; eauto].
    + split; [discriminate|]. intros (o2 & fs & E & _). destruct (St _ E).
  - split; [discriminate|]. intros (o2 & fs & E & _). destruct (St _ E).
Qed.
Lemma option_list_iff : forall which o c o', is_bytes c -> (cert_option_list pton which o c = Some o' <-> exists fs, fields c fs /\ chain (eff which) fs o o').
Proof.
  intros which o c o' B. unfold cert_option_list. rewrite <- (cert_list_iff (S (length c)) which o c o' B (Nat.lt_succ_diag_r _)).
  destruct (cert_list pton (S (length c)) which o c) as [r|]; split; congruence.
Qed.
Lemma from_cert_iff : forall k o, (forall c, k_cert k = Some c -> is_bytes (c_critical c) /\ is_bytes (c_extensions c)) ->
  (sshauthopt_from_cert pton k = Some o <-> exists c cr ex o1, k_cert k = Some c /\ c_type c = 1 /\ fields (c_critical c) cr /\ fields (c_extensions c) ex /\
     chain (critical_effect pton) cr sshauthopt_new o1 /\ chain extension_effect ex o1 o).
Proof.
  intros k o B. unfold sshauthopt_from_cert. destruct (k_cert k) as [c|]; [|split; [discriminate|intros (c & ? & ? & ? & E & _); discriminate]].
  destruct (B c eq_refl) as [B1 B2]. unfold SSH2_CERT_TYPE_USER. split.
  - destruct (c_type c =? 1) eqn:Et; [|discriminate]. cbn [negb]. destruct (cert_option_list pton true sshauthopt_new (c_critical c)) as [o1|] eqn:E1; [|discriminate].
    intros E2. apply option_list_iff in E1 as (cr & F1 & C1); [|assumption]. apply option_list_iff in E2 as (ex & F2 & C2); [|assumption].
    exists c, cr, ex, o1. split; [reflexivity|]. split; [lia|]. auto.
  - intros (c0 & cr & ex & o1 & E & Ht & F1 & F2 & C1 & C2). injection E as <-. replace (c_type c =? 1) with true by lia. cbn [negb].
    rewrite (proj2 (option_list_iff true sshauthopt_new (c_critical c) o1 B1)) by (exists cr; auto). apply option_list_iff; [assumption|]. exists ex. auto.
Qed.
Lemma ext_flag : forall f o o' r, extension_effect f o o' -> (flag r o' <> flag r o -> fst f = grants_right r) /\ (fst f = grants_right r -> flag r o' = 1) /\ a_cmd o' = a_cmd o /\ a_verify o' = a_verify o /\ a_from_cert o' = a_from_cert o.
Proof.
  intros [name data] o o' r [(set & Hi & -> & ->)|[Hn ->]]; cbn [fst snd].
  - destruct o. unfold ext_names in Hi. cbn [In] in Hi. destruct Hi as [H|[H|[H|[H|[H|[H|[]]]]]]]; injection H as <- <-;
      destruct r; cbn [w_port w_agent w_x11 w_pty w_rc w_notouch flag AuthOptModel.a_port AuthOptModel.a_agent AuthOptModel.a_x11 AuthOptModel.a_pty AuthOptModel.a_rc AuthOptModel.a_notouch AuthOptModel.a_cmd AuthOptModel.a_verify AuthOptModel.a_from_cert grants_right];
      repeat split; intros; try reflexivity; try congruence; try (match goal with K : _ \/ _ |- _ => destruct K; congruence end); match goal with K : _ = bs _ |- _ => discriminate K end.
  - repeat split; try reflexivity; try congruence. intros ->. exfalso. destruct r; (eapply Hn; unfold ext_names; cbn [In grants_right]; eauto 10).
Qed.
Lemma crit_flag : forall f o o' r, critical_effect pton f o o' -> flag r o' = flag r o.
Proof.
  intros [name data] o o' r H. destruct o. destruct H as [(_ & _ & ->)|[(_ & _ & c & _ & ->)|(_ & _ & c & _ & _ & ->)]]; destruct r; reflexivity.
Qed.
Lemma chain_ext : forall ex o o' r, chain extension_effect ex o o' -> (flag r o' = flag r o \/ flag r o' = 1) /\ (granted r o' <-> granted r o \/ exists d, In (grants_right r, d) ex) /\ a_cmd o' = a_cmd o /\ a_verify o' = a_verify o /\ a_from_cert o' = a_from_cert o.
Proof.
  induction ex as [|f ex IH]; intros o o' r C; cbn [chain] in C.
  - subst. split; [auto|]. split; [split; [auto|intros [H|(d & [])]; assumption]|auto].
  - destruct C as (o1 & C1 & C2). destruct (IH _ _ r C2) as (A0 & A & B1 & B2 & B3). destruct (ext_flag _ _ _ r C1) as (E1 & E2 & E3 & E4 & E5).
    split; [destruct A0 as [A0|A0]; [|auto]; rewrite A0; destruct (Z.eq_dec (flag r o1) (flag r o)) as [Q|Q]; [left; assumption|right; apply E2; now apply E1]|].
    split; [|rewrite B1, B2, B3; auto]. rewrite A. unfold granted. split.
    + intros [H|(d & H)]; [|right; exists d; now right]. destruct (Z.eq_dec (flag r o1) (flag r o)) as [Q|Q]; [left; lia|]. right. destruct f as [n d]. apply E1 in Q. cbn in Q. subst n. exists d. now left.
    + intros [H|(d & [-> |H])]; [|left; rewrite (E2 eq_refl); lia|right; eauto].
      destruct (Z.eq_dec (flag r o1) (flag r o)) as [Q|Q]; [left; lia|left]. rewrite (E2 (E1 Q)). lia.
Qed.
Lemma chain_crit : forall cr o o' r, chain (critical_effect pton) cr o o' -> flag r o' = flag r o.
Proof. induction cr as [|f cr IH]; intros o o' r C; cbn [chain] in C; [now subst|]. destruct C as (o1 & C1 & C2). rewrite (IH _ _ r C2). now apply (crit_flag f). Qed.
Lemma chain_crit_in : forall cr o o' n d, chain (critical_effect pton) cr o o' -> In (n, d) cr ->
  (n = bs "verify-required" /\ d = [] /\ a_verify o' = 1) \/
  (n = bs "force-command" /\ exists c, ctext d c /\ a_cmd o' = Some c) \/
  (n = bs "source-address" /\ exists c, ctext d c /\ networks pton c /\ a_from_cert o' = Some c).
Proof.
  assert (K : forall cr o o', chain (critical_effect pton) cr o o' -> (a_verify o = 1 -> a_verify o' = 1) /\ (forall c, a_cmd o = Some c -> a_cmd o' = Some c) /\ (forall c, a_from_cert o = Some c -> a_from_cert o' = Some c)).
  { induction cr as [|[n d] cr IH]; intros o o' C; cbn [chain] in C; [subst; auto|]. destruct C as (o1 & C1 & C2). destruct (IH _ _ C2) as (A & B & D). destruct o.
    destruct C1 as [(_ & _ & ->)|[(_ & E & c & _ & ->)|(_ & E & c & _ & _ & ->)]]; cbn in *; repeat split; intros; auto; congruence. }
  induction cr as [|f cr IH]; intros o o' n d C H; [destruct H|]. destruct C as (o1 & C1 & C2). destruct H as [-> |H]; [|now apply (IH o1)].
  destruct (K _ _ _ C2) as (A & B & D). destruct o. destruct C1 as [(-> & -> & ->)|[(-> & _ & c & Ht & ->)|(-> & _ & c & Ht & Hn & ->)]].
  - left. split; [reflexivity|]. split; [reflexivity|]. now apply A.
  - right. left. split; [reflexivity|]. exists c. split; [assumption|]. now apply B.
  - right. right. split; [reflexivity|]. exists c. split; [assumption|]. split; [assumption|]. now apply D.
Qed.
End Options.
