(** C36, C57, C58: certificates and authorized keys. *)
From Coq Require Import String.
From Verif Require Import Base Text SshbufModel SshbufSpec WireSpec MatchModel MatchSpec MatchProof MiscNumModel AddrModel AddrSpec AddrProof AddrProps Dec AuthOptModel AuthOptSpec AuthOptProof AuthOptProof3 CertModel CertSpec CertProof CertProof2.

(** ** C36: scope *)
Theorem C36_scope : forall k p required by_pattern t name,
  check_authority k (match p with ForHost => true | ForUser => false end) required by_pattern t name = true <->
  exists c, k_cert k = Some c /\ in_scope c p required by_pattern t name.
Proof. exact authority_iff. Qed.
Print Assumptions C36_scope.
(** By the clock; a clock before 1970 is refused. *)
Theorem C36_now : forall now k p required by_pattern name,
  check_authority_now now k (match p with ForHost => true | ForUser => false end) required by_pattern name = true <->
  0 <= now /\ exists c, k_cert k = Some c /\ in_scope c p required by_pattern now name.
Proof. exact now_iff. Qed.
Print Assumptions C36_now.
(** Host certificates: moreover no critical option at all, and the signature
    algorithm is in the configured list. *)
Theorem C36_host : forall now k host by_pattern algs,
  check_host now k host by_pattern algs = true <->
  0 <= now /\ exists c, k_cert k = Some c /\ in_scope c ForHost false by_pattern now (Some host) /\ c_critical c = [] /\
    forall a, algs = Some a -> match_pattern_list (c_sigtype c) a false = Some 1.
Proof.
  intros now k host wild algs. unfold check_host. rewrite Bool.andb_true_iff, (now_iff now k ForHost).
  split.
  - intros [(Hn & c & Ec & S) H]. rewrite Ec in H. apply Bool.andb_true_iff in H as [H1 H2]. split; [assumption|]. exists c. split; [assumption|]. split; [assumption|].
    split; [now destruct (c_critical c)|]. intros a ->. destruct (match_pattern_list (c_sigtype c) a false) as [v|]; [f_equal; lia|discriminate].
  - intros (Hn & c & Ec & S & Hc & Ha). split; [split; [assumption|eauto]|]. rewrite Ec, Hc. cbn [is_nil andb]. destruct algs as [a|]; [|reflexivity]. now rewrite (Ha a eq_refl).
Qed.
Print Assumptions C36_host.
(** The last second of the interval is excluded, the first included. *)
Corollary C36_boundary : forall k c required by_pattern name, k_cert k = Some c ->
  check_authority k false required by_pattern (c_before c) name = false /\
  (c_type c = 1 -> c_principals c = [] -> c_after c < c_before c -> check_authority k false false by_pattern (c_after c) name = true).
Proof.
  intros k c req wild name Ec. split.
  - destruct (check_authority k false req wild (c_before c) name) eqn:E; [|reflexivity]. apply (authority_iff k ForUser) in E as (c0 & E0 & S). assert (c0 = c) by congruence. subst c0. destruct S as (_ & S & _). unfold valid_at in S. lia.
  - intros Ht Hp Hlt. apply (authority_iff k ForUser). exists c. split; [assumption|]. split; [assumption|]. unfold valid_at. split; [lia|]. split; [discriminate|]. intros N. contradiction.
Qed.
Print Assumptions C36_boundary.
Example C36_ex : let c := mkCert 1 [bs "alice"; bs "bob"] 100 200 [] [] (bs "CA") (bs "ssh-ed25519") in
  check_authority (mkK (bs "K") (Some c)) false true false 100 (Some (bs "bob")) = true /\
  check_authority (mkK (bs "K") (Some c)) false true false 200 (Some (bs "bob")) = false /\
  check_authority (mkK (bs "K") (Some c)) false true false 150 (Some (bs "eve")) = false /\
  check_authority (mkK (bs "K") (Some c)) true true false 150 (Some (bs "bob")) = false /\
  check_host 150 (mkK (bs "K") (Some (mkCert 2 [bs "*.example.org"] 100 200 [] [] (bs "CA") (bs "ssh-ed25519")))) (bs "a.example.org") false None = false.
Proof. vm_compute. auto 10. Qed.

(** ** C58: options inside certificates *)
(** A certificate yields options exactly if it is a user certificate whose critical
    options are all known, well formed and, for command and addresses, not
    repeated, and whose known extensions carry no data; unknown extensions are
    ignored. *)
Theorem C58_options : forall pton k c o, (forall s a, pton s = Some a -> wf a) -> k_cert k = Some c -> is_bytes (c_critical c) -> is_bytes (c_extensions c) ->
  (sshauthopt_from_cert pton k = Some o <->
   exists cr ex o1, c_type c = 1 /\ fields (c_critical c) cr /\ fields (c_extensions c) ex /\
     chain (critical_effect pton) cr sshauthopt_new o1 /\ chain extension_effect ex o1 o).
Proof.
  intros pton k c o Hp Ec B1 B2. rewrite from_cert_iff; [|assumption|intros c0 E0; assert (c0 = c) by congruence; subst; auto].
  split; [intros (c0 & cr & ex & o1 & E0 & H); assert (c0 = c) by congruence; subst; eauto|intros (cr & ex & o1 & H); exists c, cr, ex, o1; auto].
Qed.
Print Assumptions C58_options.
(** What a certificate's options give: rights only by their extensions, and every
    critical option known and kept. *)
Theorem C58_meaning : forall pton k c o cr ex, (forall s a, pton s = Some a -> wf a) -> k_cert k = Some c -> is_bytes (c_critical c) -> is_bytes (c_extensions c) ->
  sshauthopt_from_cert pton k = Some o -> fields (c_critical c) cr -> fields (c_extensions c) ex ->
  (forall r, granted r o <-> exists d, In (grants_right r, d) ex) /\ (forall r, bit (flag r o)) /\
  (forall n d, In (n, d) cr ->
     (n = bs "verify-required" /\ d = [] /\ a_verify o = 1) \/
     (n = bs "force-command" /\ exists v, ctext d v /\ a_cmd o = Some v) \/
     (n = bs "source-address" /\ exists v, ctext d v /\ networks pton v /\ a_from_cert o = Some v)).
Proof.
  intros pton k c o cr ex Hp Ec B1 B2 H Fc Fe. apply (C58_options pton k c o Hp Ec B1 B2) in H as (cr' & ex' & o1 & _ & Fc' & Fe' & C1 & C2).
  assert (U : forall b l l', is_bytes b -> fields b l -> fields b l' -> l = l').
  { clear. intros b l l' B F. revert l' B. induction F as [|w n d b l Ht Hd F IH]; intros l' B F'.
    - inversion F' as [|w n d b0 l0 Ht Hd F0 E]; subst; [reflexivity|]. apply app_eq_nil in E as [_ E]. discriminate.
    - inversion F' as [E|w' n' d' b' l0 Ht' Hd' F0 E]; [symmetry in E; apply app_eq_nil in E as [_ E]; discriminate|].
      assert (G : get_cstr (w ++ enc_string d ++ b) = Some (n, enc_string d ++ b)) by (apply get_cstr_iff; eauto).
      assert (G' : get_cstr (w ++ enc_string d ++ b) = Some (n', enc_string d' ++ b')) by (apply get_cstr_iff; [assumption|exists w'; split; [assumption|symmetry; exact E]]).
      assert (En : n = n') by congruence. assert (Er : enc_string d ++ b = enc_string d' ++ b') by congruence. subst n'.
      assert (G2 : get_str (enc_string d ++ b) = Some (d, b)) by now apply get_str_enc. assert (G2' : get_str (enc_string d ++ b) = Some (d', b')) by (rewrite Er; now apply get_str_enc).
      assert (d = d') by congruence. assert (b = b') by congruence. subst. f_equal. apply IH; [|assumption]. apply is_bytes_app in B as [_ B]. now apply is_bytes_app in B. }
  rewrite (U _ _ _ B1 Fc Fc'). rewrite (U _ _ _ B2 Fe Fe').
  assert (Zero : forall r, flag r o1 = 0) by (intros r; rewrite (chain_crit pton cr' _ _ r C1); destruct r; reflexivity).
  split; [|split].
  - intros r. destruct (chain_ext pton Hp ex' _ _ r C2) as (_ & A & _). rewrite A. unfold granted. rewrite Zero. split; [intros [K|K]; [contradiction|assumption]|auto].
  - intros r. destruct (chain_ext pton Hp ex' _ _ r C2) as ([A|A] & _); unfold bit; rewrite A; [rewrite Zero|]; auto.
  - intros n d Hin. destruct (chain_ext pton Hp ex' _ _ Port C2) as (_ & _ & Q1 & Q2 & Q3). rewrite Q1, Q2, Q3. now apply (chain_crit_in pton cr' sshauthopt_new).
Qed.
Print Assumptions C58_meaning.
Example C58_ex :
  let crit := enc_string (bs "force-command") ++ enc_string (enc_string (bs "date")) ++ enc_string (bs "source-address") ++ enc_string (enc_string (bs "10.1.0.0/16")) in
  let ext := enc_string (bs "permit-pty") ++ enc_string [] ++ enc_string (bs "login@example.org") ++ enc_string (bs "x") in
  let k c e := mkK (bs "K") (Some (mkCert 1 [] 0 9 c e (bs "CA") [])) in
  sshauthopt_from_cert demo_pton (k crit ext) = Some (w_pty 1 (w_cmd (Some (bs "date")) (w_from_cert (Some (bs "10.1.0.0/16")) sshauthopt_new))) /\
  fields crit [(bs "force-command", enc_string (bs "date")); (bs "source-address", enc_string (bs "10.1.0.0/16"))] /\
  sshauthopt_from_cert demo_pton (k (enc_string (bs "login@example.org") ++ enc_string []) ext) = None /\
  sshauthopt_from_cert demo_pton (k [] (enc_string (bs "permit-pty") ++ enc_string (bs "x"))) = None /\
  sshauthopt_from_cert demo_pton (k (enc_string (bs "source-address") ++ enc_string (enc_string (bs "10.1.0.0/15"))) []) = None.
Proof.
  intros crit ext k. split; [vm_compute; reflexivity|]. split; [|vm_compute; auto].
  assert (T : forall v, ~ In 0 v -> zlen v <= 134217724 -> ctext (enc_string v) v) by (intros v N L; split; auto).
  unfold crit. rewrite <- (app_nil_r (enc_string (enc_string (bs "10.1.0.0/16")))). rewrite <- (app_nil_r (_ ++ _ ++ _ ++ _ ++ _)) in *. rewrite app_nil_r.
  repeat (apply fields_cons; [apply T; [vm_compute; intuition discriminate|vm_compute; discriminate]|vm_compute; discriminate|]). constructor.
Qed.

(** ** C57: who is let in by a key *)
Section C57.
Variable pton : list Z -> option xaddr.
Variable serv ptime : list Z -> option Z.
Variable rd : list Z -> option (list Z).
Variable now : Z.
Variables ip host user : list Z.
(** One file: the first line that accepts decides. *)
Theorem C57_file : forall k lines o,
  check_authkeys_file pton serv ptime rd now ip host user k lines = Some o <->
  first_of (line_accepts serv ptime rd pton now ip host user k) lines o.
Proof. intros. apply keys_iff. Qed.
Theorem C57_principals : forall c lines o,
  process_principals serv ptime lines c = Some o <-> first_of (principal_accepts serv ptime c) lines o.
Proof. exact (princs_iff pton serv ptime rd). Qed.
(** All ways in, in their order; revoked keys and authorities never. *)
Theorem C57_login : forall revoked s k o,
  user_key_allowed pton serv ptime rd now ip host user revoked s k = Some o <->
  allowed serv ptime rd pton now ip host user s revoked k o.
Proof. intros. apply allowed_iff. Qed.

(** Whatever the files say: a certificate lets its holder in only while it is valid
    and as a user certificate; the login has only rights its extensions give; its
    forced command and user verification hold; and the client's address is in one
    of its networks. *)
Theorem C57_certificate : forall revoked s k c o, (forall t a, pton t = Some a -> wf a) ->
  user_key_allowed pton serv ptime rd now ip host user revoked s k = Some o ->
  k_cert k = Some c -> is_bytes (c_critical c) -> is_bytes (c_extensions c) ->
  revoked k = false /\ revoked (mkK (c_ca c) None) = false /\
  c_type c = 1 /\ c_after c <= now < c_before c /\
  exists cr ex, fields (c_critical c) cr /\ fields (c_extensions c) ex /\
  (forall r, granted r o -> exists d, In (grants_right r, d) ex) /\
  (forall n d, In (n, d) cr ->
     (n = bs "verify-required" /\ a_verify o = 1) \/
     (n = bs "force-command" /\ exists v, ctext d v /\ a_cmd o = Some v) \/
     (n = bs "source-address" /\ exists v x, ctext d v /\ pton ip = Some x /\
        exists e a m, In e (split 44 v) /\ AddrSpec.reads pton e a m /\ consistent a m /\ in_network x a m)).
Proof.
  intros revoked s k c o Hp H Ec B1 B2. apply allowed_iff in H as (Rk & Rc & H). split; [assumption|]. split; [now apply Rc|].
  assert (Q : exists co req name, sshauthopt_from_cert pton k = Some co /\ meets pton now ip host co /\ in_scope c ForUser req false now name /\ (o = co \/ exists x, sshauthopt_merge x co = Some o)).
  { assert (L : forall e, accepts serv ptime rd pton now ip host user k e o -> exists co req name, sshauthopt_from_cert pton k = Some co /\ meets pton now ip host co /\ in_scope c ForUser req false now name /\ (o = co \/ exists x, sshauthopt_merge x co = Some o)).
    { intros e (key & ko & _ & _ & A). rewrite Ec in A. destruct A as (_ & _ & _ & S & _ & co & F & M & G). exists co, false. eexists. split; [assumption|]. split; [assumption|]. split; [exact S|eauto]. }
    destruct H as [(a & f & b & _ & (a' & l & b' & _ & (e & _ & A) & _) & _)|[_ [H|[_ (out & _ & (a' & l & b' & _ & (e & _ & A) & _))]]]]; [eauto| |eauto].
    destruct H as (c0 & t & co & E0 & _ & _ & _ & F & M & D). assert (c0 = c) by congruence. subst c0. destruct D as [(_ & _ & S & ->)|(_ & S & po & _ & _ & _ & _ & G)]; exists co, true; eexists; (split; [assumption|]; split; [assumption|]; split; [exact S|eauto]). }
  destruct Q as (co & req & name & F & (_ & _ & Ms) & (S1 & S2 & _) & O). split; [assumption|]. split; [exact S2|].
  destruct (proj1 (C58_options pton k c co Hp Ec B1 B2) F) as (cr & ex & o1 & _ & Fc & Fe & _). exists cr, ex. split; [assumption|]. split; [assumption|].
  destruct (C58_meaning pton k c co cr ex Hp Ec B1 B2 F Fc Fe) as (G & Bt & K). split.
  - intros r Hr. apply G. destruct O as [-> |(x & O)]; [assumption|]. destruct (merge_some _ _ _ O) as (Fl & _). unfold granted in *. rewrite Fl in Hr. apply and_one in Hr. lia.
  - intros n d Hin. destruct (K n d Hin) as [(-> & _ & V)|[(-> & v & Ht & V)|(-> & v & Ht & Nv & V)]].
    + left. split; [reflexivity|]. destruct O as [-> |(x & O)]; [assumption|]. destruct (merge_some _ _ _ O) as (_ & Ve & _). rewrite Ve. unfold optflag_or. rewrite V. cbn [Z.eqb]. now rewrite Bool.orb_true_r.
    + right. left. split; [reflexivity|]. exists v. split; [assumption|]. destruct O as [-> |(x & O)]; [assumption|]. apply (merge_cmd_iff _ _ _ v O). now right.
    + right. right. split; [reflexivity|]. exists v. specialize (Ms v V). destruct (pton ip) as [x|] eqn:Ex.
      * exists x. split; [assumption|]. split; [reflexivity|].
        destruct (C13_cidr_list pton ip x v Hp Ex) as (_ & A & _).
        { intros e He ch Hc. unfold networks in Nv. rewrite Forall_forall in Nv. destruct (Nv e He) as (_ & _ & W & _). rewrite Forall_forall in W. now apply W. }
        apply A in Ms as [_ Ms]. apply Exists_exists in Ms as (e & He & a & m & R1 & R2 & R3). eauto 10.
      * exfalso. unfold addr_match_cidr_list in Ms. rewrite Ex in Ms. discriminate.
Qed.
(** The names of a certificate: exactly how an entry decides. *)
Theorem C57_names : forall k c line o, k_cert k = Some c -> accepts serv ptime rd pton now ip host user k line o ->
  exists key ko, entry serv ptime rd line key ko /\ key = c_ca c /\
  match a_princ ko with
  | None => c_principals c = [] \/ In user (c_principals c)
  | Some l => exists p n, In p (c_principals c) /\ In n (names p) /\ In n (names l)
  end.
Proof.
  intros k c line o Ec (key & ko & E & _ & A). rewrite Ec in A. destruct A as (-> & _ & _ & (_ & _ & _ & S) & P & _). exists (c_ca c), ko. split; [assumption|]. split; [reflexivity|].
  destruct (a_princ ko) as [l|].
  - destruct (P l eq_refl) as (p & n & H1 & H2 & H3). exists p, n. split; [assumption|]. split; [assumption|]. clear - H3. revert H3. generalize (names l) as L. intros L H. rewrite <- (firstn_skipn 40 L). apply in_or_app. now left.
  - destruct (c_principals c) as [|q ps] eqn:Eq; [now left|]. right. rewrite <- Eq in *. destruct (S ltac:(rewrite Eq; discriminate) user eq_refl) as (p & Hp & Hx). now subst p.
Qed.
End C57.
Print Assumptions C57_file.
Print Assumptions C57_principals.
Print Assumptions C57_login.
Print Assumptions C57_certificate.
Print Assumptions C57_names.

(** A reader of key texts for the examples: "K" and "CA" are keys. *)
Definition demo_rd (t : list Z) : option (list Z) :=
  if beqb (firstn 2 t) (bs "K ") then Some (bs "K") else if beqb (firstn 3 t) (bs "CA ") then Some (bs "CA") else None.
Definition demo_none (t : list Z) : option Z := None.
Definition demo_cert (ps : list (list Z)) : skey := mkK (bs "KC") (Some (mkCert 1 ps 100 200 [] [] (bs "CA") (bs "sig"))).
Definition demo_check := check_authkeys_file demo_pton demo_none demo_none demo_rd 150 (bs "10.1.2.3") (bs "h") (bs "alice").
Example C57_ex :
  demo_check (mkK (bs "K") None) [bs "# K x"; bs " from=""10.2.*"" K x"; bs "no-pty,command=""a b"" K x"; bs "K x"] = Some (w_cmd (Some (bs "a b")) (w_pty 0 sshauthopt_new_with_keys_defaults)) /\
  demo_check (mkK (bs "K") None) [bs "cert-authority K x"] = None /\
  demo_check (demo_cert [bs "alice"]) [bs "CA x"] = None /\
  (exists o, demo_check (demo_cert [bs "alice"]) [bs "cert-authority CA x"] = Some o) /\
  demo_check (demo_cert [bs "bob"]) [bs "cert-authority CA x"] = None /\
  demo_check (demo_cert [bs "bob"]) [bs "cert-authority,principals=""alice"" CA x"] = None.
Proof. split; [vm_compute; reflexivity|]. split; [vm_compute; reflexivity|]. split; [vm_compute; reflexivity|]. split; [eexists; vm_compute; reflexivity|]. split; vm_compute; reflexivity. Qed.
(** Finding: in a principals= option a certificate principal is read as a list, so
    a certificate for the one name "bob,alice" passes for "alice"; and a
    certificate without principals passes a plain cert-authority entry. *)
Theorem C57_comma_refuted : exists c l, match_principals_option l c = true /\ forall n, In n (names l) -> ~ In n (c_principals c).
Proof.
  exists (mkCert 1 [bs "bob,alice"] 0 9 [] [] [] []), (bs "alice"). split; [vm_compute; reflexivity|]. intros n Hn. vm_compute in Hn. destruct Hn as [<- |[]]. intros [H|[]]. discriminate H.
Qed.
Print Assumptions C57_comma_refuted.
Theorem C57_no_principals_refuted : exists o, demo_check (demo_cert []) [bs "cert-authority CA x"] = Some o.
Proof. eexists. vm_compute. reflexivity. Qed.
Print Assumptions C57_no_principals_refuted.
(** Only the first forty names of a principals= option count. *)
Theorem C57_forty_refuted : exists c l n, In n (names l) /\ In n (c_principals c) /\ match_principals_option l c = false.
Proof.
  exists (mkCert 1 [bs "z"] 0 9 [] [] [] []), (flat_map (fun _ => bs "a,") (seq 0 40) ++ bs "z"), (bs "z").
  split; [vm_compute; tauto|]. split; [now left|vm_compute; reflexivity].
Qed.
Print Assumptions C57_forty_refuted.
