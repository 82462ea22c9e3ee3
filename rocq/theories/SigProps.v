(** C76: signatures of files.  "ssh-keygen -Y verify" says that a signature is good
    exactly when it is a signature of that message, for that purpose, by a key that
    the file of allowed signers allows for that name, purpose and time. *)
From Coq Require Import String.
From Verif Require Import Base Text SshbufModel SshbufSpec WireSpec MatchModel MatchSpec MiscNumModel AuthOptModel AuthOptSpec AuthOptProof Dec CertModel CertSpec CertProof Base64Spec SigModel SigSpec SigProof SigProof2 SigProof3.
Local Open Scope Z_scope.

(** Samples: a key is its blob, a signature the key and the data after its name. *)
Definition s_key (b : list Z) : pkey := mkPk (mkK b None) [].
Definition s_blob (b : list Z) : option pkey := Some (s_key b).
Definition s_sig (k d : list Z) : list Z := enc_string (bs "toy") ++ k ++ d.
Definition s_ver (k : pkey) (sg d : list Z) : bool := beqb sg (s_sig (k_pub (pk_key k)) d).
Definition s_dig (alg m : list Z) : list Z := firstn 4 (rev m).
Definition s_rsa (_ : pkey) : bool := false.
Definition s_reads : list got := [GData (bs "hello "); GAgain; GData (bs "world")].
Definition s_text : list Z := Eval vm_compute in
  match cmd_sign s_dig (bs "K1") false (fun _ d => Some (s_sig (bs "K1") d)) None s_reads (bs "file") with Some t => t | None => [] end.
Definition s_obj : list Z := Eval vm_compute in match sshsig_dearmor (fun _ => 0) s_text with Some t => t | None => [] end.

(** ** The object *)
(** A signature is accepted with a key exactly when the message could be read and
    the object is a signature of it by that key for that purpose. *)
Theorem C76_verified : forall from_blob rsa ver dig w reads ns k, is_bytes w ->
  (verify_fd from_blob rsa ver dig w reads ns = Some k <-> exists m, delivers reads m /\ signs from_blob rsa ver dig w k ns m).
Proof. exact verify_iff. Qed.
Print Assumptions C76_verified.
Example C76_verified_ex : verify_fd s_blob s_rsa s_ver s_dig s_obj s_reads (bs "file") = Some (s_key (bs "K1")) /\
  verify_fd s_blob s_rsa s_ver s_dig s_obj s_reads (bs "git") = None /\
  verify_fd s_blob s_rsa s_ver s_dig s_obj (s_reads ++ [GData (bs "!")]) (bs "file") = None /\
  verify_fd s_blob s_rsa s_ver s_dig s_obj (s_reads ++ [GError]) (bs "file") = None.
Proof. repeat split; vm_compute; reflexivity. Qed.

(** What is signed determines the purpose, the digest's name and the digest; it is
    no data that begins with a string, as everything that is signed for a login, a
    key exchange or a certificate does. *)
Theorem C76_bound : forall ns alg h,
  (forall ns' alg' h', zlen ns <= 134217724 -> zlen alg <= 134217724 -> zlen h <= 134217724 -> zlen ns' <= 134217724 -> zlen alg' <= 134217724 -> zlen h' <= 134217724 ->
     signed_data ns alg h = signed_data ns' alg' h' -> ns = ns' /\ alg = alg' /\ h = h') /\
  (forall s r, zlen s <= 134217724 -> signed_data ns alg h <> enc_string s ++ r).
Proof. intros ns alg h. split; [apply signed_inj|]. intros s r L. apply not_string. lia. Qed.
Print Assumptions C76_bound.
Example C76_bound_ex : signed_data (bs "file") (bs "sha512") (bs "D") = bs "SSHSIG" ++ [0;0;0;4] ++ bs "file" ++ [0;0;0;0] ++ [0;0;0;6] ++ bs "sha512" ++ [0;0;0;1] ++ bs "D".
Proof. reflexivity. Qed.

(** One object serves one purpose and one key. *)
Theorem C76_one_purpose : forall from_blob rsa ver dig w reads ns k reads' ns' k', is_bytes w ->
  verify_fd from_blob rsa ver dig w reads ns = Some k -> verify_fd from_blob rsa ver dig w reads' ns' = Some k' -> ns = ns' /\ k = k'.
Proof.
  intros from_blob rsa ver dig w reads ns k reads' ns' k' Hb H H'. apply verify_iff in H as (m & _ & v & kb & rsv & alg & sg & O1 & F & _); [|assumption].
  apply verify_iff in H' as (m' & _ & v' & kb' & rsv' & alg' & sg' & O2 & F' & _); [|assumption]. destruct (object_unique _ _ _ _ _ _ _ _ _ _ _ _ _ Hb O1 O2) as (-> & -> & _). split; congruence.
Qed.
Print Assumptions C76_one_purpose.

(** The converse fails: the version is not covered, so that for every signature
    another file is a signature of the same message. *)
Theorem C76_malleable : forall from_blob rsa ver dig w k ns m, signs from_blob rsa ver dig w k ns m ->
  exists w', w' <> w /\ zlen w' = zlen w /\ signs from_blob rsa ver dig w' k ns m.
Proof.
  intros from_blob rsa ver dig w k ns m (v & kb & rsv & alg & sg & (wns & walg & -> & V & R) & S).
  exists (bs "SSHSIG" ++ be_enc 4 (1 - v) ++ enc_string kb ++ wns ++ enc_string rsv ++ walg ++ enc_string sg). split; [|split].
  - intros E. apply app_inv_head in E. assert (v = 0 \/ v = 1) as [-> | ->] by lia; discriminate E.
  - rewrite !zlen_app, !zlen_be_enc. reflexivity.
  - exists (1 - v), kb, rsv, alg, sg. split; [|exact S]. exists wns, walg. splits; auto; try lia; tauto.
Qed.
Print Assumptions C76_malleable.

(** ** The text form *)
Theorem C76_armor : forall junk s d, zlen s <= 134217728 -> (sshsig_dearmor junk s = Some d <-> text_of d s).
Proof. exact dearmor_iff. Qed.
Print Assumptions C76_armor.
Example C76_armor_ex : sshsig_dearmor (fun _ => 7) (bs "-----BEGIN SSH SIGNATURE-----" ++ [13; 10] ++ bs "aGVs" ++ [10] ++ bs "bG8=" ++ [0; 10] ++ bs "-----END SSH SIGNATURE-----junk") = Some (bs "hello") /\
  sshsig_dearmor (fun _ => 7) (bs " -----BEGIN SSH SIGNATURE-----" ++ [10] ++ bs "aGVsbG8=" ++ [10] ++ bs "-----END SSH SIGNATURE-----") = None /\
  sshsig_dearmor (fun _ => 7) (bs "-----BEGIN SSH SIGNATURE-----" ++ [10] ++ bs "aGVsbG8=-----END SSH SIGNATURE-----") = None.
Proof. repeat split; vm_compute; reflexivity. Qed.

(** ** Signing *)
(** What -Y sign writes is a signature by the key, as soon as the key's own signatures
    are accepted and name the algorithm asked for. *)
Theorem C76_round_trip : forall from_blob rsa ver dig kblob k sgn hashalg reads ns text,
  from_blob kblob = Some k -> is_bytes kblob -> is_bytes ns -> ~ In 0 ns ->
  (forall a d sg, sgn a d = Some sg -> is_bytes sg /\ ver k sg d = true /\ forall al, a = Some al -> exists r, sg = enc_string al ++ r) ->
  cmd_sign dig kblob (rsa k) sgn hashalg reads ns = Some text ->
  exists w m, text_of w text /\ delivers reads m /\ signs from_blob rsa ver dig w k ns m /\
    forall junk, cmd_check from_blob rsa ver dig junk text reads ns = true.
Proof.
  intros from_blob rsa ver dig kblob k sgn hashalg reads ns text Fb Bk Bn Nz Sg H. unfold cmd_sign in H.
  destruct (sign_fd dig kblob (rsa k) sgn hashalg reads ns) as [w|] eqn:Es; [|discriminate]. unfold sign_fd in Es. cbv zeta in Es.
  set (alg := match hashalg with Some a => a | None => HASHALG_DEFAULT end) in *. unfold hash_file in Es. destruct (negb (check_hashalg alg)) eqn:Ec; [discriminate|].
  assert (Ha : hash_ok alg) by (apply hashalg_iff; now destruct (check_hashalg alg)). clear Ec.
  destruct (slurp reads) as [m|] eqn:Er; [|discriminate]. pose proof (proj1 (slurp_iff _ _) Er) as Dm. destruct (tosign ns alg (dig alg m)) as [d|] eqn:Et; [|discriminate]. apply tosign_iff in Et as (-> & Ld).
  destruct (sgn (sign_alg_of (rsa k) alg) (signed_data ns alg (dig alg m))) as [sg|] eqn:Eg; [|discriminate]. apply Sg in Eg as (Bg & Vg & Ng).
  apply put_str_fits_m in Es as (b1 & Es & -> & Lw). apply put_str_fits_m in Es as (b2 & Es & -> & _). apply put_str_fits_m in Es as (b3 & Es & -> & _). apply put_str_fits_m in Es as (b4 & Es & -> & _).
  apply put_str_fits_m in Es as (b5 & Es & -> & _). unfold put_u32 in Es. change (AuthOptModel.put MAGIC_PREAMBLE (Some [])) with (Some (bs "SSHSIG")) in Es. apply put_iff in Es as (-> & _).
  change (u32 SIG_VERSION) with 1 in *. rewrite <- !app_assoc in *. set (w := bs "SSHSIG" ++ be_enc 4 1 ++ _) in *.
  assert (Lp : zlen kblob <= 134217724 /\ zlen ns <= 134217724 /\ zlen alg <= 134217724 /\ zlen sg <= 134217724).
  { unfold w in Lw. rewrite !zlen_app, !zlen_enc_string in Lw. pose proof (zlen_nonneg _ kblob). pose proof (zlen_nonneg _ ns). pose proof (zlen_nonneg _ alg). pose proof (zlen_nonneg _ sg). pose proof (zlen_nonneg _ (bs "SSHSIG")). pose proof (zlen_nonneg _ (be_enc 4 1)). pose proof (zlen_nonneg _ (@nil Z)). lia. }
  destruct Lp as (L1 & L2 & L3 & L4).
  assert (Na : ~ In 0 alg) by (destruct Ha as [-> | ->]; vm_compute; intuition discriminate).
  assert (Ba : is_bytes alg) by (destruct Ha as [-> | ->]; apply Forall_forall; intros x Hx; vm_compute in Hx; unfold is_byte; intuition lia).
  assert (Ob : is_object w 1 kblob ns [] alg sg).
  { exists (enc_string ns), (enc_string alg). splits; auto; try lia; [split; [assumption|left; auto]|split; [assumption|left; auto]|vm_compute; discriminate]. }
  assert (Bw : is_bytes w).
  { assert (Be : forall v, is_bytes v -> is_bytes (enc_string v)) by (intros v Hv; apply Forall_app; split; [apply be_enc_bytes|assumption]).
    unfold w. apply Forall_app; split; [apply Forall_forall; intros x Hx; vm_compute in Hx; unfold is_byte; intuition lia|].
    apply Forall_app; split; [apply be_enc_bytes|]. apply Forall_app; split; [now apply Be|]. apply Forall_app; split; [now apply Be|]. apply Forall_app; split; [apply Be; constructor|]. apply Forall_app; split; now apply Be. }
  assert (Si : signs from_blob rsa ver dig w k ns m).
  { exists 1, kblob, [], alg, sg. splits; auto. intros R. rewrite R in Ng. unfold rsa_ok, names_alg. destruct Ha as [Ha|Ha]; rewrite Ha in Ng.
    - left. destruct (Ng (bs "rsa-sha2-256") eq_refl) as (r & ->). exists (enc_string (bs "rsa-sha2-256")), r. split; [reflexivity|]. split; [vm_compute; intuition discriminate|left; split; [reflexivity|vm_compute; discriminate]].
    - right. destruct (Ng (bs "rsa-sha2-512") eq_refl) as (r & ->). exists (enc_string (bs "rsa-sha2-512")), r. split; [reflexivity|]. split; [vm_compute; intuition discriminate|left; split; [reflexivity|vm_compute; discriminate]]. }
  assert (T : text_of w text). { apply armor_text; auto; [discriminate|lia]. }
  exists w, m. splits; auto. intros junk. unfold cmd_check. rewrite (proj2 (dearmor_iff junk text w (armor_size _ _ H)) T).
  now rewrite (proj2 (verify_iff from_blob rsa ver dig w reads ns k Bw) (ex_intro _ m (conj Dm Si))).
Qed.
Print Assumptions C76_round_trip.
Example C76_round_trip_ex : cmd_sign s_dig (bs "K1") false (fun _ d => Some (s_sig (bs "K1") d)) None s_reads (bs "file") = Some s_text /\
  cmd_check s_blob s_rsa s_ver s_dig (fun _ => 0) s_text s_reads (bs "file") = true.
Proof. split; vm_compute; reflexivity. Qed.

(** ** The file of allowed signers *)
(** The options before a key, when the list has no blank outside quotes. *)
Theorem C76_options : forall ptime its opts o, soptions opts its ->
  (smeans ptime its o -> sshsigopt_parse ptime (Some opts) = Some o).
Proof.
  intros ptime its opts o (ts & T1 & T2 & T3 & T4) M. apply sparse_iff. exists its, []. split; [|assumption]. exists ts. splits; auto; [now rewrite app_nil_r|now left].
Qed.
Print Assumptions C76_options.
(** What a line says, and when it is passed over: [parse_line] gives the entry that
    the line says, if the required name is on its list. *)
Theorem C76_line : forall ptime rd line required e, parse_line ptime rd line required = LEntry e <->
  says_line ptime rd line e /\ forall p, required = Some p -> on_list (e_who e) p.
Proof. exact parse_line_iff. Qed.
Print Assumptions C76_line.
Definition s_rd (l : list Z) : option pkey := if beqb l (bs "K1") then Some (s_key (bs "K1")) else if beqb l (bs "CA") then Some (s_key (bs "CA")) else None.
Definition s_time (l : list Z) : option Z := if beqb l (bs "2020") then Some 100 else if beqb l (bs "2030") then Some 200 else None.
Definition s_line : list Z := bs "  *@example.com,!eve@example.com   namespaces=" ++ [34] ++ bs "file,git" ++ [34] ++ bs ",valid-before=" ++ [34] ++ bs "2030" ++ [34] ++ bs " K1".
Example C76_line_ex : parse_line s_time s_rd s_line (Some (bs "al@example.com")) =
    LEntry (mkE (bs "*@example.com,!eve@example.com") (s_key (bs "K1")) (mkSo false (Some (bs "file,git")) 0 200)) /\
  parse_line s_time s_rd s_line (Some (bs "eve@example.com")) = LNotFound /\
  parse_line s_time s_rd (bs "al valid-before=" ++ [34] ++ bs "2020" ++ [34] ++ bs ",valid-after=" ++ [34] ++ bs "2030" ++ [34] ++ bs " K1") None = LInvalid.
Proof. repeat split; vm_compute; reflexivity. Qed.

(** A key is allowed exactly when some line says so. *)
Theorem C76_allowed : forall ptime rd lines k who ns t,
  check_allowed_keys ptime rd lines k who ns t = true <->
  exists line e, In line lines /\ says_line ptime rd line e /\ allows e k who ns t.
Proof.
  intros ptime rd lines k who ns t. rewrite <- check_lines_iff. unfold check_allowed_keys. destruct (check_lines ptime rd lines k (Some who) (Some ns) t) as [w|].
  - split; [eauto|reflexivity]. - split; [discriminate|intros (w & H); discriminate].
Qed.
Print Assumptions C76_allowed.
Definition s_cert (crit : list Z) (names : list (list Z)) : pkey := mkPk (mkK (bs "U") (Some (mkCert 1 names 100 200 crit [] (bs "CA") []))) (bs "cert").
Example C76_allowed_ex : check_allowed_keys s_time s_rd [bs "# comment"; bs "broken"; s_line] (s_key (bs "K1")) (bs "al@example.com") (bs "git") 200 = true /\
  check_allowed_keys s_time s_rd [s_line] (s_key (bs "K1")) (bs "al@example.com") (bs "git") 201 = false /\
  check_allowed_keys s_time s_rd [s_line] (s_key (bs "K1")) (bs "al@example.com") (bs "email") 150 = false /\
  check_allowed_keys s_time s_rd [s_line] (s_key (bs "K2")) (bs "al@example.com") (bs "git") 150 = false /\
  check_allowed_keys s_time s_rd [bs "*@h cert-authority CA"] (s_cert [] [bs "bob@h"]) (bs "bob@h") (bs "git") 150 = true /\
  check_allowed_keys s_time s_rd [bs "*@h cert-authority CA"] (s_cert [] [bs "bob@h"]) (bs "al@h") (bs "git") 150 = false /\
  check_allowed_keys s_time s_rd [bs "*@h CA"] (s_cert [] [bs "bob@h"]) (bs "bob@h") (bs "git") 150 = false /\
  check_allowed_keys s_time s_rd [bs "*@h cert-authority CA"] (s_key (bs "CA")) (bs "bob@h") (bs "git") 150 = false.
Proof. repeat split; vm_compute; reflexivity. Qed.

(** ** The verdict *)
Theorem C76_verify : forall from_blob rsa ver dig ptime rd junk sigfile reads ns who lines revoked t, zlen sigfile <= 134217728 ->
  (cmd_verify from_blob rsa ver dig ptime rd junk sigfile reads ns who lines revoked t = true <->
   exists w k m, text_of w sigfile /\ delivers reads m /\ signs from_blob rsa ver dig w k ns m /\
     (forall f, revoked = Some f -> f k = false) /\
     exists line e, In line lines /\ says_line ptime rd line e /\ allows e k who ns t).
Proof.
  intros from_blob rsa ver dig ptime rd junk sigfile reads ns who lines revoked t L. unfold cmd_verify. split.
  - destruct (sshsig_dearmor junk sigfile) as [w|] eqn:D; [|discriminate]. apply dearmor_iff in D; [|assumption]. assert (Bw : is_bytes w) by (destruct D as (eol & tx & nul & tail & D); tauto).
    destruct (verify_fd from_blob rsa ver dig w reads ns) as [k|] eqn:V; [|discriminate]. apply verify_iff in V as (m & Dm & Si); [|assumption]. intros H. apply andb_prop in H as (R & A).
    apply C76_allowed in A. exists w, k, m. splits; auto. intros f ->. now destruct (f k).
  - intros (w & k & m & T & Dm & Si & R & A). rewrite (proj2 (dearmor_iff junk sigfile w L) T). assert (Bw : is_bytes w) by (destruct T as (eol & tx & nul & tail & D); tauto).
    rewrite (proj2 (verify_iff from_blob rsa ver dig w reads ns k Bw) (ex_intro _ m (conj Dm Si))). apply C76_allowed in A. rewrite A.
    destruct revoked as [f|]; [rewrite (R f eq_refl)|]; reflexivity.
Qed.
Print Assumptions C76_verify.
Example C76_verify_ex :
  cmd_verify s_blob s_rsa s_ver s_dig s_time s_rd (fun _ => 0) s_text s_reads (bs "file") (bs "al@example.com") [bs "x y"; s_line] None 150 = true /\
  cmd_verify s_blob s_rsa s_ver s_dig s_time s_rd (fun _ => 0) s_text s_reads (bs "file") (bs "al@example.com") [s_line] (Some (fun _ => true)) 150 = false /\
  cmd_verify s_blob s_rsa s_ver s_dig s_time s_rd (fun _ => 0) s_text s_reads (bs "file") (bs "eve@example.com") [s_line] None 150 = false.
Proof. repeat split; vm_compute; reflexivity. Qed.

(** ** Finding principals *)
(** The names come from the first line that has any for the key at that time. *)
Theorem C76_found : forall ptime rd lines k t w, plain_names k -> find_principals ptime rd lines k t = Some w ->
  exists pre line post e, lines = pre ++ line :: post /\ says_line ptime rd line e /\ suggested e k t (names w) /\
    forall l e' out, In l pre -> says_line ptime rd l e' -> ~ suggested e' k t out.
Proof. exact find_some. Qed.
Print Assumptions C76_found.
Theorem C76_not_found : forall ptime rd lines k t, plain_names k -> find_principals ptime rd lines k t = None ->
  forall line e out, In line lines -> says_line ptime rd line e -> ~ suggested e k t out.
Proof. exact find_none. Qed.
Print Assumptions C76_not_found.
(** When the line negates nothing and its purposes include [ns], verification accepts
    every name found. *)
Theorem C76_found_verifies : forall ptime rd lines k t w ns, plain_names k -> find_principals ptime rd lines k t = Some w ->
  (forall line e, In line lines -> says_line ptime rd line e ->
     ~ In 33 (e_who e) /\ Forall MatchSpec.fits (entries (e_who e)) /\ forall l, so_ns (e_opt e) = Some l -> on_list l ns) ->
  forall n, In n (names w) -> check_allowed_keys ptime rd lines k n ns t = true.
Proof.
  intros ptime rd lines k t w ns PN H A n Hn. apply find_some in H as (pre & line & post & e & -> & Sy & Sg & _); [|assumption].
  assert (I : In line (pre ++ line :: post)) by (apply in_or_app; right; now left). destruct (A line e I Sy) as (A1 & A2 & A3).
  apply C76_allowed. exists line, e. splits; auto. exact (found_allows ptime rd e k t (names w) n ns Sg Hn A1 A2 A3).
Qed.
Print Assumptions C76_found_verifies.
Example C76_found_ex :
  find_principals s_time s_rd [bs "c@h K1"; bs "a*@h,b*@h cert-authority CA"] (s_cert [] [bs "bob@h"; bs "carol@h"; bs "al@h"]) 150 = Some (bs "al@h,bob@h") /\
  names (bs "al@h,bob@h") = [bs "al@h"; bs "bob@h"] /\
  find_principals s_time s_rd [bs "c@h K1"; bs "a*@h,b*@h cert-authority CA"] (s_key (bs "K1")) 150 = Some (bs "c@h").
Proof. repeat split; vm_compute; reflexivity. Qed.
(** "match-principals" lists the entries whose list has the name. *)
Theorem C76_matched : forall ptime rd lines who l, match_principals ptime rd lines who = Some l ->
  forall w, In w l <-> exists line e, In line lines /\ says_line ptime rd line e /\ on_list (e_who e) who /\ w = e_who e.
Proof. exact match_principals_iff. Qed.
Print Assumptions C76_matched.
Example C76_matched_ex : match_principals s_time s_rd [bs "*@h K1"; bs "x CA"; bs "a@h CA"] (bs "a@h") = Some [bs "*@h"; bs "a@h"].
Proof. vm_compute. reflexivity. Qed.

(** ** What does not hold *)
(** Names found are not always accepted: a negated pattern counts for verification
    only. *)
Theorem C76_find_negated_refuted : exists ptime rd lines k t w n, plain_names k /\ find_principals ptime rd lines k t = Some w /\ In n (names w) /\
  forall ns, check_allowed_keys ptime rd lines k n ns t = false.
Proof.
  exists s_time, s_rd, [bs "*,!bob cert-authority CA"], (s_cert [] [bs "bob"]), 150, (bs "bob"), (bs "bob").
  split; [intros c H; injection H as <-; constructor; [split; [discriminate|vm_compute; intuition discriminate]|constructor]|]. split; [vm_compute; reflexivity|]. split; [vm_compute; auto|]. intros ns. vm_compute. reflexivity.
Qed.
Print Assumptions C76_find_negated_refuted.
(** A certificate's critical options do not restrict it here, known or not. *)
Theorem C76_critical_refuted : forall crit, check_allowed_keys s_time s_rd [bs "*@h cert-authority CA"] (s_cert crit [bs "bob@h"]) (bs "bob@h") (bs "git") 150 = true.
Proof. intros crit. vm_compute. reflexivity. Qed.
Print Assumptions C76_critical_refuted.
