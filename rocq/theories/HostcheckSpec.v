(** What the client may conclude from known-hosts entries, answers and DNS
    records. *)
From Coq Require Import String.
From Verif Require Import Base Text MatchModel HostfileModel HostfileSpec HostcheckModel.
Local Open Scope Z_scope.

(** ** Entries for a name *)
(** The key, or the key that signed it, is marked as revoked. *)
Definition marked (es : list hentry) (k : hkey) : Prop :=
  exists e, In e es /\ he_marker e = MRK_REVOKE /\ (same_public k (he_key e) \/ signed_by k (he_key e)).
(** The plain key is listed, or the signer of the certificate as an authority. *)
Definition on_list (es : list hentry) (k : hkey) : Prop :=
  exists e, In e es /\ ((hk_cert k = None /\ he_marker e = MRK_NONE /\ same_key k (he_key e)) \/ (he_marker e = MRK_CA /\ signed_by k (he_key e))).
Definition some_key (es : list hentry) : Prop := exists e, In e es /\ he_marker e = MRK_NONE.
(** Some plain key is listed but not this one. *)
Definition conflicting (es : list hentry) (k : hkey) : Prop := hk_cert k = None /\ ~ marked es k /\ ~ on_list es k /\ some_key es.
(** Nothing is listed. *)
Definition unknown (es : list hentry) (k : hkey) : Prop := ~ marked es k /\ ~ on_list es k /\ (hk_cert k = None -> ~ some_key es).

Section Check.
Variable cf : hconf.
Variable en : henv.
Variable hostname : list Z.
Variable port : Z.

(** A certificate must also be valid for the host. *)
Definition vouched (es : list hentry) (k : hkey) : Prop :=
  ~ marked es k /\ on_list es k /\
  (hk_cert k = None \/ en_cert_ok en k (match hc_alias cf with Some a => a | None => hostname end) = true).
(** The names looked up: with the port, and without it. *)
Definition host_entries (portless : bool) (es : list hentry) : Prop :=
  lookup en portless false (file_host cf hostname (if portless then 0 else port)) = Some es.
(** The key the server shows, or its plain key if it shows a certificate. *)
Definition form (k j : hkey) : Prop := j = k \/ (hk_cert k <> None /\ en_plain en k = Some j).
(** HostKeyAlgorithms permits the key. *)
Definition permitted (k : hkey) : Prop :=
  hk_type k <> KEY_UNSPEC /\ exists n, match_pattern_list n (hc_algs cf) false = Some 1 /\
    (n = hk_name k \/
     (hk_type k = KEY_RSA /\ (n = bs "rsa-sha2-256" \/ n = bs "rsa-sha2-512")) \/
     (hk_type k = KEY_RSA_CERT /\ (n = bs "rsa-sha2-256-cert-v01@openssh.com" \/ n = bs "rsa-sha2-512-cert-v01@openssh.com"))).
(** The plain key is not considered for a certificate that is revoked. *)
Definition shown (es : list hentry) (k j : hkey) : Prop := j = k \/ (hk_cert k <> None /\ en_plain en k = Some j /\ ~ (permitted k /\ marked es k)).
(** The entries for the name without port count if nothing is listed under
    the name with the port. *)
Definition in_scope (portless : bool) (es : list hentry) (k j : hkey) : Prop :=
  host_entries portless es /\
  if portless then
    form k j /\ hc_alias cf = None /\ port <> 0 /\ port <> 22 /\
    exists j' es', host_entries false es' /\ shown es' k j' /\ permitted j' /\ unknown es' j'
  else shown es k j.

(** ** Answers *)
Definition gap (c : Z) : Prop := c = 32 \/ c = 9.
Definition answer_word (a p : list Z) : Prop :=
  exists b t, a = b ++ p ++ t /\ Forall gap b /\ Forall (fun c => ~ gap c /\ c <> 10) p /\ (t = [] \/ hd 0 t = 10 \/ (p <> [] /\ gap (hd 0 t))).
Definition says_no (p : list Z) : Prop := p = [] \/ map tolower p = bs "no".
Definition says_yes (fp : option (list Z)) (p : list Z) : Prop := map tolower p = bs "yes" \/ fp = Some p.
(** The first clear answer is yes (or the fingerprint). *)
Inductive consents (fp : option (list Z)) : list (list Z) -> Prop :=
| co_yes : forall a r p, answer_word a p -> ~ says_no p -> says_yes fp p -> consents fp (a :: r)
| co_unclear : forall a r p, answer_word a p -> ~ says_no p -> ~ says_yes fp p -> consents fp r -> consents fp (a :: r).

(** The user was asked between two points and confirmed. *)
Definition asked (fp : option (list Z)) (w w' : hworld) : Prop :=
  (exists es, hw_log w' = hw_log w ++ es /\ In (HAsk fp true) es) /\
  hc_batch cf = false /\ exists pre s, hw_in w = pre ++ s /\ consents fp s.

(** Nothing a man in the middle could use is on. *)
Definition unexposed (o : hopts) : Prop :=
  ho_password o = false /\ ho_kbdint o = false /\ ho_agent o = false /\ ho_x11 o = false /\
  ho_local o <= 0 /\ ho_remote o <= 0 /\ ho_tun o = 0.
(** Options are only ever switched off. *)
Definition tighter (o o' : hopts) : Prop :=
  (ho_check_ip o' = true -> ho_check_ip o = true) /\ (ho_update o' = true -> ho_update o = true) /\
  (ho_password o' = true -> ho_password o = true) /\ (ho_kbdint o' = true -> ho_kbdint o = true) /\
  (ho_agent o' = true -> ho_agent o = true) /\ (ho_x11 o' = true -> ho_x11 o = true) /\
  (ho_local o' = ho_local o \/ ho_local o' = 0) /\ (ho_remote o' = ho_remote o \/ ho_remote o' = 0) /\ (ho_tun o' = ho_tun o \/ ho_tun o' = 0).

(** ** Why a key may be accepted *)
Inductive basis (k : hkey) (w w' : hworld) : Prop :=
| ba_exempt :
    hc_local_exempt cf = true -> en_local en = true -> hc_alias cf = None -> ho_update (hw_o w') = false -> basis k w w'
| ba_known : forall portless j es,
    in_scope portless es k j -> permitted j -> vouched es j -> basis k w w'
| ba_new : forall j es,
    in_scope false es k j -> permitted j -> hk_cert j = None -> unknown es j ->
    hc_user_files cf <> 0 -> (forall c, In c hostname -> bad_char c = false) ->
    hc_strict cf <> STRICT_YES ->
    (hc_strict cf = STRICT_ASK -> exists fp, en_fp en j = Some fp /\ asked (Some fp) w w') -> basis k w w'
| ba_forced : forall portless j es,
    in_scope portless es k j -> permitted j -> marked es j \/ conflicting es j ->
    hc_strict cf = STRICT_OFF -> unexposed (hw_o w') -> ho_update (hw_o w') = false -> (hc_exit cf = true -> unexposed (hw_o w)) -> basis k w w'.
End Check.

(** ** DNS: an SSHFP record for a key *)
Definition sshfp (alg dtype : Z) (digest : list Z) : list Z := alg :: dtype :: digest.
(** The answer was validated; every record is well known; some record has the
    key's algorithm and digest, and none has another digest of that length. *)
Definition dns_says (en : henv) (k : hkey) : Prop :=
  en_numeric en = false /\ exists rs, en_rrset en = Some (true, rs) /\
  (exists dtype digest, In (sshfp (sshfp_alg (hk_type k)) dtype digest) rs /\ (dtype = 1 \/ dtype = 2) /\ en_digest en dtype k = Some digest) /\
  (forall dtype digest d, In (sshfp (sshfp_alg (hk_type k)) dtype digest) rs -> en_digest en dtype k = Some d -> zlen d = zlen digest -> d = digest).

(** ** A connection *)
(** The same key; certificates also have the same bytes. *)
Definition identical (a b : hkey) : Prop :=
  hk_type a = hk_type b /\ hk_id a = hk_id b /\ forall x ca, hk_cert a = Some (x, ca) -> exists ca', hk_cert b = Some (x, ca').
(** Why a key is accepted in its own right: it is not in the file of revoked
    keys; and validated DNS records say so or there is a basis. *)
Definition own_reason (cf : hconf) (en : henv) (hostname : list Z) (k : hkey) (w w' : hworld) : Prop :=
  (hc_revoked cf = true -> en_revfile en k = 0) /\
  ((hc_dns cf = 1 /\ exists j, ((hk_cert k = None /\ j = k) \/ (hk_cert k <> None /\ en_plain en k = Some j)) /\ dns_says en j) \/
   basis cf en hostname (hc_port cf) k w w').
(** ** The file of revoked keys as a list of keys *)
(** A line with a key on it: blanks, then something that is not a comment. *)
Definition key_line (l : list Z) (rest : list Z) : Prop :=
  exists b, l = b ++ rest /\ Forall gap b /\ rest <> [] /\ ~ gap (hd 0 rest) /\ hd 0 rest <> 35 /\ hd 0 rest <> 10 /\ hd 0 rest <> 0.
