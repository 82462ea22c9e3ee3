(** monitor.c: the privileged monitor, before and after authentication.

    One event is one request of the unprivileged process: its type byte and the
    bytes of its body, both arbitrary, together with the answers of whatever the
    monitor consults (password database, authorized_keys, signature check, PAM,
    GSSAPI), which are arbitrary too.  Fatal errors end the monitor.  Not
    modelled: the contents of the replies, the log socket, failures of the
    system, SSH_OLD_SESSIONID (session id without its length in the signed
    data), the export of the key state after success. *)
From Coq Require Import String.
From Verif Require Import Base Text SshbufModel SshbufSpec Dec Auth2Model.

(** Requests with a handler, monitor.c:189-239 *)
Inductive rq :=
  | RState | RModuli | RSign | RPwnam | RAuthServ | RBanner | RPasswd
  | RPamStart | RPamAccount | RPamInit | RPamQuery | RPamRespond | RPamFree
  | RAudit | RBsdQuery | RBsdRespond | RKeyAllowed | RKeyVerify
  | RGssSetup | RGssStep | RGssUserok | RGssMic
  | RPty | RPtyCleanup | RTerm | RAuditCmd.
(** enum monitor_reqtype, monitor.h:33-66 *)
Definition rq_num (r : rq) : Z :=
  match r with
  | RModuli => 0 | RAuthServ => 4 | RSign => 6 | RPwnam => 8 | RBanner => 10 | RPasswd => 12
  | RBsdQuery => 14 | RBsdRespond => 16 | RKeyAllowed => 22 | RKeyVerify => 24
  | RPty => 28 | RPtyCleanup => 30 | RGssSetup => 42 | RGssStep => 44 | RGssUserok => 46 | RGssMic => 48
  | RTerm => 50 | RState => 51
  | RPamStart => 100 | RPamAccount => 102 | RPamInit => 104 | RPamQuery => 106 | RPamRespond => 108 | RPamFree => 110
  | RAudit => 112 | RAuditCmd => 113
  end.
Definition rq_eqb (a b : rq) : bool := rq_num a =? rq_num b.

(** Options and build, and the parts of the key code that are not modelled:
    [mc_parse] maps a key blob to the blob the parsed key is written as,
    [mc_same] is sshkey_equal_public, [mc_host] get_hostkey_index != -1. *)
Record mcfg := mkMcfg {
  mc_auth : cfg;
  mc_pam : bool; mc_bsd : bool; mc_audit : bool;   (* USE_PAM, BSD_AUTH, SSH_AUDIT_EVENTS *)
  mc_usepam : bool; mc_refuse : bool;              (* UsePAM, RefuseConnection *)
  mc_touch : bool; mc_verify : bool;               (* PubkeyAuthOptions *)
  mc_parse : list Z -> option (list Z);
  mc_same : list Z -> list Z -> bool;
  mc_host : list Z -> bool;
}.

(** struct mon_table, monitor.c:170-183: MON_ONCE, MON_ISAUTH, MON_AUTHDECIDE,
    MON_PERMIT.  No entry has MON_ALOG. *)
Record ent := mkEnt { en_rq : rq; en_once : bool; en_isauth : bool; en_decide : bool; en_permit : bool }.
(** monitor.c:189-223, with WITH_OPENSSL; cf_gss stands for GSSAPI *)
Definition preauth_table (c : mcfg) : list ent :=
  [mkEnt RState true false false false; mkEnt RModuli true false false false; mkEnt RSign true false false false;
   mkEnt RPwnam true false false false; mkEnt RAuthServ true false false false; mkEnt RBanner true false false false;
   mkEnt RPasswd false true true false] ++
  (if mc_pam c then
     [mkEnt RPamStart true false false false; mkEnt RPamAccount false false false false; mkEnt RPamInit true false false false;
      mkEnt RPamQuery false false false false; mkEnt RPamRespond true false false false; mkEnt RPamFree true false true false] else []) ++
  (if mc_audit c then [mkEnt RAudit false false false true] else []) ++
  (if mc_bsd c then [mkEnt RBsdQuery false true false false; mkEnt RBsdRespond false true true false] else []) ++
  [mkEnt RKeyAllowed false true false false; mkEnt RKeyVerify false true true false] ++
  (if cf_gss (mc_auth c) then
     [mkEnt RGssSetup false true false false; mkEnt RGssStep false false false false;
      mkEnt RGssUserok true false true false; mkEnt RGssMic true false false false] else []).
(** monitor.c:225-239 *)
Definition postauth_table (c : mcfg) : list ent :=
  [mkEnt RState true false false false; mkEnt RModuli false false false false; mkEnt RSign false false false false;
   mkEnt RPty false false false false; mkEnt RPtyCleanup false false false false; mkEnt RTerm false false false false] ++
  (if mc_audit c then [mkEnt RAudit false false false true; mkEnt RAuditCmd false false false true] else []).
Definition set_permit (e : ent) (b : bool) : ent := mkEnt (en_rq e) (en_once e) (en_isauth e) (en_decide e) b.
(** monitor_permit, monitor.c:243-255 *)
Fixpoint permit (t : list ent) (r : rq) (b : bool) : list ent :=
  match t with
  | [] => []
  | e :: t => if rq_eqb (en_rq e) r then set_permit e b :: t else e :: permit t r b
  end.
(** monitor_permit_authentications(1), monitor.c:257-269 *)
Definition permit_auth (t : list ent) : list ent :=
  map (fun e => if en_isauth e || en_decide e then set_permit e true else e) t.

(** Answers to what the monitor consults during one request *)
Record mans := mkMans {
  a_ok : bool;               (* the check asked for succeeds *)
  a_pw : option bool;        (* getpwnamallow: no such user, or whether it is root *)
  a_force : bool;            (* auth_opts->force_command != NULL *)
  a_nopres : bool; a_needverify : bool; (* options of the key: no-touch-required, verify-required *)
  a_sk : option (bool * bool);  (* sig_details: presence and verification flags of the signature *)
  a_acct : option bool;      (* the next request is PAM_ACCOUNT; result of do_pam_account *)
}.
Record mev := mkMev { e_type : Z; e_body : list Z; e_ans : mans }.

(** key_blob, key_blobtype, key_opts, hostbased_cuser, hostbased_chost,
    monitor.c:156-162 *)
Inductive ktype := KUser | KHost.
Record kst := mkKst { k_blob : list Z; k_type : ktype; k_nopres : bool; k_needverify : bool; k_cuser : list Z; k_chost : list Z }.
(** Static variables of monitor.c, the parts of Authctxt the monitor uses, and the
    dispatch table.  [m_pam]: no PAM context, or a context and whether sshpam_authok
    is set; [m_gss]: the name of the GSSAPI client is known (gss-serv.c
    gssapi_client); [m_used]: authctxt->prev_keys *)
Record mst := mkMst {
  m_tab : list ent; m_sid : list Z;
  m_attempt : Z; m_failures : Z; m_user : list Z; m_style : option (list Z); m_valid : bool; m_root : bool;
  m_lists : list (list Z); m_calls : Z;
  m_pam : option bool; m_bsd : bool; m_gss : bool;
  m_key : option kst; m_used : list (list Z);
}.
Definition set_tab s v := mkMst v (m_sid s) (m_attempt s) (m_failures s) (m_user s) (m_style s) (m_valid s) (m_root s) (m_lists s) (m_calls s) (m_pam s) (m_bsd s) (m_gss s) (m_key s) (m_used s).
Definition set_sid s v := mkMst (m_tab s) v (m_attempt s) (m_failures s) (m_user s) (m_style s) (m_valid s) (m_root s) (m_lists s) (m_calls s) (m_pam s) (m_bsd s) (m_gss s) (m_key s) (m_used s).
Definition set_mfail s v := mkMst (m_tab s) (m_sid s) (m_attempt s) v (m_user s) (m_style s) (m_valid s) (m_root s) (m_lists s) (m_calls s) (m_pam s) (m_bsd s) (m_gss s) (m_key s) (m_used s).
Definition set_style s v := mkMst (m_tab s) (m_sid s) (m_attempt s) (m_failures s) (m_user s) v (m_valid s) (m_root s) (m_lists s) (m_calls s) (m_pam s) (m_bsd s) (m_gss s) (m_key s) (m_used s).
Definition set_account s u valid root ls := mkMst (m_tab s) (m_sid s) (m_attempt s + 1) (m_failures s) u (m_style s) valid root ls (m_calls s) (m_pam s) (m_bsd s) (m_gss s) (m_key s) (m_used s).
Definition set_mlists s v := mkMst (m_tab s) (m_sid s) (m_attempt s) (m_failures s) (m_user s) (m_style s) (m_valid s) (m_root s) v (m_calls s) (m_pam s) (m_bsd s) (m_gss s) (m_key s) (m_used s).
Definition add_call s := mkMst (m_tab s) (m_sid s) (m_attempt s) (m_failures s) (m_user s) (m_style s) (m_valid s) (m_root s) (m_lists s) (m_calls s + 1) (m_pam s) (m_bsd s) (m_gss s) (m_key s) (m_used s).
Definition set_pam s v := mkMst (m_tab s) (m_sid s) (m_attempt s) (m_failures s) (m_user s) (m_style s) (m_valid s) (m_root s) (m_lists s) (m_calls s) v (m_bsd s) (m_gss s) (m_key s) (m_used s).
Definition set_bsd s v := mkMst (m_tab s) (m_sid s) (m_attempt s) (m_failures s) (m_user s) (m_style s) (m_valid s) (m_root s) (m_lists s) (m_calls s) (m_pam s) v (m_gss s) (m_key s) (m_used s).
Definition set_mgss s v := mkMst (m_tab s) (m_sid s) (m_attempt s) (m_failures s) (m_user s) (m_style s) (m_valid s) (m_root s) (m_lists s) (m_calls s) (m_pam s) (m_bsd s) v (m_key s) (m_used s).
Definition set_key s v := mkMst (m_tab s) (m_sid s) (m_attempt s) (m_failures s) (m_user s) (m_style s) (m_valid s) (m_root s) (m_lists s) (m_calls s) (m_pam s) (m_bsd s) (m_gss s) v (m_used s).
Definition set_used s v := mkMst (m_tab s) (m_sid s) (m_attempt s) (m_failures s) (m_user s) (m_style s) (m_valid s) (m_root s) (m_lists s) (m_calls s) (m_pam s) (m_bsd s) (m_gss s) (m_key s) v.
Definition allow s r b := set_tab s (permit (m_tab s) r b).

(** monitor_child_preauth, monitor.c:271-295 *)
Definition minit (c : mcfg) : mst :=
  mkMst (permit (permit (permit (preauth_table c) RState true) RModuli true) RSign true)
    [] 0 0 [] None false false [] 0 None false false None [].

(** What a handler does: end the process, or return whether its result is 1, and
    the values of auth_method and auth_submethod *)
Inductive hres := HFatal | HRet (s : mst) (one : bool) (meth : list Z) (sub : option (list Z)).
Definition unknown : list Z := bs "unknown".
(** Return 0 without touching auth_method *)
Definition quiet (s : mst) : hres := HRet s false unknown None.
Definition KBD : list Z := mname mKbd.

(** ** Host key signatures *)
(** The proof a host key signs, monitor.c:742-748 *)
Definition hostproof (sid blob : list Z) : list Z := enc_string (bs "hostkeys-prove-00@openssh.com") ++ enc_string sid ++ enc_string blob.
Definition hash_len (n : Z) : bool := (n =? 20) || (n =? 32) || (n =? 48) || (n =? 64).
(** Fields of MONITOR_REQ_SIGN, monitor.c:711-715: key and data (then algorithm and
    compatibility flags, which only reach the signature code) *)
Definition sign_fields (c : mcfg) (b : list Z) : option (list Z * list Z) :=
  match get_str b with
  | None => None
  | Some (kb, b) =>
  match mc_parse c kb with
  | None => None
  | Some blob =>
  match get_str b with
  | None => None
  | Some (data, b) =>
  match get_cstr b with
  | None => None
  | Some (_, b) => match get_int 4 b with None => None | Some _ => Some (blob, data) end
  end end end end.
(** mm_answer_sign, monitor.c:696-793; [a_ok]: a private key or agent is there and
    signs.  The public key of the index found is the key asked for. *)
Definition ans_sign (c : mcfg) (s : mst) (b : list Z) (a : mans) : hres :=
  match sign_fields c b with
  | None => HFatal
  | Some (blob, data) =>
      if negb (mc_host c blob) then HFatal
      else if negb (hash_len (zlen data)) && ((zlen (m_sid s) =? 0) || negb (beqb data (hostproof (m_sid s) blob))) then HFatal
      else
        let s := if zlen (m_sid s) =? 0 then set_sid s data else s in
        if negb (a_ok a) then HFatal else quiet (allow s RPwnam true)
  end.
(** mm_answer_moduli, monitor.c:656-693 *)
Definition ans_moduli (s : mst) (b : list Z) : hres :=
  match get_int 4 b with
  | None => HFatal
  | Some (mn, b) =>
  match get_int 4 b with
  | None => HFatal
  | Some (want, b) =>
  match get_int 4 b with
  | None => HFatal
  | Some (mx, _) => if (mx <? mn) || (want <? mn) || (mx <? want) then HFatal else quiet s
  end end end.

(** ** User, service, password *)
(** mm_answer_pwnamallow, monitor.c:829-923 *)
Definition ans_pwnam (c : mcfg) (s : mst) (b : list Z) (a : mans) : hres :=
  if negb (m_attempt s =? 0) then HFatal
  else match get_cstr b with
  | None => HFatal
  | Some (user, _) =>
      if mc_refuse c then HFatal
      else
        let ls := match setup_methods_lists (mc_auth c) true with Some ls => ls | None => [] end in
        let s := match a_pw a with
                 | Some root => set_account s user true root ls
                 | None => set_account s user false false ls
                 end in
        let s := allow (allow s RAuthServ true) RBanner true in
        quiet (if mc_pam c && mc_usepam c then allow s RPamStart true else s)
  end.
(** mm_answer_authserv, monitor.c:940-958 *)
Definition ans_authserv (s : mst) (b : list Z) : hres :=
  let s := set_tab s (permit_auth (m_tab s)) in
  match get_cstr b with
  | None => HFatal
  | Some (_, b) =>
  match get_cstr b with
  | None => HFatal
  | Some (style, _) => quiet (set_style s (if is_nil style then None else Some style))
  end end.
(** auth_password, auth-passwd.c:76-; MAX_PASSWORD_LEN is 1024.  [a_ok]: the
    password is right (and an empty password is one) *)
Definition auth_password (c : mcfg) (s : mst) (p : list Z) (a : mans) : bool :=
  if 1024 <? zlen p then false
  else if is_nil p && negb (cf_empty (mc_auth c)) then false
  else a_ok a && m_valid s && negb (m_root s && match cf_root (mc_auth c) with PermitYes => false | _ => true end).
(** mm_answer_authpassword, monitor.c:989-1026 *)
Definition ans_passwd (c : mcfg) (s : mst) (b : list Z) (a : mans) : hres :=
  if negb (cf_en (mc_auth c) mPasswd) then HFatal
  else match get_cstr b with
  | None => HFatal
  | Some (p, _) =>
      let s := add_call s in
      HRet s (auth_password c s p a) (if is_nil p && (m_calls s =? 1) then mname mNone else mname mPasswd) None
  end.

(** ** Keyboard-interactive *)
(** mm_answer_pam_start, monitor.c:1096-1109 *)
Definition ans_pam_start (c : mcfg) (s : mst) : hres :=
  if negb (mc_usepam c) then HFatal
  else let s := allow s RPamAccount true in
       quiet (if cf_en (mc_auth c) mKbd then allow s RPamInit true else s).
(** mm_answer_pam_account, monitor.c:1111-1129 *)
Definition ans_pam_account (c : mcfg) (s : mst) (a : mans) : hres :=
  if negb (mc_usepam c) then HFatal else HRet s (a_ok a) unknown None.
(** mm_answer_pam_init_ctx, monitor.c:1134-1157; [a_ok]: a context is made *)
Definition ans_pam_init (c : mcfg) (s : mst) (a : mans) : hres :=
  if negb (cf_en (mc_auth c) mKbd) then HFatal
  else match m_pam s with
  | Some _ => HFatal
  | None => if a_ok a then quiet (allow (allow (set_pam s (Some false)) RPamFree true) RPamQuery true) else quiet s
  end.
(** mm_answer_pam_query, monitor.c:1159-1198; [a_ok]: success with no prompts.  Not
    modelled: a query that fails (num > 1 or no name) is fatal *)
Definition ans_pam_query (s : mst) (a : mans) : hres :=
  match m_pam s with
  | None => HFatal
  | Some _ => HRet (allow (set_pam s (Some (a_ok a))) RPamRespond true) false KBD (Some (bs "pam"))
  end.
(** mm_answer_pam_respond, monitor.c:1200-1240; PAM_MAX_NUM_MSG is 32.  Not
    modelled: the responses themselves, unreadable ones being fatal *)
Definition ans_pam_respond (s : mst) (b : list Z) (a : mans) : hres :=
  match m_pam s with
  | None => HFatal
  | Some _ =>
      match get_int 4 b with
      | None => HFatal
      | Some (num, _) => if 32 <? num then HFatal else HRet (set_pam s (Some (a_ok a))) false KBD (Some (bs "pam"))
      end
  end.
(** mm_answer_pam_free_ctx, monitor.c:1242-1260 *)
Definition ans_pam_free (s : mst) : hres :=
  match m_pam s with
  | None => HFatal
  | Some ok => HRet (allow (set_pam s None) RPamInit true) ok KBD (Some (bs "pam"))
  end.
(** mm_answer_bsdauthquery, monitor.c:1028-1059; a query that succeeds makes the
    session authctxt->as (auth-bsdauth.c) *)
Definition ans_bsd_query (c : mcfg) (s : mst) (a : mans) : hres :=
  if negb (cf_en (mc_auth c) mKbd) then HFatal
  else quiet (if a_ok a then set_bsd s true else s).
(** mm_answer_bsdauthrespond, monitor.c:1061-1093 *)
Definition ans_bsd_respond (c : mcfg) (s : mst) (b : list Z) (a : mans) : hres :=
  if negb (cf_en (mc_auth c) mKbd) then HFatal
  else if negb (m_bsd s) then HFatal
  else match get_cstr b with
  | None => HFatal
  | Some _ => HRet (set_bsd s false) (a_ok a) KBD (Some (bs "bsdauth"))
  end.

(** ** Public keys *)
(** Fields of MONITOR_REQ_KEYALLOWED, monitor.c:1274-1279 *)
Definition keyallowed_fields (c : mcfg) (b : list Z) : option (Z * list Z * list Z * list Z) :=
  match get_int 4 b with
  | None => None
  | Some (ty, b) =>
  match get_cstr b with
  | None => None
  | Some (cuser, b) =>
  match get_cstr b with
  | None => None
  | Some (chost, b) =>
  match get_str b with
  | None => None
  | Some (kb, b) =>
  match mc_parse c kb with
  | None => None
  | Some blob => match get_int 4 b with None => None | Some _ => Some (ty, cuser, chost, blob) end
  end end end end end.
(** auth2_key_already_used, auth2.c:746-764 *)
Definition already_used (c : mcfg) (s : mst) (blob : list Z) : bool := existsb (mc_same c blob) (m_used s).
(** mm_answer_keyallowed, monitor.c:1263-1353; MM_HOSTKEY is 1, MM_USERKEY 2
    (monitor_wrap.h).  [a_ok]: the type of key is accepted and user_key_allowed or
    hostbased_key_allowed agrees *)
Definition MM_HOSTKEY : Z := 1.
Definition MM_USERKEY : Z := 2.
Definition ans_keyallowed (c : mcfg) (s : mst) (b : list Z) (a : mans) : hres :=
  match keyallowed_fields c b with
  | None => HFatal
  | Some (ty, cuser, chost, blob) =>
      let save k := Some (mkKst blob k (a_nopres a) (a_needverify a) cuser chost) in
      if negb (m_valid s) then HRet (set_key s None) false unknown None
      else if ty =? MM_USERKEY then
        HRet (set_key s (if cf_en (mc_auth c) mPubkey && negb (already_used c s blob) && a_ok a then save KUser else None))
          false (mname mPubkey) None
      else if ty =? MM_HOSTKEY then
        HRet (set_key s (if cf_en (mc_auth c) mHost && negb (already_used c s blob) && a_ok a then save KHost else None))
          false (mname mHost) None
      else HFatal
  end.
(** userstyle, monitor.c:1392-1394 *)
Definition userstyle (s : mst) : list Z := m_user s ++ match m_style s with Some y => COLON :: y | None => [] end.
Definition USERAUTH_REQUEST : Z := 50.
(** The start common to both kinds of signed data, monitor.c:1379-1404 and
    1449-1475: session id, type, user, service; then the method and the rest.
    The first result is fail == 0. *)
Definition signed_head (s : mst) (d : list Z) : option (bool * list Z * list Z) :=
  match get_str d with
  | None => None
  | Some (sid, d) =>
  match get_int 1 d with
  | None => None
  | Some (ty, d) =>
  match get_cstr d with
  | None => None
  | Some (u, d) =>
  match get_str d with
  | None => None
  | Some (_, d) =>
  match get_cstr d with
  | None => None
  | Some (m, d) => Some (negb (is_nil (m_sid s)) && beqb sid (m_sid s) && (ty =? USERAUTH_REQUEST) && beqb u (userstyle s), m, d)
  end end end end end.
(** monitor_valid_userblob, monitor.c:1355-1434; fatal and "return 0" are both
    [false] since the only caller is fatal then *)
Definition valid_userblob (c : mcfg) (s : mst) (d : list Z) : bool :=
  match signed_head s d with
  | None => false
  | Some (ok, m, d) =>
      let hostbound := beqb m (bs "publickey-hostbound-v00@openssh.com") in
      match get_int 1 d with
      | None => false
      | Some (have_sig, d) =>
      match get_str d with
      | None => false
      | Some (_, d) =>
      match get_str d with
      | None => false
      | Some (_, d) =>
          ok && (beqb m (bs "publickey") || hostbound) && negb (have_sig =? 0) &&
          (if hostbound then
             match get_str d with
             | None => false
             | Some (kb, d) => match mc_parse c kb with Some hk => is_nil d && mc_host c hk | None => false end
             end
           else is_nil d)
      end end end
  end.
(** One trailing dot is removed, monitor.c:1486-1487 *)
Definition strip_dot (h : list Z) : list Z := if last h 0 =? 46 then removelast h else h.
(** monitor_valid_hostbasedblob, monitor.c:1436-1503 *)
Definition valid_hostbasedblob (s : mst) (d : list Z) (cuser chost : list Z) : bool :=
  match signed_head s d with
  | None => false
  | Some (ok, m, d) =>
      match get_str d with
      | None => false
      | Some (_, d) =>
      match get_str d with
      | None => false
      | Some (_, d) =>
      match get_cstr d with
      | None => false
      | Some (h, d) =>
      match get_cstr d with
      | None => false
      | Some (u, d) => ok && beqb m (bs "hostbased") && beqb (strip_dot h) chost && beqb u cuser && is_nil d
      end end end end
  end.
(** Fields of MONITOR_REQ_KEYVERIFY, monitor.c:1516-1520: blob and data (and
    signature and algorithm, which only reach the signature check) *)
Definition keyverify_fields (b : list Z) : option (list Z * list Z * list Z) :=
  match get_str b with
  | None => None
  | Some (blob, b) =>
  match get_str b with
  | None => None
  | Some (sig, b) =>
  match get_str b with
  | None => None
  | Some (data, b) => match get_cstr b with None => None | Some _ => Some (blob, sig, data) end
  end end end.
(** The requirements on signatures by security keys, monitor.c:1566-1593 *)
Definition sk_ok (c : mcfg) (k : kst) (sk : option (bool * bool)) : bool :=
  match k_type k, sk with
  | KUser, Some (present, verified) =>
      negb ((mc_touch c || negb (k_nopres k)) && negb present) && negb ((mc_verify c || k_needverify k) && negb verified)
  | _, _ => true
  end.
(** mm_answer_keyverify, monitor.c:1505-1620; [a_ok]: sshkey_verify succeeds *)
Definition ans_keyverify (c : mcfg) (s : mst) (b : list Z) (a : mans) : hres :=
  match keyverify_fields b with
  | None => HFatal
  | Some (blob, _, data) =>
      match m_key s with
      | None => HFatal
      | Some k =>
          if negb (beqb (k_blob k) blob) then HFatal
          else match mc_parse c blob with
          | None => HFatal
          | Some kb =>
              if negb (match k_type k with KUser => valid_userblob c s data | KHost => valid_hostbasedblob s data (k_cuser k) (k_chost k) end)
              then HFatal
              else
                let ok := a_ok a && sk_ok c k (a_sk a) in
                let s := if ok then set_used s (kb :: m_used s) else s in
                HRet (set_key s None) ok (match k_type k with KUser => mname mPubkey | KHost => mname mHost end) None
          end
      end
  end.

(** ** GSSAPI *)
(** mm_answer_gss_setup_ctx, monitor.c:1942-1973 *)
Definition ans_gss_setup (c : mcfg) (s : mst) (b : list Z) : hres :=
  if negb (cf_en (mc_auth c) mGss) then HFatal
  else match get_str b with None => HFatal | Some _ => quiet (allow s RGssStep true) end.
(** mm_answer_gss_accept_ctx, monitor.c:1975-2007.  [a_ok]: GSS_S_COMPLETE;
    [a_force]: mutual and integrity flags, with which ssh_gssapi_accept_ctx
    (gss-serv.c:198-207) notes the client's name *)
Definition ans_gss_step (c : mcfg) (s : mst) (b : list Z) (a : mans) : hres :=
  if negb (cf_en (mc_auth c) mGss) then HFatal
  else match get_str b with
  | None => HFatal
  | Some _ =>
      if a_ok a then
        let s := if a_force a then set_mgss s true else s in
        quiet (allow (allow (allow s RGssStep false) RGssUserok true) RGssMic true)
      else quiet s
  end.
(** mm_answer_gss_checkmic, monitor.c:2009-2038 *)
Definition ans_gss_mic (c : mcfg) (s : mst) (b : list Z) (a : mans) : hres :=
  if negb (cf_en (mc_auth c) mGss) then HFatal
  else match get_str b with
  | None => HFatal
  | Some (_, b) => match get_str b with None => HFatal | Some _ => quiet (if a_ok a then allow s RGssUserok true else s) end
  end.
(** mm_answer_gss_userok, monitor.c:2040-2065, and ssh_gssapi_userok,
    gss-serv.c:359-384: a refusal forgets the client *)
Definition ans_gss_userok (c : mcfg) (s : mst) (a : mans) : hres :=
  if negb (cf_en (mc_auth c) mGss) then HFatal
  else
    let asked := m_valid s && m_gss s in
    HRet (if asked && negb (a_ok a) then set_mgss s false else s) (asked && a_ok a) (mname mGss) None.

(** ** Dispatch *)
(** [post]: mon_dispatch is the table for after authentication.  mm_answer_state
    (579-653) is then fatal, since authctxt->authenticated is set; mm_answer_term
    ends the process. *)
Definition handle (c : mcfg) (post : bool) (s : mst) (r : rq) (b : list Z) (a : mans) : hres :=
  match r with
  | RState => if post then HFatal else quiet s
  | RModuli => ans_moduli s b
  | RSign => ans_sign c s b a
  | RPwnam => ans_pwnam c s b a
  | RAuthServ => ans_authserv s b
  | RBanner => quiet s
  | RPasswd => ans_passwd c s b a
  | RPamStart => ans_pam_start c s
  | RPamAccount => ans_pam_account c s a
  | RPamInit => ans_pam_init c s a
  | RPamQuery => ans_pam_query s a
  | RPamRespond => ans_pam_respond s b a
  | RPamFree => ans_pam_free s
  | RAudit => if a_ok a then quiet s else HFatal
  | RBsdQuery => ans_bsd_query c s a
  | RBsdRespond => ans_bsd_respond c s b a
  | RKeyAllowed => ans_keyallowed c s b a
  | RKeyVerify => ans_keyverify c s b a
  | RGssSetup => ans_gss_setup c s b
  | RGssStep => ans_gss_step c s b a
  | RGssUserok => ans_gss_userok c s a
  | RGssMic => ans_gss_mic c s b a
  | RPty => quiet s
  | RPtyCleanup => match get_cstr b with None => HFatal | Some _ => quiet s end
  | RTerm => HFatal
  | RAuditCmd => match get_cstr b with None => HFatal | Some _ => quiet s end
  end.
(** monitor_read, monitor.c:516-550: the entry used and what the handler did, the
    table with a once-only entry disabled *)
Definition monitor_read (c : mcfg) (post : bool) (s : mst) (e : mev) : option (ent * mst * bool * list Z * option (list Z)) :=
  match find (fun en => rq_num (en_rq en) =? e_type e) (m_tab s) with
  | None => None
  | Some en =>
      if negb (en_permit en) then None
      else match handle c post s (en_rq en) (e_body e) (e_ans e) with
      | HFatal => None
      | HRet s one m sub => Some (en, if en_once en then allow s (en_rq en) false else s, one, m, sub)
      end
  end.

(** What is seen of a request that was answered: the handler's result, the method,
    and the verdict logged if the request decides authentication *)
Record ob := mkOb { o_rq : rq; o_one : bool; o_meth : list Z; o_sub : option (list Z); o_verdict : option verdict }.
(** The request was answered and the monitor goes on; it was answered and then the
    monitor ended; the monitor ended; it was answered and completes authentication *)
Inductive sres := SNext (s : mst) (o : ob) | SEnd (o : ob) | SFatal | SDone (s : mst) (o : ob).
(** auth_root_allowed, auth.c:350-372, with the method's name *)
Definition root_name_allowed (c : mcfg) (force : bool) (m : list Z) : bool :=
  match cf_root (mc_auth c) with
  | PermitYes => true
  | PermitNoPasswd => beqb m (bs "publickey") || beqb m (bs "hostbased") || beqb m (bs "gssapi-with-mic")
  | PermitForcedOnly => force
  | PermitNo => false
  end.
(** monitor.c:312-320: [None] is the fatal error of auth2_update_methods_lists;
    otherwise the state, authenticated, partial *)
Definition multi_step (c : mcfg) (s : mst) (one : bool) (m : list Z) (sub : option (list Z)) : option (mst * bool * bool) :=
  if negb one then Some (s, false, false)
  else if is_nil (eff_lists (mc_auth c)) then Some (s, true, false)
  else
    let '(ls, found, complete) := update_lists (m_lists s) m sub in
    if complete then Some (set_mlists s ls, true, false)
    else if negb found then None
    else Some (set_mlists s ls, false, true).
(** monitor.c:322-344: [None] is fatal *)
Definition final_check (c : mcfg) (s : mst) (en : ent) (m : list Z) (a : mans) : option bool :=
  if negb (en_decide en) then None
  else if m_root s && negb (root_name_allowed c (a_force a) m) then Some false
  else if mc_pam c && mc_usepam c then a_acct a
  else Some true.
(** One round of the loop of monitor_child_preauth, monitor.c:298-360, and the
    checks after it, 362-365 *)
Definition mstep (c : mcfg) (s : mst) (e : mev) : sres :=
  match monitor_read c false s e with
  | None => SFatal
  | Some (en, s, one, m, sub) =>
      let o v := mkOb (en_rq en) one m sub v in
      match multi_step c s one m sub with
      | None => SEnd (o None)
      | Some (s, auth, partial) =>
          match (if auth then final_check c s en m (e_ans e) else Some false) with
          | None => SEnd (o None)
          | Some auth =>
              let s := if en_decide en && negb partial && negb auth then set_mfail s (m_failures s + 1) else s in
              let o := o (if en_decide en then Some (if auth then Accepted else if partial then Partial else Failed) else None) in
              if cf_max (mc_auth c) <? m_failures s then SEnd o
              else if auth then (if negb (m_valid s) || beqb m unknown then SEnd o else SDone s o)
              else SNext s o
          end
      end
  end.
(** The end of a run: still going, ended, or the user is authenticated *)
Inductive fin := FGoing (s : mst) | FEnded | FAuth (s : mst).
Fixpoint mrun (c : mcfg) (s : mst) (es : list mev) : list (mev * ob) * fin :=
  match es with
  | [] => ([], FGoing s)
  | e :: es =>
      match mstep c s e with
      | SNext s o => let (tr, f) := mrun c s es in ((e, o) :: tr, f)
      | SEnd o => ([(e, o)], FEnded)
      | SFatal => ([], FEnded)
      | SDone s o => ([(e, o)], FAuth s)
      end
  end.
(** monitor_child_postauth, monitor.c:397-426; [pty] is auth_opts->permit_pty_flag *)
Definition post_init (c : mcfg) (pty : bool) (s : mst) : mst :=
  let t := permit (permit (permit (permit (postauth_table c) RState true) RModuli true) RSign true) RTerm true in
  set_tab s (if pty then permit (permit t RPty true) RPtyCleanup true else t).
Fixpoint post_run (c : mcfg) (s : mst) (es : list mev) : list (mev * rq) :=
  match es with
  | [] => []
  | e :: es => match monitor_read c true s e with
               | None => []
               | Some (en, s, _, _, _) => (e, en_rq en) :: post_run c s es
               end
  end.
