(** What C31, C32 and C56 say, in terms of the requests answered so far. *)
From Coq Require Import String.
From Verif Require Import Base Text SshbufSpec Auth2Model Auth2Spec MonitorModel.

(** A history: the requests answered, in order, with what was seen of the answer *)
Definition hist := list (mev * ob).
Definition rq_of (x : mev * ob) : rq := o_rq (snd x).
Definition ok (x : mev * ob) : bool := a_ok (e_ans (fst x)).

(** ** When a request is open *)
(** Requests that may be answered once each time they are opened *)
Definition once (r : rq) : bool :=
  match r with
  | RState | RModuli | RSign | RPwnam | RAuthServ | RBanner | RPamStart | RPamInit | RPamRespond | RPamFree | RGssUserok | RGssMic => true
  | _ => false
  end.
(** Requests that can complete an authentication method *)
Definition decides (r : rq) : bool :=
  match r with RPasswd | RPamFree | RBsdRespond | RKeyVerify | RGssUserok => true | _ => false end.
(** Compiled in *)
Definition built (c : mcfg) (r : rq) : Prop :=
  match r with
  | RPamStart | RPamAccount | RPamInit | RPamQuery | RPamRespond | RPamFree => mc_pam c = true
  | RAudit => mc_audit c = true
  | RBsdQuery | RBsdRespond => mc_bsd c = true
  | RGssSetup | RGssStep | RGssUserok | RGssMic => cf_gss (mc_auth c) = true
  | RPty | RPtyCleanup | RTerm | RAuditCmd => False
  | _ => True
  end.
Definition open_at_start (r : rq) : Prop := r = RState \/ r = RModuli \/ r = RSign \/ r = RAudit.
(** Answering [x] opens [r] *)
Definition opens (c : mcfg) (x : mev * ob) (r : rq) : Prop :=
  match rq_of x with
  | RSign => r = RPwnam
  | RPwnam => r = RAuthServ \/ r = RBanner \/ (r = RPamStart /\ mc_usepam c = true)
  | RAuthServ => decides r = true \/ r = RBsdQuery \/ r = RKeyAllowed \/ r = RGssSetup
  | RPamStart => r = RPamAccount \/ (r = RPamInit /\ cf_en (mc_auth c) mKbd = true)
  | RPamInit => ok x = true /\ (r = RPamQuery \/ r = RPamFree)
  | RPamQuery => r = RPamRespond
  | RPamFree => r = RPamInit
  | RGssSetup => r = RGssStep
  | RGssStep => ok x = true /\ (r = RGssUserok \/ r = RGssMic)
  | RGssMic => ok x = true /\ r = RGssUserok
  | _ => False
  end.
(** Answering [x] closes [r] *)
Definition closes (x : mev * ob) (r : rq) : Prop :=
  rq_of x = r /\ (once r = true \/ (r = RGssStep /\ ok x = true)).
(** [r] is open after the history [h]: it was opened, and not closed since. *)
Definition is_open (c : mcfg) (h : hist) (r : rq) : Prop :=
  exists before after, h = before ++ after /\
    ((before = [] /\ open_at_start r) \/ exists b x, before = b ++ [x] /\ opens c x r) /\
    Forall (fun x => ~ closes x r) after.

(** ** The messages *)
(** A C string on the wire may carry its NUL *)
Definition cstring (w v : list Z) : Prop := ~ In 0 v /\ (w = enc_string v \/ w = enc_string (v ++ [0])).
Definition sign_body (c : mcfg) (b blob data : list Z) : Prop :=
  exists kb rest, b = enc_string kb ++ enc_string data ++ rest /\ mc_parse c kb = Some blob.
Definition pwnam_body (b user : list Z) : Prop := exists w rest, b = w ++ rest /\ cstring w user.
Definition authserv_body (b style : list Z) : Prop :=
  exists w1 service w2 rest, b = w1 ++ w2 ++ rest /\ cstring w1 service /\ cstring w2 style.
Definition passwd_body (b p : list Z) : Prop := exists w rest, b = w ++ rest /\ cstring w p.
Definition knum (k : ktype) : Z := match k with KHost => 1 | KUser => 2 end.
Definition keyallowed_body (c : mcfg) (b : list Z) (k : ktype) (cuser chost blob : list Z) : Prop :=
  exists w1 w2 kb rest, b = be_enc 4 (knum k) ++ w1 ++ w2 ++ enc_string kb ++ rest /\
    cstring w1 cuser /\ cstring w2 chost /\ mc_parse c kb = Some blob.
Definition keyverify_body (b blob sig data : list Z) : Prop :=
  exists rest, b = enc_string blob ++ enc_string sig ++ enc_string data ++ rest.
(** Signed data, RFC 4252 sections 7 and 9 (and PROTOCOL, "publickey-hostbound") *)
Definition user_signed (c : mcfg) (sid user data : list Z) : Prop :=
  exists wu service wm m have alg kb tail,
    data = enc_string sid ++ [50] ++ wu ++ enc_string service ++ wm ++ [have] ++ enc_string alg ++ enc_string kb ++ tail /\
    cstring wu user /\ cstring wm m /\ have <> 0 /\
    ((m = bs "publickey" /\ tail = []) \/
     (m = bs "publickey-hostbound-v00@openssh.com" /\ exists hk hb, tail = enc_string hk /\ mc_parse c hk = Some hb /\ mc_host c hb = true)).
Definition host_signed (sid user cuser chost data : list Z) : Prop :=
  exists wu service wm alg kb wh h wc,
    data = enc_string sid ++ [50] ++ wu ++ enc_string service ++ wm ++ enc_string alg ++ enc_string kb ++ wh ++ wc /\
    cstring wu user /\ cstring wm (bs "hostbased") /\ cstring wh h /\ (h = chost \/ h = chost ++ bs ".") /\ cstring wc cuser.

(** ** Facts about the connection, read off the history *)
Definition last_of (p : mev * ob -> bool) (h : hist) : option (mev * ob) := find p (rev h).
Definition is_rq (r : rq) (x : mev * ob) : bool := rq_eqb (rq_of x) r.
(** The session id is the data of the first (and only) signature asked for *)
Definition session_id (c : mcfg) (h : hist) (sid : list Z) : Prop :=
  exists x blob, last_of (is_rq RSign) h = Some x /\ sign_body c (e_body (fst x)) blob sid.
(** The account: name, and whether it exists and is root *)
Definition account (h : hist) (user : list Z) (pw : option bool) : Prop :=
  exists x, last_of (is_rq RPwnam) h = Some x /\ pwnam_body (e_body (fst x)) user /\ a_pw (e_ans (fst x)) = pw.
(** The user name with the style *)
Definition styled (h : hist) (user name : list Z) : Prop :=
  match last_of (is_rq RAuthServ) h with
  | None => name = user
  | Some x => exists style, authserv_body (e_body (fst x)) style /\ name = user ++ (if is_nil style then [] else bs ":" ++ style)
  end.

(** ** Passed checks *)
Definition pamish (x : mev * ob) : bool := is_rq RPamInit x || is_rq RPamQuery x || is_rq RPamRespond x || is_rq RPamFree x.
Definition bsdish (x : mev * ob) : bool := is_rq RBsdRespond x || (is_rq RBsdQuery x && ok x).
Definition keyish (x : mev * ob) : bool := is_rq RKeyAllowed x || is_rq RKeyVerify x.
(** After [h], the key [blob] of kind [k] is approved: the last request about keys was
    for it and was granted *)
Definition approved (c : mcfg) (h : hist) (k : ktype) (cuser chost blob : list Z) (a : mans) : Prop :=
  exists e o, last_of keyish h = Some (e, o) /\ o_rq o = RKeyAllowed /\ keyallowed_body c (e_body e) k cuser chost blob /\
    a = e_ans e /\ a_ok a = true /\ cf_en (mc_auth c) (match k with KUser => mPubkey | KHost => mHost end) = true.
(** A signature by a security key must have the flags asked for by the server or
    the key's options *)
Definition sk_flags_ok (c : mcfg) (k : ktype) (key : mans) (sk : option (bool * bool)) : Prop :=
  forall present verified, k = KUser -> sk = Some (present, verified) ->
    (mc_touch c = true \/ a_nopres key = false -> present = true) /\ (mc_verify c = true \/ a_needverify key = true -> verified = true).
(** The check that request [x] reports as passed was passed *)
Definition passed (c : mcfg) (h : hist) (x : mev * ob) : Prop :=
  let e := fst x in
  let done m sub := o_meth (snd x) = m /\ o_sub (snd x) = sub in
  match rq_of x with
  | RPasswd =>
      exists p user root, passwd_body (e_body e) p /\ account h user (Some root) /\ ok x = true /\ cf_en (mc_auth c) mPasswd = true /\
        (root = true -> cf_root (mc_auth c) = PermitYes) /\
        (done (bs "password") None \/ (p = [] /\ done (bs "none") None)) /\ (p = [] -> cf_empty (mc_auth c) = true)
  | RPamFree =>
      done (bs "keyboard-interactive") (Some (bs "pam")) /\
      exists y, last_of pamish h = Some y /\ (rq_of y = RPamQuery \/ rq_of y = RPamRespond) /\ ok y = true
  | RBsdRespond =>
      done (bs "keyboard-interactive") (Some (bs "bsdauth")) /\ ok x = true /\
      exists y, last_of bsdish h = Some y /\ rq_of y = RBsdQuery
  | RKeyVerify =>
      ok x = true /\ exists k cuser chost blob key, approved c h k cuser chost blob key /\
        done (match k with KUser => bs "publickey" | KHost => bs "hostbased" end) None /\
        sk_flags_ok c k key (a_sk (e_ans e))
  | RGssUserok =>
      done (bs "gssapi-with-mic") None /\ ok x = true /\ cf_en (mc_auth c) mGss = true /\
      exists y, In y h /\ rq_of y = RGssStep /\ ok y = true /\ a_force (e_ans (fst y)) = true
  | _ => False
  end.
(** The methods whose check was passed *)
Definition methods_done (h : hist) : list item :=
  flat_map (fun x => if decides (rq_of x) && o_one (snd x) then [(o_meth (snd x), o_sub (snd x))] else []) h.
(** PermitRootLogin *)
Definition mroot_ok (c : mcfg) (force : bool) (m : list Z) : Prop :=
  match cf_root (mc_auth c) with
  | PermitYes => True
  | PermitNoPasswd => m = bs "publickey" \/ m = bs "hostbased" \/ m = bs "gssapi-with-mic"
  | PermitForcedOnly => force = true
  | PermitNo => False
  end.
Definition is_failed (x : mev * ob) : bool := match o_verdict (snd x) with Some Failed => true | _ => false end.
