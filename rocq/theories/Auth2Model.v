(** auth2.c, auth2-methods.c, auth2-chall.c, auth2-gss.c, auth2-none.c, auth.c:
    the server's user-authentication state machine.

    One event is one message of the client together with the answers of the
    checks it causes (password database, signature check, PAM, GSSAPI), which are
    arbitrary.  C strings are byte lists without their NUL.  Not modelled: the
    banner, delays, the PAM account check after success (it can only end the
    connection), session information passed on to the shell, malformed packets
    (fatal). *)
From Coq Require Import String.
From Verif Require Import Base Text.

(** authmethods[], auth2.c:78-89 *)
Inductive mth := mNone | mPubkey | mGss | mPasswd | mKbd | mHost.
(** auth2-methods.c:42-73, field name *)
Definition mname (m : mth) : list Z :=
  match m with
  | mNone => bs "none" | mPubkey => bs "publickey" | mGss => bs "gssapi-with-mic"
  | mPasswd => bs "password" | mKbd => bs "keyboard-interactive" | mHost => bs "hostbased"
  end.
(** auth2-methods.c:42-73, field synonym *)
Definition msyn (m : mth) : option (list Z) :=
  match m with mPubkey => Some (bs "publickey-hostbound-v00@openssh.com") | _ => None end.

(** PermitRootLogin, servconf.h: PERMIT_NO .. PERMIT_YES *)
Inductive rootpol := PermitNo | PermitForcedOnly | PermitNoPasswd | PermitYes.

(** The options of sshd that matter here, and the keyboard-interactive devices. *)
Record cfg := mkCfg {
  cf_max : Z;                     (* MaxAuthTries *)
  cf_lists : list (list Z);       (* AuthenticationMethods *)
  cf_en : mth -> bool;            (* PubkeyAuthentication etc.; not used for none *)
  cf_gss : bool;                  (* compiled with GSSAPI *)
  cf_empty : bool;                (* PermitEmptyPasswords *)
  cf_root : rootpol;
  cf_devs : list (list Z);        (* names in devices[], auth2-chall.c:64-73 *)
}.
(** authmethods[] / authmethod_cfgs[] *)
Definition table (c : cfg) : list mth :=
  [mNone; mPubkey] ++ (if cf_gss c then [mGss] else []) ++ [mPasswd; mKbd; mHost].

(** KbdintAuthctxt, auth2-chall.c:76-83.  [k_toks] is the rest of the device list
    of the client, split at commas; [k_done] is the bitmap devices_done. *)
Record kbd := mkKbd { k_toks : list (list Z); k_done : list nat; k_dev : list Z }.
(** Handlers set in the dispatch table by auth2-gss.c *)
Record gss := mkGss { g_tok : bool; g_err : bool; g_mic : bool; g_compl : bool }.
(** Authctxt, auth.h:53-89, and the dispatch table *)
Record st := mkSt {
  s_attempt : Z; s_failures : Z;
  s_user : list Z; s_service : list Z; s_valid : bool; s_root : bool;
  s_none : bool;                  (* none_enabled *)
  s_lists : list (list Z);        (* authctxt->auth_methods *)
  s_srv : bool;                   (* server_caused_failure *)
  s_kbd : option kbd; s_gss : gss;
  s_success : bool;
}.
Definition init : st := mkSt 0 0 [] [] false false true [] false None (mkGss false false false false) false.

Definition set_lists s l := mkSt (s_attempt s) (s_failures s) (s_user s) (s_service s) (s_valid s) (s_root s) (s_none s) l (s_srv s) (s_kbd s) (s_gss s) (s_success s).
Definition set_none s b := mkSt (s_attempt s) (s_failures s) (s_user s) (s_service s) (s_valid s) (s_root s) b (s_lists s) (s_srv s) (s_kbd s) (s_gss s) (s_success s).
Definition set_srv s b := mkSt (s_attempt s) (s_failures s) (s_user s) (s_service s) (s_valid s) (s_root s) (s_none s) (s_lists s) b (s_kbd s) (s_gss s) (s_success s).
Definition set_kbd s k := mkSt (s_attempt s) (s_failures s) (s_user s) (s_service s) (s_valid s) (s_root s) (s_none s) (s_lists s) (s_srv s) k (s_gss s) (s_success s).
Definition set_gss s g := mkSt (s_attempt s) (s_failures s) (s_user s) (s_service s) (s_valid s) (s_root s) (s_none s) (s_lists s) (s_srv s) (s_kbd s) g (s_success s).
Definition set_success s := mkSt (s_attempt s) (s_failures s) (s_user s) (s_service s) (s_valid s) (s_root s) (s_none s) (s_lists s) (s_srv s) (s_kbd s) (s_gss s) true.
Definition add_failure s := mkSt (s_attempt s) (s_failures s + 1) (s_user s) (s_service s) (s_valid s) (s_root s) (s_none s) (s_lists s) (s_srv s) (s_kbd s) (s_gss s) (s_success s).
Definition add_attempt s := mkSt (s_attempt s + 1) (s_failures s) (s_user s) (s_service s) (s_valid s) (s_root s) (s_none s) (s_lists s) (s_srv s) (s_kbd s) (s_gss s) (s_success s).
Definition set_user s u v valid root := mkSt (s_attempt s) (s_failures s) u v valid root (s_none s) (s_lists s) (s_srv s) (s_kbd s) (s_gss s) (s_success s).

(** ** Method lists *)
(** strncmp(l, p, strlen(p)) == 0, giving what follows *)
Fixpoint strip (p l : list Z) : option (list Z) :=
  match p, l with
  | [], _ => Some l
  | a :: p, b :: l => if a =? b then strip p l else None
  | _ :: _, [] => None
  end.
Definition COLON : Z := 58.
(** the part of a string before the first ':' (strchr) *)
Fixpoint before_colon (l : list Z) : list Z :=
  match l with [] => [] | a :: l => if a =? COLON then [] else a :: before_colon l end.

(** auth2.c:115-118 *)
Inductive lmatch := MatchNone | MatchMethod | MatchBoth | MatchPartial.
(** auth2.c:602-627 *)
Definition list_starts_with (methods method : list Z) (submethod : option (list Z)) : lmatch :=
  match strip method methods with
  | None => MatchNone
  | Some [] => MatchMethod
  | Some (x :: p) =>
      if x =? COLON then
        match submethod with
        | None => MatchPartial
        | Some sub =>
            match strip sub p with
            | None => MatchNone
            | Some [] => MatchBoth
            | Some (y :: _) => if y =? COMMA then MatchBoth else MatchNone
            end
        end
      else if x =? COMMA then MatchMethod else MatchNone
  end.
(** auth2.c:647-648 *)
Definition drop_comma (p : list Z) : list Z := match p with x :: p' => if x =? COMMA then p' else p | [] => [] end.
(** auth2.c:634-652; [None] for 0, otherwise the new list *)
Definition remove_method (methods method : list Z) (submethod : option (list Z)) : option (list Z) :=
  match list_starts_with methods method submethod with
  | MatchMethod => Some (drop_comma (zdrop (zlen method) methods))
  | MatchBoth =>
      let p := zdrop (zlen method) methods in
      Some (drop_comma (match submethod with Some sub => zdrop (1 + zlen sub) p | None => p end))
  | _ => None
  end.
(** The loop of auth2_update_methods_lists, auth2.c:667-678: new lists, found,
    and whether a list became empty (return 1, the rest untouched) *)
Fixpoint update_lists (ls : list (list Z)) (m : list Z) (sm : option (list Z)) : list (list Z) * bool * bool :=
  match ls with
  | [] => ([], false, false)
  | l :: r =>
      match remove_method l m sm with
      | None => let '(r', f, d) := update_lists r m sm in (l :: r', f, d)
      | Some l' =>
          if is_nil l' then (l' :: r, true, true)
          else let '(r', f, d) := update_lists r m sm in (l' :: r', true, d)
      end
  end.

(** cfg->enabled; none_enabled for "none" (auth2-methods.c:40-46) *)
Definition enabled (c : cfg) (none : bool) (m : mth) : bool := match m with mNone => none | _ => cf_en c m end.
(** auth2-methods.c:93-138; [none] is none_enabled, [true] before the first request *)
Definition methods_valid (c : cfg) (need_enable none : bool) (l : list Z) : bool :=
  negb (is_nil l) &&
  forallb (fun f =>
    match find (fun m => beqb (before_colon f) (mname m)) (table c) with
    | Some m => if need_enable then enabled c none m else true
    | None => false
    end) (split COMMA l).
(** auth2.c:568-574: the lists after normalising "any" away *)
Definition eff_lists (c : cfg) : list (list Z) :=
  match cf_lists c with [l] => if beqb l (bs "any") then [] else [l] | ls => ls end.
(** auth2.c:563-600; [None] for -1 *)
Definition setup_methods_lists (c : cfg) (none : bool) : option (list (list Z)) :=
  if is_nil (eff_lists c) then Some []
  else let ls := filter (methods_valid c true none) (eff_lists c) in
       if is_nil ls then None else Some ls.
(** auth2.c:471-489 *)
Definition method_allowed (c : cfg) (s : st) (m : list Z) (sm : option (list Z)) : bool :=
  is_nil (eff_lists c) ||
  existsb (fun l => match list_starts_with l m sm with MatchNone => false | _ => true end) (s_lists s).
(** auth2.c:491-517 (the comma-separated list as a list of names) *)
Definition methods_get (c : cfg) (s : st) : list (list Z) :=
  map mname (filter (fun m => match m with mNone => false | _ => cf_en c m && method_allowed c s (mname m) None end) (table c)).
(** auth2.c:519-534 *)
Definition byname (c : cfg) (n : list Z) : option mth :=
  find (fun m => beqb n (mname m) || match msyn m with Some y => beqb n y | None => false end) (table c).
(** auth2.c:536-554 *)
Definition lookup (c : cfg) (s : st) (n : list Z) : option mth :=
  match byname c n with
  | Some m => if enabled c (s_none s) m && method_allowed c s (mname m) None then Some m else None
  | None => None
  end.
(** auth.c:350-372; [force] is auth_opts->force_command != NULL *)
Definition root_allowed (c : cfg) (force : bool) (m : mth) : bool :=
  match cf_root c with
  | PermitYes => true
  | PermitNoPasswd => match m with mPubkey | mHost | mGss => true | _ => false end
  | PermitForcedOnly => force
  | PermitNo => false
  end.

(** ** Outcome of a message *)
(** The verdict handed to auth_log, auth.c:264-302 *)
Inductive verdict := Accepted | Partial | Failed | Postponed.
Inductive out :=
  | OVerdict (v : verdict) (m : list Z) (sub : option (list Z))
  | OSuccess                                        (* SSH2_MSG_USERAUTH_SUCCESS *)
  | OFailure (methods : list (list Z)) (partial : bool)  (* SSH2_MSG_USERAUTH_FAILURE *)
  | OInfoReq.                                       (* SSH2_MSG_USERAUTH_INFO_REQUEST *)
(** [Dead]: the connection is ended (ssh_packet_disconnect or fatal) *)
Inductive res := Alive (s : st) (o : list out) | Dead (o : list out).

(** auth2.c:442-463: the failure branch *)
Definition finish_fail (c : cfg) (s : st) (partial : bool) (pm : list Z) (o : list out) : res :=
  let s := if negb partial && negb (s_srv s) && ((1 <? s_attempt s) || negb (beqb pm (bs "none")))
           then add_failure s else s in
  if cf_max c <=? s_failures s then Dead o
  else Alive s (o ++ [OFailure (methods_get c s) partial]).
(** auth2.c:360-464; [pm] is the method name of the packet *)
Definition finish (c : cfg) (s : st) (auth postponed force : bool) (pm : list Z) (sub : option (list Z)) : res :=
  if auth then
    if negb (s_valid s) then Dead []
    else if postponed then Dead []
    else match byname c pm with
    | None => Dead []
    | Some m =>
        if s_root s && negb (root_allowed c force m) then finish_fail c s false (mname m) [OVerdict Failed (mname m) sub]
        else if is_nil (eff_lists c) then Alive (set_success s) [OVerdict Accepted (mname m) sub; OSuccess]
        else
          let '(ls, found, complete) := update_lists (s_lists s) (mname m) sub in
          if complete then Alive (set_success (set_lists s ls)) [OVerdict Accepted (mname m) sub; OSuccess]
          else if negb found then Dead []
          else finish_fail c (set_lists s ls) true (mname m) [OVerdict Partial (mname m) sub]
    end
  else if postponed then Alive s [OVerdict Postponed pm sub]
  else finish_fail c s false pm [OVerdict Failed pm sub].

(** ** Keyboard-interactive, auth2-chall.c *)
(** The inner loop of kbdint_next_device, 164-174: every device not yet used and
    allowed whose name starts with [tok] is marked; the last one is taken *)
Fixpoint scan_devs (allow : list Z -> bool) (tok : list Z) (devs : list (list Z)) (i : nat) (done : list nat) (cur : option (list Z)) :
  list nat * option (list Z) :=
  match devs with
  | [] => (done, cur)
  | d :: devs =>
      if existsb (Nat.eqb i) done || negb (allow d) then scan_devs allow tok devs (S i) done cur
      else match strip tok d with
           | Some _ => scan_devs allow tok devs (S i) (i :: done) (Some d)
           | None => scan_devs allow tok devs (S i) done cur
           end
  end.
(** kbdint_next_device, auth2-chall.c:151-183; an empty name ends the search *)
Fixpoint next_device (allow : list Z -> bool) (devs : list (list Z)) (toks : list (list Z)) (done : list nat) : option kbd :=
  match toks with
  | [] => None
  | tok :: toks =>
      if is_nil tok then None
      else let '(done, cur) := scan_devs allow tok devs 0 done None in
           match cur with
           | Some d => Some (mkKbd toks done d)
           | None => next_device allow devs toks done
           end
  end.
(** auth2_challenge_start, 221-250: [ok] says whether init_ctx and the first query
    succeed.  [Some] means postponed. *)
Definition challenge_start (c : cfg) (s : st) (toks : list (list Z)) (done : list nat) (ok : bool) : option kbd :=
  match next_device (fun d => method_allowed c s (bs "keyboard-interactive") (Some d)) (cf_devs c) toks done with
  | Some k => if ok then Some k else None
  | None => None
  end.
(** kbdint_alloc, 100-134: the empty list of the client stands for all devices *)
Definition kbd_toks (c : cfg) (devs : list Z) : list (list Z) :=
  if is_nil devs then split COMMA (join COMMA (cf_devs c)) else split COMMA devs.

(** ** Messages *)
(** What the checks of a request answer: [r_auth] the check succeeds, [r_post] a
    key is acceptable but unsigned (PK_OK), or a GSSAPI exchange begins; [r_srv]
    the GSSAPI failure is of the server's making; [r_devs] [r_ok] the device list
    and whether the device can be queried; [r_force] a forced command is set. *)
Record answer := mkAns { r_auth : bool; r_post : bool; r_srv : bool; r_devs : list Z; r_ok : bool; r_force : bool }.
Inductive respond := RespOk | RespMore | RespFail.
Inductive gsstok := GTokError | GTokContinue | GTokComplete (integ : bool).
Inductive ev :=
  (* USERAUTH_REQUEST; [pw] is the password entry, if any, as "is uid 0" *)
  | EReq (user service method : list Z) (pw : option bool) (a : answer)
  (* USERAUTH_INFO_RESPONSE: answer of the device, whether it can be queried
     again, whether the next device can be queried, forced command *)
  | EInfo (r : respond) (again next force : bool)
  | EGssTok (t : gsstok) (force : bool) | EGssErr
  | EGssMic (ok force : bool) | EGssCompl (ok force : bool).

(** The method handlers: new state, authenticated, postponed.
    auth2-none.c:55-66 (the empty password is tried if PermitEmptyPasswords and
    PasswordAuthentication); auth2-pubkey.c:86-323 and auth2-gss.c:63-142 as far as
    their results go; auth2-kbdint.c:48-70 and auth2_challenge, auth2-chall.c:191-206;
    auth2-passwd.c:50-74; auth2-hostbased.c:55-157 *)
Definition userauth (c : cfg) (s : st) (m : mth) (a : answer) : st * bool * bool :=
  match m with
  | mNone => (set_none s false, cf_empty c && cf_en c mPasswd && r_auth a, false)
  | mPubkey => if r_post a then (s, false, true) else (s, r_auth a, false)
  | mPasswd | mHost => (s, r_auth a, false)
  | mGss =>
      if r_srv a then (set_srv s true, false, false)
      else if negb (s_valid s) || negb (r_post a) then (s, false, false)
      else (set_gss s (mkGss true true (g_mic (s_gss s)) (g_compl (s_gss s))), false, true)
  | mKbd =>
      match (if cf_en c mKbd then challenge_start c s (kbd_toks c (r_devs a)) [] (r_ok a) else None) with
      | Some k => (set_kbd s (Some k), false, true)
      | None => (s, false, false)
      end
  end.

(** auth2.c:268-358 from line 329 on *)
Definition do_request (c : cfg) (s : st) (method : list Z) (a : answer) : res :=
  let s := set_kbd s None in                                              (* 330 *)
  let s := set_gss s (mkGss false (g_err (s_gss s)) (g_mic (s_gss s)) false) in  (* 334-335 *)
  let s := set_srv s false in                                             (* 339-340 *)
  let '(s, auth, post) :=
    match lookup c s method with
    | Some m => if s_failures s <? cf_max c then userauth c s m a else (s, false, false)
    | None => (s, false, false)
    end in
  match finish c s auth post (r_force a) method None with
  | Alive s o => Alive s ((if (match s_kbd s with Some _ => true | None => false end) then [OInfoReq] else []) ++ o)
  | Dead o => Dead o
  end.
(** auth2.c:268-358 *)
Definition request (c : cfg) (s : st) (user service method : list Z) (pw : option bool) (a : answer) : res :=
  let u := before_colon user in                                           (* 287-288 *)
  if 1024 <=? s_attempt s then Dead []
  else
    let first := s_attempt s =? 0 in
    let s := add_attempt s in
    if first then
      let valid := match pw with Some _ => beqb service (bs "ssh-connection") | None => false end in
      let root := valid && match pw with Some b => b | None => false end in
      match setup_methods_lists c (s_none s) with
      | None => Dead []
      | Some ls => do_request c (set_lists (set_user s u service valid root) ls) method a
      end
    else if negb (beqb u (s_user s)) || negb (beqb service (s_service s)) then Dead []
    else do_request c s method a.

(** input_userauth_info_response, auth2-chall.c:291-360; without a context the
    handler is not set and the message is answered with UNIMPLEMENTED *)
Definition info_response (c : cfg) (s : st) (r : respond) (again next force : bool) : res :=
  match s_kbd s with
  | None => Alive s []
  | Some k =>
      let auth := match r with RespOk => s_valid s | _ => false end in
      let more := match r with RespMore => again | _ => false end in
      let k' := if more then Some k
                else if auth then None
                else challenge_start c s (k_toks k) (k_done k) next in
      let post := match k' with Some _ => true | None => false end in
      match finish c (set_kbd s k') auth post force (bs "keyboard-interactive") (Some (k_dev k)) with
      | Alive s o => Alive s ((if post then [OInfoReq] else []) ++ o)
      | Dead o => Dead o
      end
  end.
Definition GSSNAME : list Z := bs "gssapi-with-mic".
(** input_gssapi_token, auth2-gss.c:145-210 *)
Definition gss_token (c : cfg) (s : st) (t : gsstok) (force : bool) : res :=
  let g := s_gss s in
  if g_tok g then
    match t with
    | GTokError => finish c (set_gss s (mkGss false (g_err g) (g_mic g) (g_compl g))) false false force GSSNAME None
    | GTokContinue => Alive s []
    | GTokComplete integ => Alive (set_gss s (mkGss false (g_err g) (integ || g_mic g) (negb integ || g_compl g))) []
    end
  else Alive s [].
(** input_gssapi_errtok, auth2-gss.c:212-246 *)
Definition gss_errtok (s : st) : res :=
  let g := s_gss s in
  if g_err g then Alive (set_gss s (mkGss false false (g_mic g) (g_compl g))) [] else Alive s [].
(** input_gssapi_exchange_complete, auth2-gss.c:254-279, and input_gssapi_mic, 281-325 *)
Definition gss_finish (c : cfg) (s : st) (set ok force : bool) : res :=
  if set then finish c (set_gss s (mkGss false false false false)) ok false force GSSNAME None
  else Alive s [].

(** The dispatch loop of do_authentication2, auth2.c:166-184: it ends with success *)
Definition step (c : cfg) (s : st) (e : ev) : res :=
  if s_success s then Alive s []
  else match e with
  | EReq u v m pw a => request c s u v m pw a
  | EInfo r again next force => info_response c s r again next force
  | EGssTok t force => gss_token c s t force
  | EGssErr => gss_errtok s
  | EGssMic ok force => gss_finish c s (g_mic (s_gss s)) ok force
  | EGssCompl ok force => gss_finish c s (g_compl (s_gss s)) ok force
  end.
(** A connection: the messages handled with what each caused, and the state if it
    is still up *)
Fixpoint run (c : cfg) (s : st) (es : list ev) : list (ev * list out) * option st :=
  match es with
  | [] => ([], Some s)
  | e :: es =>
      match step c s e with
      | Dead o => ([(e, o)], None)
      | Alive s o => let (tr, f) := run c s es in ((e, o) :: tr, f)
      end
  end.
