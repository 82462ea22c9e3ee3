(** ssh-agent.c: the authentication agent as a machine that reads requests from
    any number of connections.

    A key is seen through its public blob, its type, the key that signed it (for
    a certificate) and its FIDO application and flags; sshkey_equal is equality of
    blobs.  Parsing and verifying keys are functions of the configuration [cfg];
    what the outside world answers while one request is served (clock, random
    salt, the user's confirmation, the signing library, the file system, PKCS#11
    modules, validity of host certificates) is the record [env] that comes with
    the event.  Logging, fingerprints, notifiers and memory management are left
    out; allocation does not fail. *)
From Coq Require Import String.
From Verif Require Import Base Text SshbufModel SshbufSpec WireSpec MatchModel MiscNumModel Dec AuthOptModel.

(** 101-112 *)
Definition AGENT_MAX_LEN : Z := 262144.
Definition AGENT_MAX_SESSION_IDS : Z := 16.
Definition AGENT_MAX_SID_LEN : Z := 128.
Definition AGENT_MAX_DEST_CONSTRAINTS : Z := 1024.
Definition AGENT_MAX_EXT_CERTS : Z := 1024.
(** authfd.h:76-110 *)
Definition SSH_AGENT_FAILURE : Z := 5.
Definition SSH_AGENT_SUCCESS : Z := 6.
Definition SSH_AGENTC_REMOVE_ALL_RSA_IDENTITIES : Z := 9.
Definition SSH2_AGENTC_REQUEST_IDENTITIES : Z := 11.
Definition SSH2_AGENT_IDENTITIES_ANSWER : Z := 12.
Definition SSH2_AGENTC_SIGN_REQUEST : Z := 13.
Definition SSH2_AGENT_SIGN_RESPONSE : Z := 14.
Definition SSH2_AGENTC_ADD_IDENTITY : Z := 17.
Definition SSH2_AGENTC_REMOVE_IDENTITY : Z := 18.
Definition SSH2_AGENTC_REMOVE_ALL_IDENTITIES : Z := 19.
Definition SSH_AGENTC_ADD_SMARTCARD_KEY : Z := 20.
Definition SSH_AGENTC_REMOVE_SMARTCARD_KEY : Z := 21.
Definition SSH_AGENTC_LOCK : Z := 22.
Definition SSH_AGENTC_UNLOCK : Z := 23.
Definition SSH2_AGENTC_ADD_ID_CONSTRAINED : Z := 25.
Definition SSH_AGENTC_ADD_SMARTCARD_KEY_CONSTRAINED : Z := 26.
Definition SSH_AGENTC_EXTENSION : Z := 27.
Definition SSH2_MSG_USERAUTH_REQUEST : Z := 50.

Inductive akey := AKey (blob : list Z) (type : Z) (ca : option akey) (sk : option (list Z * Z)).
Definition k_blob (k : akey) := let 'AKey b _ _ _ := k in b.
Definition k_type (k : akey) := let 'AKey _ t _ _ := k in t.
Definition k_ca (k : akey) := let 'AKey _ _ c _ := k in c.
Definition k_sk (k : akey) := let 'AKey _ _ _ s := k in s.
Definition sshkey_equal (a b : akey) : bool := beqb (k_blob a) (k_blob b).
Definition is_some {A} (o : option A) : bool := match o with Some _ => true | None => false end.

(** authfd.h (struct dest_constraint_hop, struct dest_constraint) *)
Record hop := mkHop { h_user : option (list Z); h_host : option (list Z); h_keys : list (akey * bool) }.
Record dcon := mkDC { d_from : hop; d_to : hop }.
(** 142-152 (struct identity) *)
Record ident := mkI { i_key : akey; i_comment : list Z; i_provider : option (list Z); i_death : Z;
                      i_confirm : bool; i_sk : option (list Z); i_dcs : list dcon }.
(** 122-126 (struct hostkey_sid), 128-137 (struct socket_entry) *)
Record hsid := mkHS { b_key : akey; b_sid : list Z; b_fwd : bool }.
Record sock := mkS { s_type : Z; s_in : list Z; s_out : list Z; s_ids : list hsid; s_attempted : bool }.
Definition AUTH_UNUSED : Z := 0.
Definition AUTH_SOCKET : Z := 1.
Definition AUTH_CONNECTION : Z := 2.
Definition unused_sock : sock := mkS AUTH_UNUSED [] [] [] false.

(** The globals: idtab (list and count), locked, lock_pwhash, lock_salt and the
    fail_count of process_lock_agent *)
Record core := mkG { g_ids : list ident; g_n : Z; g_locked : bool; g_hash : list Z; g_salt : list Z; g_fails : Z }.

(** What does not change: options of the agent and the key library *)
Record cfg := mkCfg {
  c_lifetime : Z;                                    (* -t *)
  c_allowed : list Z;                                (* -P: allowed_providers *)
  c_remote_ok : bool;                                (* -O allow-remote-pkcs11 *)
  c_websafe : bool; c_weballow : list Z;             (* restrict_websafe, websafe_allowlist *)
  c_key : list Z -> option akey;                     (* sshkey_from_blob *)
  c_priv : list Z -> option (akey * list Z);         (* sshkey_private_deserialize: key and rest *)
  c_verify : akey -> list Z -> list Z -> bool;       (* sshkey_verify key signature data *)
  c_kdf : list Z -> list Z -> list Z;                (* bcrypt_pbkdf passphrase salt *)
  c_type : list Z -> Z;                              (* sshkey_type_from_name *)
  c_eqpub : akey -> akey -> bool;                    (* sshkey_equal_public *)
}.
Inductive sres := SigOk (s : list Z) | SigWrongPin | SigErr.
Record env := mkEnv {
  e_now : Z;                                                             (* monotime() *)
  e_salt : list Z;                                                       (* arc4random_buf *)
  e_ask : bool;                                                          (* ask_permission *)
  e_host : akey -> list Z -> bool;                                       (* sshkey_cert_check_host succeeds *)
  e_sign : bool -> akey -> list Z -> option (list Z) -> option (list Z) -> sres; (* sshkey_sign; the flag: with a PIN *)
  e_realpath : list Z -> option (list Z);
  e_p11 : list Z -> list Z -> list (akey * option (list Z));             (* pkcs11_add_provider: keys, labels *)
  e_mkcert : akey -> akey -> option akey;                                (* pkcs11_make_cert *)
  e_p11del : list Z -> bool;                                             (* pkcs11_del_provider succeeds *)
  e_shield : bool;                                                       (* sshkey_shield_private succeeds *)
  e_maxsign : akey -> Z -> bool;                                         (* sshkey_enable_maxsign succeeds *)
}.

(** What happens while a request is served: calls to the signing library with the
    private key of an identity, questions to the user and their answer, loading
    a module; last, the request and its reply. *)
Inductive obs :=
| OSign (i : ident) (data : list Z)
| OAsk (i : ident) (yes : bool)
| OLoad (path : list Z)
| OReply (request reply : list Z).

(** ** Destination constraints *)
Section Env.
Variable en : env.
(** 358-414 (match_key_hop); the null pointers it guards against do not occur *)
Definition hop_name (h : hop) : list Z := match h_host h with Some n => n | None => bs "(ORIGIN)" end.
Definition match_key_hop (k : akey) (h : hop) : bool :=
  existsb (fun '(hk, isca) =>
    match k_ca k with
    | None => negb isca && sshkey_equal k hk
    | Some ca => isca && sshkey_equal ca hk && e_host en k (hop_name h)
    end) (h_keys h).
(** 416-466 (permitted_by_dest_constraints); null keys and user as [None] *)
Definition dc_permits (from to : option akey) (user : option (list Z)) (d : dcon) : bool :=
  match from with
  | None => negb (is_some (h_host (d_from d))) && is_nil (h_keys (d_from d))
  | Some k => match_key_hop k (d_from d)
  end
  && match to with None => true | Some k => match_key_hop k (d_to d) end
  && match h_user (d_to d), user with Some p, Some u => match_pattern u p | _, _ => true end.
Definition permitted_by_dest_constraints (from to : option akey) (i : ident) (user : option (list Z)) : bool :=
  existsb (dc_permits from to user) (i_dcs i).
(** 500-551: the loop over the bindings *)
Fixpoint walk (i : ident) (user : option (list Z)) (from : option akey) (l : list hsid) : bool :=
  match l with
  | [] => true
  | b :: r =>
    match r with
    | [] => negb (b_fwd b && is_some user) && permitted_by_dest_constraints from (Some (b_key b)) i user
    | _ => b_fwd b && permitted_by_dest_constraints from (Some (b_key b)) i None && walk i user (Some (b_key b)) r
    end
  end.
Fixpoint last_bind (l : list hsid) : option hsid :=
  match l with [] => None | [b] => Some b | _ :: r => last_bind r end.
(** 468-571 (identity_permitted) *)
Definition identity_permitted (i : ident) (e : sock) (user : option (list Z)) : bool :=
  if is_nil (i_dcs i) then true else
  if s_attempted e && is_nil (s_ids e) then false else
  match last_bind (s_ids e) with
  | None => true
  | Some b =>
    walk i user None (s_ids e) &&
    negb (b_fwd b && negb (is_some user) && negb (permitted_by_dest_constraints (Some (b_key b)) None i None))
  end.
End Env.
(** 573-577 (socket_is_remote) *)
Definition socket_is_remote (e : sock) : bool := s_attempted e || negb (is_nil (s_ids e)).
(** 579-590 (lookup_identity) *)
Fixpoint lookup_identity (k : akey) (l : list ident) : option ident :=
  match l with [] => None | i :: r => if sshkey_equal k (i_key i) then Some i else lookup_identity k r end.
(** The list after TAILQ_REMOVE of the entry lookup_identity finds, or after
    writing over it *)
Fixpoint remove_identity (k : akey) (l : list ident) : list ident :=
  match l with [] => [] | i :: r => if sshkey_equal k (i_key i) then r else i :: remove_identity k r end.
Fixpoint update_identity (k : akey) (f : ident -> ident) (l : list ident) : list ident :=
  match l with [] => [] | i :: r => if sshkey_equal k (i_key i) then f i :: r else i :: update_identity k f r end.

(** ** Replies.  A reply is the message; its length goes in front of it. *)
Definition status (ok : bool) : list Z := [if ok then SSH_AGENT_SUCCESS else SSH_AGENT_FAILURE].
(** What a handler returns: [None] is fatal() *)
Definition hres := option (core * sock * list Z * list obs).

Section Handlers.
Variable c : cfg.
Variable en : env.

(** 620-664 (process_request_identities); an entry that does not fit in the
    buffer is not counted *)
Fixpoint list_keys (e : sock) (l : list ident) (n : Z) (keys : list Z) : Z * list Z :=
  match l with
  | [] => (n, keys)
  | i :: r =>
    if negb (identity_permitted en i e None) then list_keys e r n keys else
    match put_str (k_blob (i_key i)) (Some keys) with
    | None => list_keys e r n keys
    | Some keys1 =>
      match put_str (i_comment i) (Some keys1) with
      | None => list_keys e r n keys1
      | Some keys2 => list_keys e r (n + 1) keys2
      end
    end
  end.
Definition process_request_identities (g : core) (e : sock) (body : list Z) : hres :=
  let '(n, keys) := list_keys e (g_ids g) 0 [] in
  match put keys (put_u32 n (put_u8 SSH2_AGENT_IDENTITIES_ANSWER (Some []))) with
  | None => None
  | Some msg => Some (g, e, msg, [])
  end.

(** 667-683 (agent_decode_alg); KEY_RSA 0 and KEY_RSA_CERT 4 of sshkey.h:64-69 *)
Definition agent_decode_alg (k : akey) (flags : Z) : option (list Z) :=
  if k_type k =? 0 then
    if negb (Z.land flags 2 =? 0) then Some (bs "rsa-sha2-256")
    else if negb (Z.land flags 4 =? 0) then Some (bs "rsa-sha2-512") else None
  else if k_type k =? 4 then
    if negb (Z.land flags 2 =? 0) then Some (bs "rsa-sha2-256-cert-v01@openssh.com")
    else if negb (Z.land flags 4 =? 0) then Some (bs "rsa-sha2-512-cert-v01@openssh.com") else None
  else None.

(** sshkey_froms (sshkey.c:2087-2098) *)
Definition get_key (l : list Z) : option (akey * list Z) :=
  match get_str l with
  | None => None
  | Some (b, r) => match c_key c b with None => None | Some k => Some (k, r) end
  end.

(** 685-770 (parse_userauth_request): user, session id and host key *)
Definition parse_userauth_request (msg : list Z) (expected : akey) : option (list Z * list Z * option akey) :=
  match get_str msg with None => None | Some (sid, b) =>
  if zlen sid =? 0 then None else
  match get_int 1 b with None => None | Some (t, b) =>
  match get_cstr b with None => None | Some (user, b) =>
  match get_cstr b with None => None | Some (service, b) =>
  match get_cstr b with None => None | Some (method, b) =>
  match get_int 1 b with None => None | Some (sig_follows, b) =>
  match get_cstr b with None => None | Some (pkalg, b) =>
  match get_key b with None => None | Some (mkey, b) =>
  if negb (t =? SSH2_MSG_USERAUTH_REQUEST) || negb (sig_follows =? 1) || negb (beqb service (bs "ssh-connection")) ||
     negb (sshkey_equal expected mkey) || negb (c_type c pkalg =? k_type expected) then None else
  let done hk b := if zlen b =? 0 then Some (user, sid, hk) else None in
  if beqb method (bs "publickey-hostbound-v00@openssh.com") then
    match get_key b with None => None | Some (hk, b) => done (Some hk) b end
  else if beqb method (bs "publickey") then done None b
  else None
  end end end end end end end end.
(** 772-801 (parse_sshsig_request) *)
Definition parse_sshsig_request (msg : list Z) : bool :=
  if negb (beqb (ztake 6 msg) (bs "SSHSIG")) then false else
  match get_cstr (zdrop 6 msg) with None => false | Some (_, b) =>
  match get_str b with None => false | Some (_, b) =>
  match get_cstr b with None => false | Some (_, b) =>
  match get_str b with None => false | Some (_, b) => zlen b =? 0
  end end end end.
(** 803-826 (check_websafe_message_contents) *)
Definition check_websafe_message_contents (k : akey) (data : list Z) : bool :=
  is_some (parse_userauth_request data k) || parse_sshsig_request data.

(** 875-924: the checks for a destination-constrained key *)
Definition dest_ok (e : sock) (i : ident) (k : akey) (data : list Z) : bool :=
  if is_nil (i_dcs i) then true else
  match last_bind (s_ids e) with
  | None => false
  | Some b =>
    match parse_userauth_request data k with
    | None => false
    | Some (user, sid, hostkey) =>
      identity_permitted en i e (Some user) &&
      beqb sid (b_sid b) &&
      negb ((1 <? zlen (s_ids e)) && negb (is_some hostkey)) &&
      match hostkey with None => true | Some hk => sshkey_equal hk (b_key b) end
    end
  end.
(** 930-937 *)
Definition websafe_ok (i : ident) (k : akey) (data : list Z) : bool :=
  match k_sk (i_key i) with
  | None => true
  | Some (app, _) =>
    negb (c_websafe c) || (match match_pattern_list app (c_weballow c) false with Some r => r =? 1 | None => false end) ||
    check_websafe_message_contents k data
  end.
(** 946-966: sshkey_sign, tried again with a PIN if a FIDO key asks for one *)
Definition do_sign (i : ident) (k : akey) (data : list Z) (flags : Z) : option (list Z) * list obs :=
  match e_sign en false (i_key i) data (agent_decode_alg k flags) (i_sk i) with
  | SigOk s => (Some s, [OSign i data])
  | SigErr => (None, [OSign i data])
  | SigWrongPin =>
    if is_some (k_sk (i_key i)) then
      match e_sign en true (i_key i) data (agent_decode_alg k flags) (i_sk i) with
      | SigOk s => (Some s, [OSign i data; OSign i data])
      | _ => (None, [OSign i data; OSign i data])
      end
    else (None, [OSign i data])
  end.
(** 841-995 (process_sign_request2) *)
Definition sign_request (g : core) (e : sock) (body : list Z) : option (list Z) * list obs :=
  match get_key body with None => (None, []) | Some (k, b) =>
  match get_str b with None => (None, []) | Some (data, b) =>
  match get_int 4 b with None => (None, []) | Some (flags, _) =>
  match lookup_identity k (g_ids g) with None => (None, []) | Some i =>
  if negb (dest_ok e i k data) then (None, []) else
  if i_confirm i && negb (e_ask en) then (None, [OAsk i false]) else
  let asked := if i_confirm i then [OAsk i true] else [] in
  if negb (websafe_ok i k data) then (None, asked) else
  let '(r, os) := do_sign i k data flags in (r, asked ++ os)
  end end end end.
Definition process_sign_request2 (g : core) (e : sock) (body : list Z) : hres :=
  let '(r, os) := sign_request g e body in
  match r with
  | None => Some (g, e, status false, os)
  | Some s => match put_str s (put_u8 SSH2_AGENT_SIGN_RESPONSE (Some [])) with
              | None => None
              | Some msg => Some (g, e, msg, os)
              end
  end.

(** 997-1027 (process_remove_identity) *)
Definition process_remove_identity (g : core) (e : sock) (body : list Z) : hres :=
  match get_key body with
  | None => Some (g, e, status false, [])
  | Some (k, _) =>
    match lookup_identity k (g_ids g) with
    | None => Some (g, e, status false, [])
    | Some i =>
      if negb (identity_permitted en i e None) then Some (g, e, status false, []) else
      if g_n g <? 1 then None else
      Some (mkG (remove_identity k (g_ids g)) (g_n g - 1) (g_locked g) (g_hash g) (g_salt g) (g_fails g), e, status true, [])
    end
  end.
(** 1029-1052 (remove_all_identities, process_remove_all_identities) *)
Definition remove_all_identities (g : core) : core := mkG [] 0 (g_locked g) (g_hash g) (g_salt g) (g_fails g).
Definition process_remove_all_identities (g : core) (e : sock) (body : list Z) : hres :=
  Some (remove_all_identities g, e, status true, []).

(** ** Key constraints.  [Spin]: a loop longer than the input allows. *)
Inductive pr (A : Type) := Good (a : A) | Bad | Spin.
Arguments Good {A}. Arguments Bad {A}. Arguments Spin {A}.
Definition bind {A B} (x : pr A) (f : A -> pr B) : pr B := match x with Good a => f a | Bad => Bad | Spin => Spin end.
Definition need {A} (o : option A) : pr A := match o with Some a => Good a | None => Bad end.

(** 1110-1131 *)
Fixpoint hop_keys (fuel : nat) (b : list Z) : pr (list (akey * bool)) :=
  match b with
  | [] => Good []
  | _ =>
    match fuel with
    | O => Spin
    | S f =>
      bind (need (get_key b)) (fun '(k, b) =>
      bind (need (get_int 1 b)) (fun '(isca, b) =>
      bind (hop_keys f b) (fun l => Good ((k, negb (isca =? 0)) :: l))))
    end
  end.
Definition nonempty (s : list Z) : option (list Z) := if is_nil s then None else Some s.
(** 1081-1136 (parse_dest_constraint_hop) *)
Definition parse_dest_constraint_hop (b : list Z) : pr hop :=
  bind (need (get_cstr b)) (fun '(user, b) =>
  bind (need (get_cstr b)) (fun '(host, b) =>
  bind (need (get_str b)) (fun '(ext, b) =>
  if negb (zlen ext =? 0) then Bad else
  bind (hop_keys (length b) b) (fun keys => Good (mkHop (nonempty user) (nonempty host) keys))))).
(** 1138-1186 (parse_dest_constraint) *)
Definition parse_dest_constraint (m : list Z) : pr (dcon * list Z) :=
  bind (need (get_str m)) (fun '(b, rest) =>
  bind (need (get_str b)) (fun '(frombuf, b) =>
  bind (need (get_str b)) (fun '(tobuf, b) =>
  bind (need (get_str b)) (fun '(ext, _) =>
  bind (parse_dest_constraint_hop frombuf) (fun from =>
  bind (parse_dest_constraint_hop tobuf) (fun to =>
  if negb (zlen ext =? 0) then Bad else
  if negb (Bool.eqb (negb (is_some (h_host from))) (is_nil (h_keys from))) || is_some (h_user from) then Bad else
  if negb (is_some (h_host to)) || is_nil (h_keys to) then Bad else
  Good (mkDC from to, rest))))))).
(** 1230-1241; [acc] holds the constraints so far *)
Fixpoint parse_dcs (fuel : nat) (b : list Z) (acc : list dcon) : pr (list dcon) :=
  match b with
  | [] => Good acc
  | _ =>
    if AGENT_MAX_DEST_CONSTRAINTS <=? zlen acc then Bad else
    match fuel with
    | O => Spin
    | S f => bind (parse_dest_constraint b) (fun '(d, b) => parse_dcs f b (acc ++ [d]))
    end
  end.
(** 1260-1273 *)
Fixpoint parse_certs (fuel : nat) (b : list Z) (acc : list akey) : pr (list akey) :=
  match b with
  | [] => Good acc
  | _ =>
    if AGENT_MAX_EXT_CERTS <=? zlen acc then Bad else
    match fuel with
    | O => Spin
    | S f => bind (need (get_key b)) (fun '(k, b) => parse_certs f b (acc ++ [k]))
    end
  end.
(** The output variables of parse_key_constraints; null lists are empty *)
Record kcons := mkKC { q_death : Z; q_confirm : bool; q_maxsign : Z; q_sk : option (list Z);
                       q_dcs : list dcon; q_certonly : bool; q_certs : list akey }.
Definition no_cons : kcons := mkKC 0 false 0 None [] false [].
(** 1188-1285 (parse_key_constraint_extension); [card]: called for a smartcard,
    where sk_providerp is null and the certificate pointers are not *)
Definition parse_key_constraint_extension (card : bool) (m : list Z) (q : kcons) : pr (kcons * list Z) :=
  bind (need (get_cstr m)) (fun '(name, m) =>
  if beqb name (bs "sk-provider@openssh.com") then
    if card then Bad else if is_some (q_sk q) then Bad else
    bind (need (get_cstr m)) (fun '(p, m) =>
    Good (mkKC (q_death q) (q_confirm q) (q_maxsign q) (Some p) (q_dcs q) (q_certonly q) (q_certs q), m))
  else if beqb name (bs "restrict-destination-v00@openssh.com") then
    if negb (is_nil (q_dcs q)) then Bad else
    bind (need (get_str m)) (fun '(b, m) =>
    bind (parse_dcs (length b) b (q_dcs q)) (fun dcs =>
    Good (mkKC (q_death q) (q_confirm q) (q_maxsign q) (q_sk q) dcs (q_certonly q) (q_certs q), m)))
  else if beqb name (bs "associated-certs-v00@openssh.com") then
    if negb card then Bad else if negb (is_nil (q_certs q)) then Bad else
    bind (need (get_int 1 m)) (fun '(v, m) =>
    bind (need (get_str m)) (fun '(b, m) =>
    bind (parse_certs (length b) b (q_certs q)) (fun certs =>
    Good (mkKC (q_death q) (q_confirm q) (q_maxsign q) (q_sk q) (q_dcs q) (negb (v =? 0)) certs, m))))
  else Bad).
(** 1287-1359 (parse_key_constraints); [k]: the key, null for a smartcard *)
Fixpoint parse_key_constraints (fuel : nat) (k : option akey) (m : list Z) (q : kcons) : pr kcons :=
  match m with
  | [] => Good q
  | _ =>
    match fuel with
    | O => Spin
    | S f =>
      bind (need (get_int 1 m)) (fun '(ctype, m) =>
      if ctype =? 1 then
        if negb (q_death q =? 0) then Bad else
        bind (need (get_int 4 m)) (fun '(seconds, m) =>
        parse_key_constraints f k m (mkKC (e_now en + seconds) (q_confirm q) (q_maxsign q) (q_sk q) (q_dcs q) (q_certonly q) (q_certs q)))
      else if ctype =? 2 then
        if q_confirm q then Bad else
        parse_key_constraints f k m (mkKC (q_death q) true (q_maxsign q) (q_sk q) (q_dcs q) (q_certonly q) (q_certs q))
      else if ctype =? 3 then
        match k with
        | None => Bad
        | Some key =>
          if negb (q_maxsign q =? 0) then Bad else
          bind (need (get_int 4 m)) (fun '(n, m) =>
          if negb (e_maxsign en key n) then Bad else
          parse_key_constraints f k m (mkKC (q_death q) (q_confirm q) n (q_sk q) (q_dcs q) (q_certonly q) (q_certs q)))
        end
      else if ctype =? 255 then
        bind (parse_key_constraint_extension (negb (is_some k)) m q) (fun '(q, m) => parse_key_constraints f k m q)
      else Bad)
    end
  end.

(** 1427-1428, 1615-1616 *)
Definition final_death (q : kcons) : Z :=
  if negb (c_lifetime c =? 0) && (q_death q =? 0) then e_now en + c_lifetime c else q_death q.
Definition provider_allowed (p : list Z) : bool :=
  match match_pattern_list p (c_allowed c) false with Some r => r =? 1 | None => false end.
(** 1392-1422: the provider to record ([None]: refused) *)
Definition check_sk (e : sock) (k : akey) (sk : option (list Z)) : option (option (list Z)) :=
  match sk with
  | None => Some None
  | Some p =>
    if negb (is_some (k_sk k)) then None else
    if strcaseeq p (bs "internal") then Some (Some p) else
    if socket_is_remote e && negb (c_remote_ok c) then None else
    match e_realpath en p with
    | None => None
    | Some p' => if provider_allowed p' then Some (Some p') else None
    end
  end.
(** 1362-1475 (process_add_identity).  A field of an old entry that is not
    written is its provider. *)
Definition add_identity (g : core) (e : sock) (body : list Z) : pr core :=
  bind (need (c_priv c body)) (fun '(k, b) =>
  bind (need (get_cstr b)) (fun '(comment, b) =>
  bind (parse_key_constraints (length b) (Some k) b no_cons) (fun q =>
  bind (need (check_sk e k (q_sk q))) (fun sk =>
  if negb (e_shield en) then Bad else
  let new prov := mkI k comment prov (final_death q) (q_confirm q) sk (q_dcs q) in
  match lookup_identity k (g_ids g) with
  | None => Good (mkG (g_ids g ++ [new None]) (g_n g + 1) (g_locked g) (g_hash g) (g_salt g) (g_fails g))
  | Some i =>
    if negb (identity_permitted en i e None) then Bad else
    Good (mkG (update_identity k (fun i => new (i_provider i)) (g_ids g)) (g_n g) (g_locked g) (g_hash g) (g_salt g) (g_fails g))
  end)))).
Definition process_add_identity (g : core) (e : sock) (body : list Z) : hres :=
  match add_identity g e body with
  | Good g' => Some (g', e, status true, [])
  | Bad => Some (g, e, status false, [])
  | Spin => None
  end.

(** 1477-1528 (process_lock_agent); the delay is left out *)
Definition process_lock_agent (lock : bool) (g : core) (e : sock) (body : list Z) : hres :=
  match dec_cstring body with
  | RErr _ => None
  | ROk (pw, _) =>
    if zlen pw =? 0 then Some (g, e, status false, [])
    else if g_locked g && negb lock then
      if beqb (c_kdf c pw (g_salt g)) (g_hash g)
      then Some (mkG (g_ids g) (g_n g) false (repeat 0 32) (g_salt g) 0, e, status true, [])
      else Some (mkG (g_ids g) (g_n g) (g_locked g) (g_hash g) (g_salt g) (if g_fails g <? 100 then g_fails g + 1 else g_fails g), e, status false, [])
    else if negb (g_locked g) && lock then
      Some (mkG (g_ids g) (g_n g) true (c_kdf c pw (e_salt en)) (e_salt en) (g_fails g), e, status true, [])
    else Some (g, e, status false, [])
  end.

(** 1530-1543 (no_identities) *)
Definition no_identities : list Z := SSH2_AGENT_IDENTITIES_ANSWER :: be_enc 4 0.

(** 1547-1570 (add_p11_identity) *)
Definition add_p11_identity (k : akey) (comment provider : list Z) (q : kcons) (g : core) : core :=
  match lookup_identity k (g_ids g) with
  | Some _ => g
  | None => mkG (g_ids g ++ [mkI k comment (Some provider) (final_death q) (q_confirm q) None (q_dcs q)]) (g_n g + 1)
                (g_locked g) (g_hash g) (g_salt g) (g_fails g)
  end.
(** 1624-1635 *)
Fixpoint add_p11_certs (k : akey) (certs : list akey) (comment provider : list Z) (q : kcons) (g : core) (success : bool) : core * bool :=
  match certs with
  | [] => (g, success)
  | ct :: r =>
    if negb (is_some (k_ca ct)) || negb (c_eqpub c k ct) then add_p11_certs k r comment provider q g success else
    match e_mkcert en k ct with
    | None => add_p11_certs k r comment provider q g success
    | Some k' => add_p11_certs k r comment provider q (add_p11_identity k' comment provider q g) true
    end
  end.
(** 1619-1647 *)
Fixpoint add_p11_keys (l : list (akey * option (list Z))) (provider : list Z) (q : kcons) (g : core) (success : bool) : core * bool :=
  match l with
  | [] => (g, success)
  | (k, label) :: r =>
    let comment := match label with Some s => if is_nil s then provider else s | None => provider end in
    let '(g1, s1) := add_p11_certs k (q_certs q) comment provider q g success in
    if negb (q_certonly q) && negb (is_some (lookup_identity k (g_ids g1)))
    then add_p11_keys r provider q (add_p11_identity k comment provider q g1) true
    else add_p11_keys r provider q g1 s1
  end.
(** 1572-1658 (process_add_smartcard_key) *)
Definition add_smartcard (g : core) (e : sock) (body : list Z) : pr (core * bool * list obs) :=
  bind (need (get_cstr body)) (fun '(provider, b) =>
  bind (need (get_cstr b)) (fun '(pin, b) =>
  bind (parse_key_constraints (length b) None b no_cons) (fun q =>
  if socket_is_remote e && negb (c_remote_ok c) then Bad else
  bind (need (e_realpath en provider)) (fun p =>
  if negb (provider_allowed p) then Bad else
  let '(g', ok) := add_p11_keys (e_p11 en p pin) p q g false in
  Good (g', ok, [OLoad p]))))).
Definition process_add_smartcard_key (g : core) (e : sock) (body : list Z) : hres :=
  match add_smartcard g e body with
  | Good (g', ok, os) => Some (g', e, status ok, os)
  | Bad => Some (g, e, status false, [])
  | Spin => None
  end.
(** 1660-1700 (process_remove_smartcard_key) *)
Definition from_provider (p : list Z) (i : ident) : bool := match i_provider i with Some p' => beqb p p' | None => false end.
Definition process_remove_smartcard_key (g : core) (e : sock) (body : list Z) : hres :=
  match get_cstr body with None => Some (g, e, status false, []) | Some (provider, b) =>
  match get_cstr b with None => Some (g, e, status false, []) | Some (_, _) =>
  match e_realpath en provider with
  | None => Some (g, e, status false, [])
  | Some p =>
    let keep := filter (fun i => negb (from_provider p i)) (g_ids g) in
    Some (mkG keep (g_n g - (zlen (g_ids g) - zlen keep)) (g_locked g) (g_hash g) (g_salt g) (g_fails g), e, status (e_p11del en p), [])
  end end end.

(** 1735-1760: whether the pair may be recorded ([None]), or the answer *)
Fixpoint bind_scan (k : akey) (sid : list Z) (l : list hsid) : option bool :=
  match l with
  | [] => None
  | b :: r =>
    if negb (b_fwd b) then Some false else
    if beqb sid (b_sid b) then Some (sshkey_equal k (b_key b)) else bind_scan k sid r
  end.
(** 1703-1788 (process_ext_session_bind).  When the session id is too long, r is
    still 0 at "out" (1721-1724). *)
Definition process_ext_session_bind (e0 : sock) (b : list Z) : sock * bool :=
  let e := mkS (s_type e0) (s_in e0) (s_out e0) (s_ids e0) true in
  match get_key b with None => (e, false) | Some (k, b) =>
  match get_str b with None => (e, false) | Some (sid, b) =>
  match get_str b with None => (e, false) | Some (sig, b) =>
  match get_int 1 b with None => (e, false) | Some (fwd, _) =>
  if AGENT_MAX_SID_LEN <? zlen sid then (e, true) else
  if negb (c_verify c k sig sid) then (e, false) else
  match bind_scan k sid (s_ids e) with
  | Some r => (e, r)
  | None =>
    if AGENT_MAX_SESSION_IDS <=? zlen (s_ids e) then (e, false) else
    (mkS (s_type e) (s_in e) (s_out e) (s_ids e ++ [mkHS k sid (negb (fwd =? 0))]) true, true)
  end
  end end end end.
(** 1790-1808 (process_extension) *)
Definition process_extension (g : core) (e : sock) (body : list Z) : hres :=
  match get_cstr body with
  | None => Some (g, e, status false, [])
  | Some (name, b) =>
    if beqb name (bs "session-bind@openssh.com") then
      let '(e', ok) := process_ext_session_bind e b in Some (g, e', status ok, [])
    else Some (g, e, status false, [])
  end.

(** 1852-1910: the body of process_message, once the request is complete *)
Definition dispatch (g : core) (e : sock) (type : Z) (body : list Z) : hres :=
  if g_locked g && negb (type =? SSH_AGENTC_UNLOCK) then
    Some (g, e, (if type =? SSH2_AGENTC_REQUEST_IDENTITIES then no_identities else status false), [])
  else if type =? SSH_AGENTC_LOCK then process_lock_agent true g e body
  else if type =? SSH_AGENTC_UNLOCK then process_lock_agent false g e body
  else if type =? SSH_AGENTC_REMOVE_ALL_RSA_IDENTITIES then process_remove_all_identities g e body
  else if type =? SSH2_AGENTC_SIGN_REQUEST then process_sign_request2 g e body
  else if type =? SSH2_AGENTC_REQUEST_IDENTITIES then process_request_identities g e body
  else if (type =? SSH2_AGENTC_ADD_IDENTITY) || (type =? SSH2_AGENTC_ADD_ID_CONSTRAINED) then process_add_identity g e body
  else if type =? SSH2_AGENTC_REMOVE_IDENTITY then process_remove_identity g e body
  else if type =? SSH2_AGENTC_REMOVE_ALL_IDENTITIES then process_remove_all_identities g e body
  else if (type =? SSH_AGENTC_ADD_SMARTCARD_KEY) || (type =? SSH_AGENTC_ADD_SMARTCARD_KEY_CONSTRAINED) then process_add_smartcard_key g e body
  else if type =? SSH_AGENTC_REMOVE_SMARTCARD_KEY then process_remove_smartcard_key g e body
  else if type =? SSH_AGENTC_EXTENSION then process_extension g e body
  else Some (g, e, status false, []).
End Handlers.
Arguments Good {A}. Arguments Bad {A}. Arguments Spin {A}.

(** ** The whole agent *)
Record agent := mkAg { a_core : core; a_socks : list sock }.
Definition set_nth (n : nat) (e : sock) (l : list sock) : list sock := firstn n l ++ e :: skipn (S n) l.

(** 1813-1912 (process_message) with the enqueueing of the reply *)
Inductive pm := PmFatal | PmWait | PmClose | PmDone (a : agent) (os : list obs).
Definition process_message (c : cfg) (en : env) (a : agent) (n : nat) : pm :=
  match nth_error (a_socks a) n with
  | None => PmFatal
  | Some e =>
    if zlen (s_in e) <? 5 then PmWait else
    let msg_len := be_dec (ztake 4 (s_in e)) in
    if AGENT_MAX_LEN <? msg_len then PmClose else
    if zlen (s_in e) <? msg_len + 4 then PmWait else
    match get_str (s_in e) with
    | None => PmClose
    | Some (req, rest) =>
      match get_int 1 req with
      | None => PmClose
      | Some (type, body) =>
        match dispatch c en (a_core a) (mkS (s_type e) rest (s_out e) (s_ids e) (s_attempted e)) type body with
        | None => PmFatal
        | Some (g, e1, reply, os) =>
          match put_str reply (Some (s_out e1)) with
          | None => PmFatal
          | Some out =>
            PmDone (mkAg g (set_nth n (mkS (s_type e1) (s_in e1) out (s_ids e1) (s_attempted e1)) (a_socks a))) (os ++ [OReply req reply])
          end
        end
      end
    end
  end.

(** 1054-1079 (reaper): the remaining identities and the seconds to the next expiry *)
Fixpoint reap_loop (now : Z) (l : list ident) (deadline : Z) : list ident * Z :=
  match l with
  | [] => ([], deadline)
  | i :: r =>
    if i_death i =? 0 then let '(l', d) := reap_loop now r deadline in (i :: l', d)
    else if i_death i <=? now then reap_loop now r deadline
    else let '(l', d) := reap_loop now r (if deadline =? 0 then i_death i else Z.min deadline (i_death i)) in (i :: l', d)
  end.
Definition reaper (now : Z) (g : core) : core * Z :=
  let '(l, deadline) := reap_loop now (g_ids g) 0 in
  (mkG l (g_n g - (zlen (g_ids g) - zlen l)) (g_locked g) (g_hash g) (g_salt g) (g_fails g),
   if (deadline =? 0) || (deadline <=? now) then 0 else deadline - now).

(** 1914-1949 (new_socket): the first unused slot, or ten more slots *)
Fixpoint first_unused (l : list sock) : option nat :=
  match l with
  | [] => None
  | e :: r => if s_type e =? AUTH_UNUSED then Some O else match first_unused r with Some n => Some (S n) | None => None end
  end.
Definition new_socket (type : Z) (l : list sock) : list sock :=
  match first_unused l with
  | Some n => match nth_error l n with
              | Some e => set_nth n (mkS type [] [] (s_ids e) (s_attempted e)) l
              | None => l
              end
  | None => l ++ mkS type [] [] [] false :: repeat unused_sock 9
  end.
(** 206-223 (close_socket) *)
Definition close_socket (n : nat) (l : list sock) : list sock := set_nth n unused_sock l.

(** The events of the main loop (2521-2546), prepare_poll and after_poll, one at a
    time and in any order: a connection is accepted (1951-1979), bytes arrive
    (1981-1998), one message is processed (1999-2004), the connection ends, part of
    the output is written (2009-2031), a sweep (2150, 2539), SIGUSR1 (2527-2532).
    Descriptors and poll are left out. *)
Inductive event :=
| EvAccept
| EvData (n : nat) (bytes : list Z)
| EvMessage (n : nat) (en : env)
| EvEnd (n : nat)
| EvWrite (n : nat) (count : Z)
| EvSweep (now : Z)
| EvKeydrop.
(** The result: [Exit] when the agent ends; else the new state and what happened *)
Inductive ares := Exit | Run (a : agent) (os : list obs).
Definition conn (a : agent) (n : nat) : option sock :=
  match nth_error (a_socks a) n with Some e => if s_type e =? AUTH_CONNECTION then Some e else None | None => None end.
Definition step (c : cfg) (a : agent) (ev : event) : ares :=
  match ev with
  | EvAccept => Run (mkAg (a_core a) (new_socket AUTH_CONNECTION (a_socks a))) []
  | EvData n bytes =>
    match conn a n with
    | None => Run a []
    | Some e =>
      match put bytes (Some (s_in e)) with
      | None => Exit
      | Some i => Run (mkAg (a_core a) (set_nth n (mkS (s_type e) i (s_out e) (s_ids e) (s_attempted e)) (a_socks a))) []
      end
    end
  | EvMessage n en =>
    match conn a n with
    | None => Run a []
    | Some _ =>
      match process_message c en a n with
      | PmFatal => Exit
      | PmWait => Run a []
      | PmClose => Run (mkAg (a_core a) (close_socket n (a_socks a))) []
      | PmDone a' os => Run a' os
      end
    end
  | EvEnd n => match conn a n with None => Run a [] | Some _ => Run (mkAg (a_core a) (close_socket n (a_socks a))) [] end
  | EvWrite n count =>
    match conn a n with
    | None => Run a []
    | Some e => Run (mkAg (a_core a) (set_nth n (mkS (s_type e) (s_in e) (zdrop count (s_out e)) (s_ids e) (s_attempted e)) (a_socks a))) []
    end
  | EvSweep now => Run (mkAg (fst (reaper now (a_core a))) (a_socks a)) []
  | EvKeydrop => Run (mkAg (remove_all_identities (a_core a)) (a_socks a)) []
  end.
(** The agent at its start: no keys, unlocked, the listening socket *)
Definition agent_init : agent :=
  mkAg (mkG [] 0 false [] [] 0) (new_socket AUTH_SOCKET []).
