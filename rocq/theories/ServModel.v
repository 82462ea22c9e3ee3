(** servconf.c: reading the server configuration (sshd_config), conditional
    Match blocks, included files, and applying the settings that concern one
    connection.  C strings are byte lists without NUL.  Allocation failure is not
    modelled.  The build is one without PAM, Kerberos, GSSAPI and routing domains,
    as on Linux with the default configure options. *)
From Coq Require Import String.
From Verif Require Import Base Text MatchModel MiscNumModel ArgvModel AddrModel.
Local Open Scope Z_scope.

(** ** The options, struct ServerOptions, servconf.h 92-268 *)

(** Integer fields that a Match block may set. *)
Inductive iopt :=
| password_authentication | pubkey_authentication | pubkey_auth_options | hostbased_authentication
| hostbased_uses_name_from_packet_only | kbd_interactive_authentication | permit_root_login | permit_empty_passwd
| ignore_rhosts | allow_tcp_forwarding | allow_streamlocal_forwarding | allow_agent_forwarding | disable_forwarding
| expose_userauth_info | permit_tun | gateway_ports | streamlocal_bind_unlink | x11_display_offset | x11_forwarding
| x11_use_localhost | permit_tty | permit_user_rc | max_sessions | max_authtries | client_alive_count_max
| client_alive_interval | ip_qos_interactive | ip_qos_bulk | rekey_limit | rekey_interval | log_level | required_rsa_size
| unused_connection_timeout | refuse_connection | streamlocal_bind_mask
(** Integer fields that only the main section may set. *)
| login_grace_time | strict_modes | tcp_keep_alive | use_dns | print_motd | print_lastlog | ignore_user_known_hosts
| compression.
(** String fields. *)
Inductive sopt :=
| banner | trusted_user_ca_keys | revoked_keys_file | authorized_keys_command | authorized_keys_command_user
| authorized_principals_file | authorized_principals_command | authorized_principals_command_user
| hostbased_accepted_algos | pubkey_accepted_algos | ca_sign_algorithms | adm_forced_command | chroot_directory.
(** Array fields with their counters. *)
Inductive aopt :=
| authorized_keys_files | allow_users | deny_users | allow_groups | deny_groups | accept_env | setenv | auth_methods
| permitted_opens | permitted_listens | channel_timeouts | log_verbose.
Scheme Equality for iopt.
Scheme Equality for sopt.
Scheme Equality for aopt.

(** A set of options: -1, NULL and an empty array mean "not set".  The three
    subsystem arrays share the counter [o_nsub] (num_subsystems). *)
Record opts := mkOpts { o_int : iopt -> Z; o_str : sopt -> option (list Z); o_arr : aopt -> list (list Z);
  o_nsub : nat; o_subname : list (list Z); o_subcmd : list (list Z); o_subargs : list (list Z) }.

(** initialize_server_options, servconf.c 88-220. *)
Definition init_opts : opts := mkOpts (fun _ => -1) (fun _ => None) (fun _ => []) 0 [] [] [].

Definition put_int (i : iopt) (v : Z) (o : opts) : opts :=
  mkOpts (fun j => if iopt_beq i j then v else o_int o j) (o_str o) (o_arr o) (o_nsub o) (o_subname o) (o_subcmd o) (o_subargs o).
Definition put_str (s : sopt) (v : option (list Z)) (o : opts) : opts :=
  mkOpts (o_int o) (fun j => if sopt_beq s j then v else o_str o j) (o_arr o) (o_nsub o) (o_subname o) (o_subcmd o) (o_subargs o).
Definition put_arr (a : aopt) (v : list (list Z)) (o : opts) : opts :=
  mkOpts (o_int o) (o_str o) (fun j => if aopt_beq a j then v else o_arr o j) (o_nsub o) (o_subname o) (o_subcmd o) (o_subargs o).
(** "if ( *activep && *intptr == -1 ) *intptr = value", 1437-1438, 1497-1498 and elsewhere. *)
Definition set_int (act : bool) (i : iopt) (v : Z) (o : opts) : opts :=
  if act && (o_int o i =? -1) then put_int i v o else o.
(** "if ( *activep ) field = value", for the fields that are always overwritten. *)
Definition force_int (act : bool) (i : iopt) (v : Z) (o : opts) : opts := if act then put_int i v o else o.
(** "if ( *activep && *charptr == NULL ) *charptr = text", 1401-1402 and elsewhere. *)
Definition set_str (act : bool) (s : sopt) (v : list Z) (o : opts) : opts :=
  if act && match o_str o s with None => true | Some _ => false end then put_str s (Some v) o else o.
(** opt_array_append for each argument while active, 1870-1873. *)
Definition append_arr (act : bool) (a : aopt) (v : list (list Z)) (o : opts) : opts :=
  if act then put_arr a (o_arr o a ++ v) o else o.
(** "found = num == 0; ... if ( found && *activep ) array = strs", 2131, 2149-2154 and elsewhere. *)
Definition once_arr (act : bool) (a : aopt) (v : list (list Z)) (o : opts) : opts :=
  if is_nil (o_arr o a) && act then put_arr a v o else o.

(** ** What the surroundings provide *)

(** Facts about the machine and about code modelled elsewhere or not at all. *)
Record env := mkEnv {
  e_pton : list Z -> option xaddr;               (* addr_pton *)
  e_serv : list Z -> option Z;                   (* getservbyname *)
  e_groups : list Z -> option (list (list Z));   (* getpwnam and the group names of ga_init; None: no such user *)
  e_glob : list Z -> option (list (list Z));     (* glob: the paths; None: failure other than GLOB_NOMATCH *)
  e_read : list Z -> option (list Z);            (* the bytes of a file; None: cannot be opened *)
  e_sshdir : list Z;                             (* SSHDIR *)
  e_release : list Z;                            (* SSH_RELEASE *)
  e_tilde : list Z -> list Z;                    (* tilde_expand_filename(., getuid()) *)
  e_derel : list Z -> list Z;                    (* derelativise_path *)
  e_algos : bool -> list Z -> bool;              (* sshkey_names_valid2(., 1, ca_only) *)
  e_methods : list Z -> bool;                    (* auth2_methods_valid(., 0) == 0 *)
  e_permit : bool -> list Z -> option (list Z);  (* the text stored for a PermitListen (true) or PermitOpen argument *)
  e_ipqos : list Z -> option Z;                  (* parse_ipqos *)
  e_scaled : list Z -> option Z;                 (* scan_scaled *)
  e_octal : list Z -> option Z;                  (* strtol(., &p, 8); None: no digits *)
  e_other : list Z -> list Z -> list (list Z) -> bool   (* keyword, rest of line, arguments of a main-section keyword not modelled here: accepted? *)
}.

(** ** Keywords, servconf.c 597-756 *)

Inductive once := KeysFiles | SetEnv | AuthMethods | PermitListen | PermitOpen | Timeouts | Verbose.
Inductive op :=
| OMulti (i : iopt) (t : list (list Z * Z)) | OTime (i : iopt) | ONum (i : iopt) | OPubkeyOptions | OTunnel | ORekey
| OIPQoS | OMask | OUnused
| OFile (s : sopt) | OTilde (s : sopt) | OWord (s : sopt) | OAlgos (s : sopt) (ca_only : bool) | OForce | OCommand (s : sopt)
| OUsers (a : aopt) | OGroups (a : aopt) | OAcceptEnv | OOnce (a : aopt) (k : once) | OSubsystem
| OMatch | OInclude | OIgnored | ORDomain | OOther.

(** Multistate tables, 799-856 (constants from servconf.h 24-37, channels.h 77-80, kex.h), log levels, log.c 100-110. *)
Definition t_flag : list (list Z * Z) := [(bs "yes", 1); (bs "no", 0)].
Definition t_rhosts : list (list Z * Z) := [(bs "yes", 1); (bs "no", 0); (bs "shosts-only", 2)].
Definition t_root : list (list Z * Z) :=
  [(bs "without-password", 2); (bs "prohibit-password", 2); (bs "forced-commands-only", 1); (bs "yes", 3); (bs "no", 0)].
Definition t_compression : list (list Z * Z) := [(bs "yes", 2); (bs "delayed", 2); (bs "no", 0)].
Definition t_gateway : list (list Z * Z) := [(bs "clientspecified", 2); (bs "yes", 1); (bs "no", 0)].
Definition t_tcpfwd : list (list Z * Z) := [(bs "yes", 3); (bs "all", 3); (bs "no", 0); (bs "remote", 1); (bs "local", 2)].
Definition t_level : list (list Z * Z) :=
  [(bs "quiet", 0); (bs "fatal", 1); (bs "error", 2); (bs "info", 3); (bs "verbose", 4); (bs "debug", 5); (bs "debug1", 5);
   (bs "debug2", 6); (bs "debug3", 7)].
Definition t_tun : list (list Z * Z) := [(bs "no", 0); (bs "point-to-point", 1); (bs "ethernet", 2); (bs "yes", 3)].

(** The table: name, handling, and whether SSHCFG_MATCH is set. *)
Definition keywords : list (list Z * op * bool) := [
  (bs "usepam", OIgnored, false); (bs "pamservicename", OIgnored, true); (bs "pamauthenticationviakbdint", OIgnored, false);
  (bs "port", OOther, false); (bs "hostkey", OOther, false); (bs "hostdsakey", OOther, false); (bs "hostkeyagent", OOther, false);
  (bs "pidfile", OOther, false); (bs "modulifile", OOther, false); (bs "serverkeybits", OIgnored, false);
  (bs "logingracetime", OTime login_grace_time, false); (bs "keyregenerationinterval", OIgnored, false);
  (bs "permitrootlogin", OMulti permit_root_login t_root, true); (bs "syslogfacility", OOther, false);
  (bs "loglevel", OMulti log_level t_level, true); (bs "logverbose", OOnce log_verbose Verbose, true);
  (bs "rhostsauthentication", OIgnored, false); (bs "rhostsrsaauthentication", OIgnored, true);
  (bs "hostbasedauthentication", OMulti hostbased_authentication t_flag, true);
  (bs "hostbasedusesnamefrompacketonly", OMulti hostbased_uses_name_from_packet_only t_flag, true);
  (bs "hostbasedacceptedalgorithms", OAlgos hostbased_accepted_algos false, true);
  (bs "hostbasedacceptedkeytypes", OAlgos hostbased_accepted_algos false, true);
  (bs "hostkeyalgorithms", OOther, false); (bs "rsaauthentication", OIgnored, true);
  (bs "pubkeyauthentication", OMulti pubkey_authentication t_flag, true);
  (bs "pubkeyacceptedalgorithms", OAlgos pubkey_accepted_algos false, true);
  (bs "pubkeyacceptedkeytypes", OAlgos pubkey_accepted_algos false, true);
  (bs "pubkeyauthoptions", OPubkeyOptions, true);
  (bs "dsaauthentication", OMulti pubkey_authentication t_flag, false);
  (bs "kerberosauthentication", OIgnored, true); (bs "kerberosorlocalpasswd", OIgnored, false);
  (bs "kerberosticketcleanup", OIgnored, false); (bs "kerberosgetafstoken", OIgnored, false);
  (bs "kerberostgtpassing", OIgnored, false); (bs "afstokenpassing", OIgnored, false);
  (bs "gssapiauthentication", OIgnored, true); (bs "gssapicleanupcredentials", OIgnored, false);
  (bs "gssapistrictacceptorcheck", OIgnored, false);
  (bs "passwordauthentication", OMulti password_authentication t_flag, true);
  (bs "kbdinteractiveauthentication", OMulti kbd_interactive_authentication t_flag, true);
  (bs "challengeresponseauthentication", OMulti kbd_interactive_authentication t_flag, true);
  (bs "skeyauthentication", OMulti kbd_interactive_authentication t_flag, true);
  (bs "checkmail", OIgnored, false); (bs "listenaddress", OOther, false); (bs "addressfamily", OOther, false);
  (bs "printmotd", OMulti print_motd t_flag, false); (bs "printlastlog", OMulti print_lastlog t_flag, false);
  (bs "ignorerhosts", OMulti ignore_rhosts t_rhosts, true);
  (bs "ignoreuserknownhosts", OMulti ignore_user_known_hosts t_flag, false);
  (bs "x11forwarding", OMulti x11_forwarding t_flag, true); (bs "x11displayoffset", ONum x11_display_offset, true);
  (bs "x11uselocalhost", OMulti x11_use_localhost t_flag, true); (bs "xauthlocation", OOther, false);
  (bs "strictmodes", OMulti strict_modes t_flag, false);
  (bs "permitemptypasswords", OMulti permit_empty_passwd t_flag, true); (bs "permituserenvironment", OOther, false);
  (bs "uselogin", OIgnored, false); (bs "compression", OMulti compression t_compression, false); (bs "rekeylimit", ORekey, true);
  (bs "tcpkeepalive", OMulti tcp_keep_alive t_flag, false); (bs "keepalive", OMulti tcp_keep_alive t_flag, false);
  (bs "allowtcpforwarding", OMulti allow_tcp_forwarding t_tcpfwd, true);
  (bs "allowagentforwarding", OMulti allow_agent_forwarding t_flag, true);
  (bs "allowusers", OUsers allow_users, true); (bs "denyusers", OUsers deny_users, true);
  (bs "allowgroups", OGroups allow_groups, true); (bs "denygroups", OGroups deny_groups, true);
  (bs "ciphers", OOther, false); (bs "macs", OOther, false); (bs "protocol", OIgnored, false);
  (bs "gatewayports", OMulti gateway_ports t_gateway, true); (bs "subsystem", OSubsystem, true);
  (bs "maxstartups", OOther, false); (bs "persourcemaxstartups", OOther, false); (bs "persourcenetblocksize", OOther, false);
  (bs "persourcepenalties", OOther, false); (bs "persourcepenaltyexemptlist", OOther, false);
  (bs "maxauthtries", ONum max_authtries, true); (bs "maxsessions", ONum max_sessions, true); (bs "banner", OFile banner, true);
  (bs "usedns", OMulti use_dns t_flag, false); (bs "verifyreversemapping", OIgnored, false); (bs "reversemappingcheck", OIgnored, false);
  (bs "clientaliveinterval", OTime client_alive_interval, true); (bs "clientalivecountmax", ONum client_alive_count_max, true);
  (bs "authorizedkeysfile", OOnce authorized_keys_files KeysFiles, true); (bs "authorizedkeysfile2", OIgnored, true);
  (bs "useprivilegeseparation", OIgnored, false); (bs "acceptenv", OAcceptEnv, true); (bs "setenv", OOnce setenv SetEnv, true);
  (bs "permittunnel", OTunnel, true); (bs "permittty", OMulti permit_tty t_flag, true);
  (bs "permituserrc", OMulti permit_user_rc t_flag, true); (bs "match", OMatch, true);
  (bs "permitopen", OOnce permitted_opens PermitOpen, true); (bs "permitlisten", OOnce permitted_listens PermitListen, true);
  (bs "forcecommand", OForce, true); (bs "chrootdirectory", OWord chroot_directory, true); (bs "hostcertificate", OOther, false);
  (bs "revokedkeys", OFile revoked_keys_file, true); (bs "trustedusercakeys", OFile trusted_user_ca_keys, true);
  (bs "authorizedprincipalsfile", OTilde authorized_principals_file, true); (bs "kexalgorithms", OOther, false);
  (bs "include", OInclude, true); (bs "ipqos", OIPQoS, true);
  (bs "authorizedkeyscommand", OCommand authorized_keys_command, true);
  (bs "authorizedkeyscommanduser", OWord authorized_keys_command_user, true);
  (bs "authorizedprincipalscommand", OCommand authorized_principals_command, true);
  (bs "authorizedprincipalscommanduser", OWord authorized_principals_command_user, true);
  (bs "versionaddendum", OOther, false); (bs "authenticationmethods", OOnce auth_methods AuthMethods, true);
  (bs "streamlocalbindmask", OMask, true); (bs "streamlocalbindunlink", OMulti streamlocal_bind_unlink t_flag, true);
  (bs "allowstreamlocalforwarding", OMulti allow_streamlocal_forwarding t_tcpfwd, true); (bs "fingerprinthash", OOther, false);
  (bs "disableforwarding", OMulti disable_forwarding t_flag, true); (bs "exposeauthinfo", OMulti expose_userauth_info t_flag, true);
  (bs "rdomain", ORDomain, true); (bs "casignaturealgorithms", OAlgos ca_sign_algorithms true, true);
  (bs "securitykeyprovider", OOther, false); (bs "requiredrsasize", ONum required_rsa_size, true);
  (bs "channeltimeout", OOnce channel_timeouts Timeouts, true); (bs "unusedconnectiontimeout", OUnused, true);
  (bs "sshdsessionpath", OOther, false); (bs "sshdauthpath", OOther, false);
  (bs "refuseconnection", OMulti refuse_connection t_flag, true)].
(** parse_token, 785-800: the first entry with that name, ignoring case; None is sBadOption. *)
Fixpoint find_keyword (t : list (list Z * op * bool)) (k : list Z) : option (op * bool) :=
  match t with
  | [] => None
  | (n, o, m) :: r => if strcaseeq k n then Some (o, m) else find_keyword r k
  end.

(** ** A line, 1340-1371 *)

(** WHITESPACE, 1261, and the line end characters of 1344. *)
Definition white (c : Z) : bool := (c =? 32) || (c =? 9) || (c =? 13) || (c =? 10).
Fixpoint skip_white (s : list Z) : list Z := match s with c :: r => if white c then skip_white r else s | [] => [] end.
(** The loop 1343-1347: trailing white space and form feeds go, but never the first character. *)
Fixpoint rstrip (s : list Z) : list Z :=
  match s with
  | [] => []
  | c :: r => match rstrip r with [] => if white c || (c =? 12) then [] else [c] | r' => c :: r' end
  end.
Definition strip_line (s : list Z) : list Z := match s with [] => [] | c :: r => c :: rstrip r end.
(** strpbrk(s, set), as the text before and from the first character of the set. *)
Fixpoint pbrk (set : list Z) (s : list Z) : list Z * list Z :=
  match s with
  | [] => ([], [])
  | c :: r => if existsb (Z.eqb c) set then ([], s) else let '(a, b) := pbrk set r in (c :: a, b)
  end.
(** strdelim, misc.c 444-493 with split_equals: None for a quote without its partner; else the token and the new *s (None: NULL). *)
Definition strdelim (s : list Z) : option (list Z * option (list Z)) :=
  let '(old, t) := pbrk [32; 9; 13; 10; 34; 61] s in
  match t with
  | [] => Some (old, None)
  | c :: r =>
      if c =? 34 then
        let '(inner, t') := pbrk [34] r in
        match t' with
        | [] => None
        | _ :: r' => Some (old ++ inner, Some (skip_white r'))
        end
      else let r1 := skip_white r in
           match r1 with
           | d :: r2 => if (d =? 61) && negb (c =? 61) then Some (old, Some (skip_white r2)) else Some (old, Some r1)
           | [] => Some (old, Some [])
           end
  end.
(** What a line is: nothing to do (returns 0), an error, or a directive with its keyword, the text after it and the arguments. *)
Inductive lineval := Skip | Wrong | Dir (k : list Z) (rest : list Z) (args : list (list Z)).
Definition split_rest (k : list Z) (str : option (list Z)) : lineval :=
  match k with
  | [] => Skip
  | c :: _ => if c =? 35 then Skip
              else match str with
                   | None => Wrong
                   | Some [] => Wrong
                   | Some s => match argv_split s true with SArgs a => Dir k s a | _ => Wrong end
                   end
  end.
Definition split_line (l : list Z) : lineval :=
  match strip_line l with
  | [] => Skip
  | s => match strdelim s with
         | None => Skip
         | Some ([], None) => Skip
         | Some ([], Some t) => match strdelim t with None => Skip | Some (k, str) => split_rest k str end
         | Some (k, str) => split_rest k str
         end
  end.

(** ** Match lines *)

(** struct connection_info, servconf.h 253-266. *)
Record conn := mkConn { ci_user : option (list Z); ci_user_invalid : bool; ci_host : option (list Z); ci_address : option (list Z);
  ci_laddress : option (list Z); ci_lport : Z; ci_rdomain : option (list Z); ci_test : bool }.

Definition is1 (r : option Z) : bool := match r with Some v => v =? 1 | None => false end.
(** ga_match_pattern_list, groupaccess.c 100-117, over the group names. *)
Fixpoint ga_match_list (gs : list (list Z)) (pat : list Z) (found : bool) : bool :=
  match gs with
  | [] => found
  | g :: r => match match_pattern_list g pat false with
              | Some v => if v =? -1 then false else ga_match_list r pat (if v =? 1 then true else found)
              | None => false
              end
  end.
(** strprefix(attrib, "name=", 1) for one of the names of 1094-1101: the text after "=". *)
Definition attr_names : list (list Z) := [bs "user"; bs "group"; bs "host"; bs "address"; bs "localaddress"; bs "localport"; bs "rdomain"; bs "version"].
Definition attr_eq (w : list Z) : option (list Z * list Z) :=
  match strchr_cut 61 w with
  | Some (n, v) => if existsb (strcaseeq n) attr_names then Some (n, v) else None
  | None => None
  end.

Section WithEnv.
Variable E : env.

(** match_cfg_line_group, 997-1022. *)
Definition match_group (user : list Z) (arg : list Z) : bool :=
  match e_groups E user with
  | None => false
  | Some [] => false
  | Some gs => ga_match_list gs arg false
  end.
(** One criterion with argument, 1114-1245: None for an error or fatal, else whether it keeps the result. *)
Definition missing (ci : option conn) (field : conn -> option (list Z)) : bool :=
  match ci with None => true | Some c => ci_test c && match field c with None => true | Some _ => false end end.
Definition addr_crit (ci : option conn) (field : conn -> option (list Z)) (arg : list Z) : option bool :=
  if missing ci field then if addr_match_list (e_pton E) None arg =? 0 then Some false else None
  else match ci with
       | None => None
       | Some c => match field c with
                   | None => None
                   | Some a => let v := addr_match_list (e_pton E) (Some a) arg in
                               if v =? 1 then Some true else if v =? -2 then None else Some false
                   end
       end.
Definition text_crit (ci : option conn) (field : conn -> option (list Z)) (f : list Z -> bool) : option bool :=
  if missing ci field then Some false
  else match ci with
       | None => None
       | Some c => match field c with None => None | Some t => Some (f t) end
       end.
Definition crit (ci : option conn) (attrib arg : list Z) : option bool :=
  if strcaseeq attrib (bs "user") then text_crit ci ci_user (fun u => is1 (match_pattern_list u arg false))
  else if strcaseeq attrib (bs "group") then text_crit ci ci_user (fun u => match_group u arg)
  else if strcaseeq attrib (bs "host") then text_crit ci ci_host (fun h => is1 (match_hostname h arg))
  else if strcaseeq attrib (bs "address") then addr_crit ci ci_address arg
  else if strcaseeq attrib (bs "localaddress") then addr_crit ci ci_laddress arg
  else if strcaseeq attrib (bs "localport") then
    let port := a2port (e_serv E) arg in
    if port =? -1 then None
    else match ci with
         | None => Some false
         | Some c => if ci_test c && (ci_lport c =? -1) then Some false
                     else if ci_lport c =? 0 then None else Some (port =? ci_lport c)
         end
  else if strcaseeq attrib (bs "rdomain") then text_crit ci ci_rdomain (fun r => is1 (match_pattern_list r arg false))
  else if strcaseeq attrib (bs "version") then Some (is1 (match_pattern_list (e_release E) arg false))
  else None.
(** match_cfg_line, 1036-1258: the result and the arguments left over; None for -1 or fatal. *)
Definition starts_hash (w : list Z) : bool := match w with c :: _ => c =? 35 | [] => false end.
Fixpoint match_loop (ci : option conn) (ws : list (list Z)) (attributes : nat) (result : bool) : option (bool * list (list Z)) :=
  match ws with
  | [] => match attributes with O => None | S _ => Some (result, []) end
  | w :: r =>
      if starts_hash w then match attributes with O => None | S _ => Some (result, []) end
      else if strcaseeq w (bs "all") then
        match attributes with
        | S _ => None
        | O => match r with
               | [] => Some (true, [])
               | a :: r' => if is_nil a then Some (true, r') else if starts_hash a then Some (true, []) else None
               end
        end
      else if strcaseeq w (bs "invalid-user") then
        match_loop ci r (S attributes) (match ci with None => false | Some c => if ci_user_invalid c then result else false end)
      else match attr_eq w with
           | Some (n, arg) =>
               if is_nil arg || starts_hash arg then None
               else match crit ci n arg with
                    | None => None
                    | Some b => match_loop ci r (S attributes) (if b then result else false)
                    end
           | None =>
               match r with
               | [] => None
               | arg :: r' =>
                   if is_nil arg || starts_hash arg then None
                   else match crit ci w arg with
                        | None => None
                        | Some b => match_loop ci r' (S attributes) (if b then result else false)
                        end
               end
           end
  end.
Definition match_cfg_line (ci : option conn) (ws : list (list Z)) : option (bool * list (list Z)) := match_loop ci ws 0 true.

(** ** The arguments of a directive *)

Fixpoint state_value (t : list (list Z * Z)) (w : list Z) : option Z :=
  match t with [] => None | (k, v) :: r => if strcaseeq w k then Some v else state_value r w end.
(** tunmode_desc is searched with strcmp, 2263-2268. *)
Fixpoint exact_value (t : list (list Z * Z)) (w : list Z) : option Z :=
  match t with [] => None | (k, v) :: r => if beqb w k then Some v else exact_value r w end.
(** parse_time, 1429-1439. *)
Definition do_time (act : bool) (i : iopt) (ws : list (list Z)) (o : opts) : option opts :=
  match ws with
  | [w] => if is_nil w then None else let v := convtime w in if v =? -1 then None else Some (set_int act i v o)
  | _ => None
  end.
(** match_user(NULL, NULL, NULL, pattern), match.c 242-248. *)
Definition user_pattern_ok (p : list Z) : bool :=
  match strrchr_cut 64 p with None => true | Some (_, b) => negb (addr_match_list (e_pton E) None b =? -2) end.
(** lookup_setenv_in_list, misc.c 2937-2952. *)
Definition env_name (w : list Z) : option (list Z) := option_map fst (strchr_cut 61 w).
Definition env_known (w : list Z) (l : list (list Z)) : bool :=
  match env_name w with
  | None => false
  | Some n => existsb (fun x => match env_name x with Some m => beqb n m | None => false end) l
  end.
(** The argument loops of the options that keep the first line only; [strs] collects what is kept, None is an error.
    1786-1812 (LogVerbose), 2130-2148 (AuthorizedKeysFile), 2195-2210 (SetEnv), 2419-2459 (PermitOpen and
    PermitListen), 2593-2615 (AuthenticationMethods), 2670-2690 (ChannelTimeout). *)
Fixpoint once_loop (k : once) (ws : list (list Z)) (any : bool) (strs : list (list Z)) : option (list (list Z)) :=
  match ws with
  | [] => if is_nil strs then None else Some strs
  | w :: r =>
      match k with
      | KeysFiles => if is_nil w then None else once_loop k r any (strs ++ [e_tilde E w])
      | SetEnv => if is_nil w || match env_name w with None => true | Some _ => false end then None
                  else once_loop k r any (if env_known w strs then strs else strs ++ [w])
      | AuthMethods =>
          if beqb w (bs "any") then if is_nil strs then once_loop k r true (strs ++ [w]) else None
          else if any then None
          else if e_methods E w then once_loop k r any (strs ++ [w]) else None
      | PermitListen | PermitOpen =>
          if beqb w (bs "any") || beqb w (bs "none") then if is_nil strs then once_loop k r any (strs ++ [w]) else None
          else match e_permit E (match k with PermitListen => true | _ => false end) w with
               | None => None
               | Some t => once_loop k r any (strs ++ [t])
               end
      | Timeouts =>
          if strcaseeq w (bs "none") then if is_nil strs && is_nil r then once_loop k r any (strs ++ [w]) else None
          else match parse_pattern_interval w with None => None | Some _ => once_loop k r any (strs ++ [w]) end
      | Verbose =>
          if is_nil w then None
          else if strcaseeq w (bs "none") && negb (is_nil strs && is_nil r) then None
          else once_loop k r any (strs ++ [w])
      end
  end.
(** PubkeyAuthOptions, 1613-1630: touch-required is 1, verify-required 2 (servconf.h). *)
Fixpoint pubkey_opts (ws : list (list Z)) (v : Z) : option Z :=
  match ws with
  | [] => Some v
  | w :: r => if strcaseeq w (bs "none") then pubkey_opts r v
              else if strcaseeq w (bs "touch-required") then pubkey_opts r (Z.lor v 1)
              else if strcaseeq w (bs "verify-required") then pubkey_opts r (Z.lor v 2) else None
  end.
Definition algos_arg (ca : bool) (w : list Z) : bool :=
  match w with
  | [] => false
  | c :: r => (c =? 45) || e_algos E ca (if (c =? 43) || (c =? 94) then r else w)
  end.
(** Subsystem, 1946-2004. *)
Definition do_subsystem (act : bool) (ws : list (list Z)) (o : opts) : option opts :=
  match ws with
  | [] => None
  | n :: r =>
      if is_nil n then None
      else if negb act then Some o
      else if existsb (beqb n) (firstn (o_nsub o) (o_subname o)) then Some o
      else match r with
           | [] => None
           | c :: r' => if is_nil c then None
                        else let tail := argv_assemble r' in
                             Some (mkOpts (o_int o) (o_str o) (o_arr o) (S (o_nsub o)) (o_subname o ++ [n]) (o_subcmd o ++ [c])
                                     (o_subargs o ++ [argv_assemble [c] ++ (if is_nil tail then [] else 32 :: tail)]))
           end
  end.
(** The switch, 1389-2722, except Match and Include; None for fatal or an error return, including the check for left-over
    arguments, 2724-2728. *)
Definition exec (p : op) (k rest : list Z) (ws : list (list Z)) (act : bool) (o : opts) : option opts :=
  match p with
  | OMulti i t => match ws with [w] => option_map (fun v => set_int act i v o) (state_value t w) | _ => None end
  | OTime i => do_time act i ws o
  | ONum i => match ws with [w] => option_map (fun v => set_int act i v o) (atoi_err w) | _ => None end
  | OPubkeyOptions => option_map (fun v => set_int act pubkey_auth_options v o) (pubkey_opts ws 0)
  | OTunnel => match ws with [w] => option_map (fun v => set_int act permit_tun v o) (exact_value t_tun w) | _ => None end
  | ORekey =>
      match ws with
      | [] => None
      | w :: r =>
          if is_nil w then None
          else match (if beqb w (bs "default") then Some 0
                      else match e_scaled E w with
                           | None => None
                           | Some v => if negb (v =? 0) && (v <? 16) then None else Some v
                           end) with
               | None => None
               | Some v =>
                   let o1 := set_int act rekey_limit v o in
                   match r with
                   | [] => Some o1
                   | t :: r' => if beqb t (bs "none") then if is_nil r' then Some o1 else None else do_time act rekey_interval r o1
                   end
               end
      end
  | OIPQoS =>
      match ws with
      | [w] => if is_nil w then None
               else option_map (fun v => force_int act ip_qos_bulk v (force_int act ip_qos_interactive v o)) (e_ipqos E w)
      | [w; w2] => if is_nil w then None
                   else match e_ipqos E w with
                        | None => None
                        | Some v => option_map (fun v2 => force_int act ip_qos_bulk v2 (force_int act ip_qos_interactive v o)) (e_ipqos E w2)
                        end
      | _ => None
      end
  | OMask => match ws with
             | [w] => if is_nil w then None
                      else match e_octal E w with
                           | None => None
                           | Some v => if (v <? 0) || (511 <? v) then None else Some (force_int act streamlocal_bind_mask v o)
                           end
             | _ => None
             end
  | OUnused => match ws with
               | w :: r => if strcaseeq w (bs "none") then if is_nil r then Some (force_int act unused_connection_timeout 0 o) else None
                           else do_time act unused_connection_timeout ws o
               | [] => None
               end
  | OFile s => match ws with [w] => if is_nil w then None else Some (set_str act s (e_derel E w) o) | _ => None end
  | OTilde s => match ws with [w] => if is_nil w then None else Some (set_str act s (e_tilde E w) o) | _ => None end
  | OWord s => match ws with [w] => if is_nil w then None else Some (set_str act s w o) | _ => None end
  | OAlgos s ca => match ws with [w] => if algos_arg ca w then Some (set_str act s w o) else None | _ => None end
  | OForce => Some (set_str act adm_forced_command (skip_white rest) o)
  | OCommand s => let t := skip_white rest in
                  if match t with c :: _ => c =? 47 | [] => false end || strcaseeq t (bs "none") then Some (set_str act s t o) else None
  | OUsers a => if is_nil ws || negb (forallb (fun w => negb (is_nil w) && user_pattern_ok w) ws) then None else Some (append_arr act a ws o)
  | OGroups a => if is_nil ws || negb (forallb (fun w => negb (is_nil w)) ws) then None else Some (append_arr act a ws o)
  | OAcceptEnv => if is_nil ws || negb (forallb (fun w => negb (is_nil w) && negb (existsb (Z.eqb 61) w)) ws) then None
                  else Some (append_arr act accept_env ws o)
  | OOnce a q => option_map (fun l => once_arr act a l o) (once_loop q ws false [])
  | OSubsystem => do_subsystem act ws o
  | OIgnored => Some o
  | ORDomain => None
  | OOther => if e_other E k rest ws then Some o else None
  | OMatch | OInclude => None
  end.

(** ** Files *)

(** load_server_config, 2747-2783: leading blanks go from every line, and a NUL hides the rest of its line with the newline. *)
Fixpoint load (start dead : bool) (s : list Z) : list Z :=
  match s with
  | [] => []
  | c :: r => if c =? 10 then if dead then load true false r else 10 :: load true false r
              else if dead then load false true r
              else if c =? 0 then load false true r
              else if start && ((c =? 32) || (c =? 9) || (c =? 13)) then load true false r
              else c :: load false false r
  end.
(** struct include_item, servconf.h: a selector with a file it led to, or with none. *)
Record item := mkItem { it_sel : list Z; it_file : option (list Z * list Z) }.
(** The state while a file is read: the options, *activep, the two bits of *inc_flags, and the cache of included files. *)
Record pst := mkSt { p_opts : opts; p_act : bool; p_never : bool; p_only : bool; p_inc : list item }.
Definition with_opts (s : pst) (o : opts) : pst := mkSt o (p_act s) (p_never s) (p_only s) (p_inc s).

(** The kind of call made for an included file: text, NEVERMATCH, MATCH_ONLY, *activep, cache and options; the result is
    the options and the cache, None for fatal. *)
Definition reader := list Z -> bool -> bool -> bool -> list item -> opts -> option (opts * list item).
Section Lines.
Variable read : reader.
Variable ci : option conn.

(** Lines 2319-2336 and 2345-2382 for one argument.  The flags given to the included file are those of 2329-2331; *activep
    is restored after each file. *)
Definition selector (w : list Z) : list Z :=
  match w with c :: _ => if (c =? 47) || (c =? 126) then w else e_sshdir E ++ 47 :: w | [] => [] end.
Definition nested (s : pst) (text : list Z) (inc : list item) (o : opts) : option (opts * list item) :=
  read text (negb (p_only s) && negb (p_act s)) (p_only s) (p_act s) inc o.
Fixpoint inc_cached (s : pst) (its : list item) (inc : list item) (o : opts) : option (opts * list item) :=
  match its with
  | [] => Some (o, inc)
  | it :: r => match it_file it with
               | None => inc_cached s r inc o
               | Some (_, text) => match nested s text inc o with
                                   | None => None
                                   | Some (o', inc') => inc_cached s r inc' o'
                                   end
               end
  end.
Fixpoint inc_new (s : pst) (sel : list Z) (paths : list (list Z)) (inc : list item) (o : opts) : option (opts * list item) :=
  match paths with
  | [] => Some (o, inc)
  | f :: r => match e_read E f with
              | None => None
              | Some raw => let text := load true false raw in
                            match nested s text inc o with
                            | None => None
                            | Some (o', inc') => inc_new s sel r (inc' ++ [mkItem sel (Some (f, text))]) o'
                            end
              end
  end.
Definition inc_one (s : pst) (w : list Z) (inc : list item) (o : opts) : option (opts * list item) :=
  let sel := selector w in
  match filter (fun it => beqb (it_sel it) sel) inc with
  | [] => match e_glob E sel with
          | None => None
          | Some [] => Some (o, inc ++ [mkItem sel None])
          | Some paths => inc_new s sel paths inc o
          end
  | its => inc_cached s its inc o
  end.
Fixpoint inc_all (s : pst) (ws : list (list Z)) (inc : list item) (o : opts) : option (opts * list item) :=
  match ws with
  | [] => Some (o, inc)
  | w :: r => if is_nil w then None
              else match inc_one s w inc o with
                   | None => None
                   | Some (o', inc') => inc_all s r inc' o'
                   end
  end.
(** process_server_config_line_depth, 1315-2735, for a line of a file.  An error return ends in the fatal of 3041-3043
    whatever the other lines say, so the model stops at once. *)
Definition process_line (l : list Z) (s : pst) : option pst :=
  match split_line l with
  | Skip => Some s
  | Wrong => None
  | Dir k rest ws =>
      match find_keyword keywords k with
      | None => if p_act s then None else match ci with None => None | Some _ => Some s end
      | Some (p, in_match) =>
          if negb (p_act s) && negb in_match then match ci with None => None | Some _ => Some s end
          else match p with
               | OMatch => match match_cfg_line (if p_never s then None else ci) ws with
                           | None => None
                           | Some (v, left_over) =>
                               if is_nil left_over
                               then Some (mkSt (p_opts s) (if p_never s then false else v) (p_never s) false (p_inc s))
                               else None
                           end
               | OInclude => if is_nil ws then None
                             else option_map (fun r => mkSt (fst r) (p_act s) (p_never s) (p_only s) (snd r))
                                    (inc_all s ws (p_inc s) (p_opts s))
               | _ => option_map (with_opts s) (exec p k rest ws (p_act s) (p_opts s))
               end
      end
  end.
Fixpoint lines_loop (ls : list (list Z)) (s : pst) : option pst :=
  match ls with
  | [] => Some s
  | l :: r => match process_line l s with None => None | Some s' => lines_loop r s' end
  end.
End Lines.

(** parse_server_config_depth, 3017-3044; the fuel is SERVCONF_MAX_DEPTH + 1 - depth. *)
Fixpoint parse_depth (fuel : nat) (ci : option conn) : reader :=
  fun text never only act inc o =>
  match fuel with
  | O => None
  | S f => match lines_loop (parse_depth f ci) ci (split 10 text) (mkSt o act never only inc) with
           | None => None
           | Some s => Some (p_opts s, p_inc s)
           end
  end.
(** parse_server_config, 3046-3056 (listen addresses are not modelled). *)
Definition MAX_DEPTH : nat := 16.
Definition parse_config (ci : option conn) (text : list Z) (inc : list item) (o : opts) : option (opts * list item) :=
  match ci with
  | None => parse_depth (S MAX_DEPTH) None text false false true inc o
  | Some _ => parse_depth (S MAX_DEPTH) ci text false true false inc o
  end.
(** A directive given with -o: process_server_config_line with activep == NULL, 1373-1376, 2297-2300, 2393-2395. *)
Definition cmdline_option (l : list Z) (o : opts) : option opts :=
  match split_line l with
  | Skip => Some o
  | Wrong => None
  | Dir k rest ws => match find_keyword keywords k with
                     | None => None
                     | Some (p, _) => match p with OMatch | OInclude => None | _ => exec p k rest ws true o end
                     end
  end.
Fixpoint cmdline_options (ls : list (list Z)) (o : opts) : option opts :=
  match ls with [] => Some o | l :: r => match cmdline_option l o with None => None | Some o' => cmdline_options r o' end end.

(** ** Defaults, 295-545 *)
Definition default_int (i : iopt) : Z :=
  match i with
  | password_authentication => 1 | pubkey_authentication => 1 | pubkey_auth_options => 0 | hostbased_authentication => 0
  | hostbased_uses_name_from_packet_only => 0 | kbd_interactive_authentication => 1 | permit_root_login => 2
  | permit_empty_passwd => 0 | ignore_rhosts => 1 | allow_tcp_forwarding => 3 | allow_streamlocal_forwarding => 3
  | allow_agent_forwarding => 1 | disable_forwarding => 0 | expose_userauth_info => 0 | permit_tun => 0 | gateway_ports => 0
  | streamlocal_bind_unlink => 0 | x11_display_offset => 10 | x11_forwarding => 0 | x11_use_localhost => 1 | permit_tty => 1
  | permit_user_rc => 1 | max_sessions => 10 | max_authtries => 6 | client_alive_count_max => 3 | client_alive_interval => 0
  | ip_qos_interactive => 72 | ip_qos_bulk => 32 | rekey_limit => 0 | rekey_interval => 0 | log_level => 3
  | required_rsa_size => 1024 | unused_connection_timeout => 0 | refuse_connection => 0 | streamlocal_bind_mask => 127
  | login_grace_time => 120 | strict_modes => 1 | tcp_keep_alive => 1 | use_dns => 0 | print_motd => 1 | print_lastlog => 1
  | ignore_user_known_hosts => 0 | compression => 2
  end.
(** option_clear_or_none, 223-227, and the CLEAR_ON_NONE list, 521-533. *)
Definition clear_none (v : option (list Z)) : option (list Z) :=
  match v with Some t => if strcaseeq t (bs "none") then None else v | None => None end.
Definition cleared (s : sopt) : bool :=
  match s with
  | banner | trusted_user_ca_keys | revoked_keys_file | authorized_principals_file | adm_forced_command | chroot_directory => true
  | _ => false
  end.
Definition default_keys_files : list (list Z) := [bs ".ssh/authorized_keys"; bs ".ssh/authorized_keys2"].
Definition single_word (l : list (list Z)) (w : list Z) : bool := match l with [x] => strcaseeq x w | _ => false end.
(** fill_default_server_options; the assembly of algorithm lists (C17) is left out. *)
Definition fill_default (o : opts) : opts :=
  mkOpts (fun i => if o_int o i =? -1 then default_int i else o_int o i)
         (fun s => if cleared s then clear_none (o_str o s) else o_str o s)
         (fun a => match a with
                   | authorized_keys_files => if is_nil (o_arr o a) then default_keys_files else o_arr o a
                   | channel_timeouts => if single_word (o_arr o a) (bs "none") then [] else o_arr o a
                   | auth_methods => if single_word (o_arr o a) (bs "any") then [] else o_arr o a
                   | _ => o_arr o a
                   end)
         (o_nsub o) (o_subname o) (o_subcmd o) (o_subargs o).

(** ** Applying the settings of a connection, 2907-3010 *)
(** The integers of M_CP_INTOPT, 2915-2961. *)
Definition copied_int (i : iopt) : bool :=
  match i with
  | login_grace_time | strict_modes | tcp_keep_alive | use_dns | print_motd | print_lastlog | ignore_user_known_hosts | compression => false
  | _ => true
  end.
(** M_CP_STRARRAYOPT, 2970-2981: the loop frees dst->s[0 .. n-1] for the counter n of dst; None when that reads outside
    the array. *)
Definition cp_arr (n : nat) (dst src : list (list Z)) (nsrc : nat) : option (list (list Z)) :=
  match nsrc with
  | O => Some dst
  | S _ => if (n <=? length dst)%nat then Some (firstn nsrc src) else None
  end.
(** servconf_merge_subsystems, 2860-2898, for subsystem [i] of src. *)
Fixpoint replace_nth (n : nat) (v : list Z) (l : list (list Z)) : list (list Z) :=
  match n, l with
  | O, _ :: r => v :: r
  | S k, x :: r => x :: replace_nth k v r
  | _, [] => []
  end.
Fixpoint find_name (n : list Z) (l : list (list Z)) : option nat :=
  match l with [] => None | x :: r => if beqb n x then Some 0%nat else option_map S (find_name n r) end.
Definition merge_one (n c a : list Z) (o : opts) : opts :=
  match find_name n (firstn (o_nsub o) (o_subname o)) with
  | Some j => mkOpts (o_int o) (o_str o) (o_arr o) (o_nsub o) (o_subname o) (replace_nth j c (o_subcmd o)) (replace_nth j a (o_subargs o))
  | None => mkOpts (o_int o) (o_str o) (o_arr o) (S (o_nsub o)) (firstn (o_nsub o) (o_subname o) ++ [n])
              (firstn (o_nsub o) (o_subcmd o) ++ [c]) (firstn (o_nsub o) (o_subargs o) ++ [a])
  end.
Fixpoint merge_subsystems (ns cs xs : list (list Z)) (o : opts) : opts :=
  match ns, cs, xs with
  | n :: ns', c :: cs', x :: xs' => merge_subsystems ns' cs' xs' (merge_one n c x o)
  | _, _, _ => o
  end.
(** copy_set_server_options(dst, src, preauth); None for undefined behaviour.  The arrays other than the subsystems have
    each their own counter, equal to their length.  The strings of COPY_MATCH_STRING_OPTS, servconf.h 289-319, are all but
    ForceCommand and ChrootDirectory, which are copied after authentication only. *)
Definition late_str (s : sopt) : bool := match s with adm_forced_command | chroot_directory => true | _ => false end.
Definition copy_set (dst src : opts) (preauth : bool) : option opts :=
  match cp_arr (o_nsub dst) (o_subname dst) (o_subname src) (o_nsub src) with
  | None => None
  | Some names =>
      let n := match o_nsub src with O => o_nsub dst | k => k end in
      match cp_arr n (o_subcmd dst) (o_subcmd src) (o_nsub src) with
      | None => None
      | Some cmds =>
          match cp_arr n (o_subargs dst) (o_subargs src) (o_nsub src) with
          | None => None
          | Some args =>
              let o := mkOpts
                (fun i => if copied_int i && negb (o_int src i =? -1) then o_int src i else o_int dst i)
                (fun s => if late_str s
                          then if preauth then o_str dst s
                               else clear_none (match o_str src s with Some v => Some v | None => o_str dst s end)
                          else match o_str src s with Some v => Some v | None => o_str dst s end)
                (fun a => if is_nil (o_arr src a) then o_arr dst a else o_arr src a)
                n names cmds args in
              Some (if preauth then o
                    else merge_subsystems (firstn (o_nsub src) (o_subname src)) (firstn (o_nsub src) (o_subcmd src))
                           (firstn (o_nsub src) (o_subargs src)) o)
          end
      end
  end.

(** ** The whole *)
Inductive outcome := Settings (o : opts) | Refused | Undefined.
(** The start of sshd, sshd.c 1504-1537: the configuration file and whatever it includes are read; the result is the text
    and the cache handed to every connection. *)
Definition start (cmdline : list (list Z)) (raw : list Z) : option (list Z * list item) :=
  match cmdline_options cmdline init_opts with
  | None => None
  | Some o => let text := load true false raw in
              match parse_config None text [] o with
              | None => None
              | Some (_, inc) => Some (text, inc)
              end
  end.
(** A connection: sshd-session.c 1040-1045 reads the text again; then parse_server_match_config, 2812-2822, called from
    getpwnamallow (auth.c 480), reads it a second time for the connection and applies what it finds. *)
Definition main_settings (cmdline : list (list Z)) (text : list Z) (inc : list item) : option (opts * list item) :=
  match cmdline_options cmdline init_opts with
  | None => None
  | Some o => match parse_config None text inc o with
              | None => None
              | Some (o', inc') => Some (fill_default o', inc')
              end
  end.
Definition connection (cmdline : list (list Z)) (text : list Z) (inc : list item) (c : conn) : outcome :=
  match main_settings cmdline text inc with
  | None => Refused
  | Some (o, inc1) =>
      match parse_config (Some c) text inc1 init_opts with
      | None => Refused
      | Some (mo, _) => match copy_set o mo false with None => Undefined | Some r => Settings r end
      end
  end.
End WithEnv.
