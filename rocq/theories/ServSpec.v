(** What a server configuration says.  The files are first unfolded into the list
    of directives in the order they are read, each with the conditions (the Match
    lines) it stands under; what applies to a connection is read off that list. *)
From Coq Require Import String.
From Verif Require Import Base Text MatchModel MiscNumModel ArgvModel AddrModel ServModel.
Local Open Scope Z_scope.

(** Keywords and option words are compared without regard to case. *)
Definition spelled (w : list Z) (s : string) : Prop := map tolower w = bs s.

(** A directive: keyword, the text after it, its arguments. *)
Record directive := mkDir { d_key : list Z; d_rest : list Z; d_args : list (list Z) }.
(** A condition is the argument list of a Match line. *)
Definition cond := list (list Z).

(** ** Lines *)
Definition blank (c : Z) : Prop := c = 32 \/ c = 9 \/ c = 13 \/ c = 10.
(** What may stand between the keyword and its arguments: blanks, or an equals sign with or without blanks around it. *)
Inductive separates : list Z -> Prop :=
| sep_blanks : forall s, s <> [] -> Forall blank s -> separates s
| sep_equals : forall s t, Forall blank s -> Forall blank t -> separates (s ++ 61 :: t).

(** ** Unfolding
    [files sel] are the texts that an Include of [sel] brings in.  [reads outer own
    ls out]: the lines [ls], standing under the conditions [outer] because of the
    place the file is included from and under [own] because of the Match line last
    seen in this file, hold the directives [out]. *)
Section Unfold.
Variable dir : list Z.
Variable files : list Z -> list (list Z).
(** Relative names are relative to the configuration directory. *)
Definition full_name (w : list Z) : list Z :=
  match w with c :: _ => if (c =? 47) || (c =? 126) then w else dir ++ 47 :: w | [] => [] end.
Inductive reads : list cond -> list cond -> list (list Z) -> list (list cond * directive) -> Prop :=
| r_end : forall outer own, reads outer own [] []
| r_skip : forall outer own l ls out, split_line l = Skip -> reads outer own ls out -> reads outer own (l :: ls) out
| r_match : forall outer own l ls k rest ws out, split_line l = Dir k rest ws -> spelled k "match" ->
    reads outer [ws] ls out -> reads outer own (l :: ls) out
| r_include : forall outer own l ls k rest ws out1 out, split_line l = Dir k rest ws -> spelled k "include" ->
    included (outer ++ own) ws out1 -> reads outer own ls out -> reads outer own (l :: ls) (out1 ++ out)
| r_other : forall outer own l ls k rest ws out, split_line l = Dir k rest ws -> ~ spelled k "match" -> ~ spelled k "include" ->
    reads outer own ls out -> reads outer own (l :: ls) ((outer ++ own, mkDir k rest ws) :: out)
with included : list cond -> list (list Z) -> list (list cond * directive) -> Prop :=
| i_end : forall ctx, included ctx [] []
| i_name : forall ctx w ws o1 o2, in_files ctx (files (full_name w)) o1 -> included ctx ws o2 -> included ctx (w :: ws) (o1 ++ o2)
with in_files : list cond -> list (list Z) -> list (list cond * directive) -> Prop :=
| f_end : forall ctx, in_files ctx [] []
| f_text : forall ctx t ts o1 o2, reads ctx [] (split 10 t) o1 -> in_files ctx ts o2 -> in_files ctx (t :: ts) (o1 ++ o2).
Definition unfolds (text : list Z) (out : list (list cond * directive)) : Prop := reads [] [] (split 10 text) out.
End Unfold.

(** The texts a cache holds for a selector, in order. *)
Definition cached_texts (inc : list item) (sel : list Z) : list (list Z) :=
  flat_map (fun it => if beqb (it_sel it) sel then match it_file it with Some (_, t) => [t] | None => [] end else []) inc.

(** Everything that the text and the cached files ask for is in the cache. *)
Definition self_contained (dir : list Z) (inc : list item) (text : list Z) : Prop :=
  forall t l k rest ws w, (t = text \/ exists it f, In it inc /\ it_file it = Some (f, t)) ->
    In l (split 10 t) -> split_line l = Dir k rest ws -> spelled k "include" -> In w ws ->
    exists it, In it inc /\ it_sel it = full_name dir w.
(** A file as it is taken in: lines lose their leading blanks, and a NUL hides the rest of its line along with the newline. *)
Fixpoint lead (l : list Z) : list Z := match l with c :: r => if (c =? 32) || (c =? 9) || (c =? 13) then lead r else l | [] => [] end.
Fixpoint visible (l : list Z) : list Z := match l with c :: r => if c =? 0 then [] else c :: visible r | [] => [] end.
Fixpoint taken_in (ls : list (list Z)) : list Z :=
  match ls with
  | [] => []
  | [l] => lead (visible l)
  | l :: r => lead (visible l) ++ (if existsb (Z.eqb 0) l then [] else [10]) ++ taken_in r
  end.
(** What is cached for a selector are the files it led to, with their content. *)
Definition genuine (E : env) (inc : list item) : Prop :=
  forall it, In it inc -> exists paths, e_glob E (it_sel it) = Some paths /\
    match it_file it with
    | None => paths = []
    | Some (f, t) => In f paths /\ exists raw, e_read E f = Some raw /\ t = taken_in (split 10 raw)
    end /\
    forall f, In f paths -> exists t, In (mkItem (it_sel it) (Some (f, t))) inc.

(** ** Conditions *)
Inductive criterion := CAll | CInvalidUser | CAttr (name arg : list Z).
(** How the words of a Match line read: "all" alone, or a sequence of "invalid-user", "name arg" and "name=arg"; a word
    starting with '#' ends it. *)
Inductive criteria : list (list Z) -> list criterion -> Prop :=
| k_all : forall w r, spelled w "all" -> (r = [] \/ r = [[]] \/ exists c r', r = (35 :: c) :: r') -> criteria (w :: r) [CAll]
| k_seq : forall ws cs, sequence ws cs -> cs <> [] -> criteria ws cs
with sequence : list (list Z) -> list criterion -> Prop :=
| q_end : sequence [] []
| q_hash : forall c r, sequence ((35 :: c) :: r) []
| q_invalid : forall w r cs, spelled w "invalid-user" -> sequence r cs -> sequence (w :: r) (CInvalidUser :: cs)
| q_equals : forall n a r cs, ~ In 61 n -> a <> [] -> In (map tolower n) attr_names -> sequence r cs ->
    sequence ((n ++ 61 :: a) :: r) (CAttr n a :: cs)
| q_words : forall n a r cs, a <> [] -> ~ In 61 n -> sequence r cs -> sequence (n :: a :: r) (CAttr n a :: cs).

Section Conditions.
Variable E : env.
(** When a criterion is met by a connection.  The pattern lists are those of C10, C11 and C13: a list is matched when some
    entry matches and no negated entry does. *)
Definition met (c : conn) (k : criterion) : Prop :=
  match k with
  | CAll => True
  | CInvalidUser => ci_user_invalid c = true
  | CAttr n a =>
      spelled n "user" /\ (exists u, ci_user c = Some u /\ match_pattern_list u a false = Some 1) \/
      spelled n "group" /\ (exists u gs, ci_user c = Some u /\ e_groups E u = Some gs /\
                              (exists g, In g gs /\ match_pattern_list g a false = Some 1) /\
                              (forall g, In g gs -> match_pattern_list g a false <> Some (-1))) \/
      spelled n "host" /\ (exists h, ci_host c = Some h /\ match_pattern_list (map tolower h) a true = Some 1) \/
      spelled n "address" /\ (exists t, ci_address c = Some t /\ addr_match_list (e_pton E) (Some t) a = 1) \/
      spelled n "localaddress" /\ (exists t, ci_laddress c = Some t /\ addr_match_list (e_pton E) (Some t) a = 1) \/
      spelled n "localport" /\ a2port (e_serv E) a = ci_lport c /\ ci_lport c <> -1 \/
      spelled n "rdomain" /\ (exists r, ci_rdomain c = Some r /\ match_pattern_list r a false = Some 1) \/
      spelled n "version" /\ match_pattern_list (e_release E) a false = Some 1
  end.
(** Met by every connection, whatever it is: "all" and the version of the program. *)
Definition always_met (k : criterion) : Prop :=
  match k with
  | CAll => True
  | CInvalidUser => False
  | CAttr n a => spelled n "version" /\ match_pattern_list (e_release E) a false = Some 1
  end.
Definition holds_for (c : conn) (m : cond) : Prop := exists cs, criteria m cs /\ Forall (met c) cs.
Definition holds_always (m : cond) : Prop := exists cs, criteria m cs /\ Forall always_met cs.
(** A directive is conditional if it stands under a Match line. *)
Definition conditional (ctx : list cond) : Prop := ctx <> [].

(** ** The directives that count
    [picks P l l']: l' are the directives of l under conditions satisfying P, in order. *)
Inductive picks (P : list cond -> Prop) : list (list cond * directive) -> list directive -> Prop :=
| p_end : picks P [] []
| p_take : forall ctx d l l', P ctx -> picks P l l' -> picks P ((ctx, d) :: l) (d :: l')
| p_leave : forall ctx d l l', ~ P ctx -> picks P l l' -> picks P ((ctx, d) :: l) l'.
(** For a connection: the conditional ones all of whose conditions hold.  In general: those whose conditions always hold. *)
Definition for_connection (c : conn) (ctx : list cond) : Prop := conditional ctx /\ Forall (holds_for c) ctx.
Definition in_general (ctx : list cond) : Prop := Forall holds_always ctx.

(** ** What a directive sets *)
Definition flag_words : list (string * Z) := [("yes", 1); ("no", 0)]%string.
Definition reads_as (t : list (string * Z)) (w : list Z) (v : Z) : Prop := exists s, In (s, v) t /\ spelled w s.
(** yes/no options. *)
Definition flags : list (string * iopt) := [
  ("PasswordAuthentication", password_authentication); ("PubkeyAuthentication", pubkey_authentication);
  ("DSAAuthentication", pubkey_authentication); ("HostbasedAuthentication", hostbased_authentication);
  ("HostbasedUsesNameFromPacketOnly", hostbased_uses_name_from_packet_only);
  ("KbdInteractiveAuthentication", kbd_interactive_authentication);
  ("ChallengeResponseAuthentication", kbd_interactive_authentication); ("SKeyAuthentication", kbd_interactive_authentication);
  ("PermitEmptyPasswords", permit_empty_passwd); ("AllowAgentForwarding", allow_agent_forwarding);
  ("DisableForwarding", disable_forwarding); ("ExposeAuthInfo", expose_userauth_info);
  ("StreamLocalBindUnlink", streamlocal_bind_unlink); ("X11Forwarding", x11_forwarding); ("X11UseLocalhost", x11_use_localhost);
  ("PermitTTY", permit_tty); ("PermitUserRC", permit_user_rc); ("RefuseConnection", refuse_connection);
  ("StrictModes", strict_modes); ("TCPKeepAlive", tcp_keep_alive); ("KeepAlive", tcp_keep_alive); ("UseDNS", use_dns);
  ("PrintMotd", print_motd); ("PrintLastLog", print_lastlog); ("IgnoreUserKnownHosts", ignore_user_known_hosts)]%string.
(** Options with other words. *)
Definition forwarding_words : list (string * Z) := [("yes", 3); ("all", 3); ("no", 0); ("remote", 1); ("local", 2)]%string.
Definition choices : list (string * iopt * list (string * Z)) := [
  ("PermitRootLogin", permit_root_login,
     [("without-password", 2); ("prohibit-password", 2); ("forced-commands-only", 1); ("yes", 3); ("no", 0)]);
  ("IgnoreRhosts", ignore_rhosts, [("yes", 1); ("no", 0); ("shosts-only", 2)]);
  ("AllowTcpForwarding", allow_tcp_forwarding, forwarding_words);
  ("AllowStreamLocalForwarding", allow_streamlocal_forwarding, forwarding_words);
  ("GatewayPorts", gateway_ports, [("clientspecified", 2); ("yes", 1); ("no", 0)]);
  ("Compression", compression, [("yes", 2); ("delayed", 2); ("no", 0)]);
  ("LogLevel", log_level, [("quiet", 0); ("fatal", 1); ("error", 2); ("info", 3); ("verbose", 4); ("debug", 5); ("debug1", 5);
     ("debug2", 6); ("debug3", 7)])]%string.
Definition numbers : list (string * iopt) := [
  ("X11DisplayOffset", x11_display_offset); ("MaxAuthTries", max_authtries); ("MaxSessions", max_sessions);
  ("ClientAliveCountMax", client_alive_count_max); ("RequiredRSASize", required_rsa_size)]%string.
Definition times : list (string * iopt) := [("LoginGraceTime", login_grace_time); ("ClientAliveInterval", client_alive_interval)]%string.
Definition same_key (k : list Z) (s : string) : Prop := map tolower k = map tolower (bs s).
(** [sets_int d i v]: directive d gives option i the value v. *)
Inductive sets_int : directive -> iopt -> Z -> Prop :=
| s_flag : forall k rest w s i v, In (s, i) flags -> same_key k s -> reads_as flag_words w v -> sets_int (mkDir k rest [w]) i v
| s_choice : forall k rest w s i t v, In (s, i, t) choices -> same_key k s -> reads_as t w v -> sets_int (mkDir k rest [w]) i v
| s_number : forall k rest w s i v, In (s, i) numbers -> same_key k s -> atoi_err w = Some v -> sets_int (mkDir k rest [w]) i v
| s_time : forall k rest w s i v, In (s, i) times -> same_key k s -> convtime w = v -> v <> -1 -> sets_int (mkDir k rest [w]) i v
| s_pubkey : forall k rest ws v, same_key k "PubkeyAuthOptions" ->
    (forall w, In w ws -> spelled w "none" \/ spelled w "touch-required" \/ spelled w "verify-required") ->
    0 <= v < 4 -> (Z.testbit v 0 = true <-> exists w, In w ws /\ spelled w "touch-required") ->
    (Z.testbit v 1 = true <-> exists w, In w ws /\ spelled w "verify-required") ->
    sets_int (mkDir k rest ws) pubkey_auth_options v
| s_tunnel : forall k rest w s v, same_key k "PermitTunnel" ->
    In (s, v) [("no", 0); ("point-to-point", 1); ("ethernet", 2); ("yes", 3)]%string -> w = bs s -> sets_int (mkDir k rest [w]) permit_tun v
| s_limit : forall k rest w ws v, same_key k "RekeyLimit" -> (w = bs "default" /\ v = 0 \/ w <> bs "default" /\ e_scaled E w = Some v) ->
    sets_int (mkDir k rest (w :: ws)) rekey_limit v
| s_interval : forall k rest w t v, same_key k "RekeyLimit" -> t <> bs "none" -> convtime t = v -> v <> -1 ->
    sets_int (mkDir k rest [w; t]) rekey_interval v
| s_qos : forall k rest w ws v, same_key k "IPQoS" -> e_ipqos E w = Some v -> sets_int (mkDir k rest (w :: ws)) ip_qos_interactive v
| s_bulk1 : forall k rest w v, same_key k "IPQoS" -> e_ipqos E w = Some v -> sets_int (mkDir k rest [w]) ip_qos_bulk v
| s_bulk2 : forall k rest w w2 v, same_key k "IPQoS" -> e_ipqos E w2 = Some v -> sets_int (mkDir k rest [w; w2]) ip_qos_bulk v
| s_mask : forall k rest w v, same_key k "StreamLocalBindMask" -> e_octal E w = Some v -> 0 <= v <= 511 -> sets_int (mkDir k rest [w]) streamlocal_bind_mask v
| s_unused : forall k rest w v, same_key k "UnusedConnectionTimeout" -> ~ spelled w "none" -> convtime w = v -> v <> -1 ->
    sets_int (mkDir k rest [w]) unused_connection_timeout v
| s_never : forall k rest w, same_key k "UnusedConnectionTimeout" -> spelled w "none" -> sets_int (mkDir k rest [w]) unused_connection_timeout 0.

Definition file_names : list (string * sopt) := [
  ("Banner", banner); ("TrustedUserCAKeys", trusted_user_ca_keys); ("RevokedKeys", revoked_keys_file)]%string.
Definition plain_words : list (string * sopt) := [
  ("AuthorizedKeysCommandUser", authorized_keys_command_user); ("AuthorizedPrincipalsCommandUser", authorized_principals_command_user);
  ("ChrootDirectory", chroot_directory); ("HostbasedAcceptedAlgorithms", hostbased_accepted_algos);
  ("HostbasedAcceptedKeyTypes", hostbased_accepted_algos); ("PubkeyAcceptedAlgorithms", pubkey_accepted_algos);
  ("PubkeyAcceptedKeyTypes", pubkey_accepted_algos); ("CASignatureAlgorithms", ca_sign_algorithms)]%string.
Definition commands : list (string * sopt) := [
  ("ForceCommand", adm_forced_command); ("AuthorizedKeysCommand", authorized_keys_command);
  ("AuthorizedPrincipalsCommand", authorized_principals_command)]%string.
Inductive sets_str : directive -> sopt -> list Z -> Prop :=
| s_file : forall k rest w s o, In (s, o) file_names -> same_key k s -> sets_str (mkDir k rest [w]) o (e_derel E w)
| s_principals : forall k rest w, same_key k "AuthorizedPrincipalsFile" -> sets_str (mkDir k rest [w]) authorized_principals_file (e_tilde E w)
| s_word : forall k rest w s o, In (s, o) plain_words -> same_key k s -> sets_str (mkDir k rest [w]) o w
| s_command : forall k rest ws s o, In (s, o) commands -> same_key k s -> sets_str (mkDir k rest ws) o (skip_white rest).

(** Lists to which every line adds. *)
Definition growing : list (string * aopt) := [
  ("AllowUsers", allow_users); ("DenyUsers", deny_users); ("AllowGroups", allow_groups); ("DenyGroups", deny_groups);
  ("AcceptEnv", accept_env)]%string.
Definition is_growing (a : aopt) : bool :=
  match a with allow_users | deny_users | allow_groups | deny_groups | accept_env => true | _ => false end.
(** Lists of which the first line counts. *)
Definition plain_lists : list (string * aopt) := [
  ("LogVerbose", log_verbose); ("AuthenticationMethods", auth_methods); ("ChannelTimeout", channel_timeouts)]%string.
(** An environment setting whose name was given before on the line is ignored. *)
Inductive first_of_each : list (list Z) -> list (list Z) -> list (list Z) -> Prop :=
| n_end : forall seen, first_of_each seen [] []
| n_keep : forall seen n v ws l, ~ In 61 n -> ~ In n seen -> first_of_each (n :: seen) ws l -> first_of_each seen ((n ++ 61 :: v) :: ws) ((n ++ 61 :: v) :: l)
| n_drop : forall seen n v ws l, ~ In 61 n -> In n seen -> first_of_each seen ws l -> first_of_each seen ((n ++ 61 :: v) :: ws) l.
Inductive sets_arr : directive -> aopt -> list (list Z) -> Prop :=
| s_grow : forall k rest ws s a, In (s, a) growing -> same_key k s -> sets_arr (mkDir k rest ws) a ws
| s_list : forall k rest ws s a, In (s, a) plain_lists -> same_key k s -> sets_arr (mkDir k rest ws) a ws
| s_keys : forall k rest ws, same_key k "AuthorizedKeysFile" -> sets_arr (mkDir k rest ws) authorized_keys_files (map (e_tilde E) ws)
| s_env : forall k rest ws l, same_key k "SetEnv" -> first_of_each [] ws l -> sets_arr (mkDir k rest ws) setenv l
| s_permit : forall k rest ws s a (listen : bool) l, In (s, a, listen) [("PermitOpen", permitted_opens, false); ("PermitListen", permitted_listens, true)]%string ->
    same_key k s ->
    Forall2 (fun w t => (w = bs "any" \/ w = bs "none") /\ t = w \/ w <> bs "any" /\ w <> bs "none" /\ e_permit E listen w = Some t) ws l ->
    sets_arr (mkDir k rest ws) a l.
End Conditions.

(** ** Which value counts
    The values that a list of directives gives to an option, in order. *)
Inductive values {O V} (sets : directive -> O -> V -> Prop) (o : O) : list directive -> list V -> Prop :=
| v_end : values sets o [] []
| v_take : forall d l v vs, sets d o v -> values sets o l vs -> values sets o (d :: l) (v :: vs)
| v_leave : forall d l vs, (forall v, ~ sets d o v) -> values sets o l vs -> values sets o (d :: l) vs.
Definition first {V} (l : list V) (d : V) : V := hd d l.
Definition last_one {V} (l : list V) (d : V) : V := List.last l d.
(** Options that belong to the whole server: a Match block does not change them. *)
Definition whole_server (i : iopt) : Prop :=
  In i [login_grace_time; strict_modes; tcp_keep_alive; use_dns; print_motd; print_lastlog; ignore_user_known_hosts; compression].
(** Options of which the last value counts, and the one with a rule of its own. *)
Definition last_wins (i : iopt) : Prop := In i [ip_qos_interactive; ip_qos_bulk; streamlocal_bind_mask].
Definition special (i : iopt) : Prop := i = unused_connection_timeout.
(** Directives given on the command line. *)
Inductive given : list (list Z) -> list directive -> Prop :=
| c_end : given [] []
| c_skip : forall l ls ds, split_line l = Skip -> given ls ds -> given (l :: ls) ds
| c_dir : forall l ls k rest ws ds, split_line l = Dir k rest ws -> given ls ds -> given (l :: ls) (mkDir k rest ws :: ds).
(** The defaults as the manual has them, sshd_config.5. *)
Definition documented : list (string * string * iopt) := [
  ("AllowAgentForwarding", "yes", allow_agent_forwarding); ("AllowStreamLocalForwarding", "yes", allow_streamlocal_forwarding);
  ("AllowTcpForwarding", "yes", allow_tcp_forwarding); ("ClientAliveCountMax", "3", client_alive_count_max);
  ("ClientAliveInterval", "0", client_alive_interval); ("Compression", "delayed", compression); ("DisableForwarding", "no", disable_forwarding);
  ("ExposeAuthInfo", "no", expose_userauth_info); ("GatewayPorts", "no", gateway_ports);
  ("HostbasedAuthentication", "no", hostbased_authentication);
  ("HostbasedUsesNameFromPacketOnly", "no", hostbased_uses_name_from_packet_only); ("IgnoreRhosts", "yes", ignore_rhosts);
  ("IgnoreUserKnownHosts", "no", ignore_user_known_hosts); ("KbdInteractiveAuthentication", "yes", kbd_interactive_authentication);
  ("LoginGraceTime", "120", login_grace_time); ("LogLevel", "INFO", log_level); ("MaxAuthTries", "6", max_authtries);
  ("MaxSessions", "10", max_sessions); ("PasswordAuthentication", "yes", password_authentication);
  ("PermitEmptyPasswords", "no", permit_empty_passwd); ("PermitRootLogin", "prohibit-password", permit_root_login);
  ("PermitTTY", "yes", permit_tty); ("PermitTunnel", "no", permit_tun); ("PermitUserRC", "yes", permit_user_rc);
  ("PrintLastLog", "yes", print_lastlog); ("PrintMotd", "yes", print_motd); ("PubkeyAuthentication", "yes", pubkey_authentication);
  ("PubkeyAuthOptions", "none", pubkey_auth_options); ("RefuseConnection", "no", refuse_connection);
  ("RekeyLimit", "default", rekey_limit); ("RequiredRSASize", "1024", required_rsa_size);
  ("StreamLocalBindUnlink", "no", streamlocal_bind_unlink); ("StrictModes", "yes", strict_modes); ("TCPKeepAlive", "yes", tcp_keep_alive);
  ("UnusedConnectionTimeout", "none", unused_connection_timeout); ("UseDNS", "no", use_dns); ("X11DisplayOffset", "10", x11_display_offset);
  ("X11Forwarding", "no", x11_forwarding); ("X11UseLocalhost", "yes", x11_use_localhost)]%string.
(** The machine with other files on its disk. *)
Definition with_files (E : env) (glob : list Z -> option (list (list Z))) (read : list Z -> option (list Z)) : env :=
  mkEnv (e_pton E) (e_serv E) (e_groups E) glob read (e_sshdir E) (e_release E) (e_tilde E) (e_derel E) (e_algos E) (e_methods E)
    (e_permit E) (e_ipqos E) (e_scaled E) (e_octal E) (e_other E).
(** A text "none" switches an option off. *)
Definition off (v : option (list Z)) : option (list Z) :=
  match v with Some t => if list_eq_dec Z.eq_dec (map tolower t) (bs "none") then None else v | None => None end.

(** The keywords that may stand under a Match line, sshd_config.5, "Match" (Include aside), and those of the manual that may
    not.  Subsystem, LogVerbose and RequiredRSASize are taken there although the manual does not list them. *)
Definition in_match_blocks : list string := [
  "AcceptEnv"; "AllowAgentForwarding"; "AllowGroups"; "AllowStreamLocalForwarding"; "AllowTcpForwarding"; "AllowUsers"; 
  "AuthenticationMethods"; "AuthorizedKeysCommand"; "AuthorizedKeysCommandUser"; "AuthorizedKeysFile"; 
  "AuthorizedPrincipalsCommand"; "AuthorizedPrincipalsCommandUser"; "AuthorizedPrincipalsFile"; "Banner"; 
  "CASignatureAlgorithms"; "ChannelTimeout"; "ChrootDirectory"; "ClientAliveCountMax"; "ClientAliveInterval"; "DenyGroups"; 
  "DenyUsers"; "DisableForwarding"; "ExposeAuthInfo"; "ForceCommand"; "GatewayPorts"; "GSSAPIAuthentication"; 
  "HostbasedAcceptedAlgorithms"; "HostbasedAuthentication"; "HostbasedUsesNameFromPacketOnly"; "IgnoreRhosts"; "IPQoS"; 
  "KbdInteractiveAuthentication"; "KerberosAuthentication"; "LogLevel"; "MaxAuthTries"; "MaxSessions"; "PAMServiceName"; 
  "PasswordAuthentication"; "PermitEmptyPasswords"; "PermitListen"; "PermitOpen"; "PermitRootLogin"; "PermitTTY"; 
  "PermitTunnel"; "PermitUserRC"; "PubkeyAcceptedAlgorithms"; "PubkeyAuthentication"; "PubkeyAuthOptions"; "RefuseConnection"; 
  "RekeyLimit"; "RevokedKeys"; "RDomain"; "SetEnv"; "StreamLocalBindMask"; "StreamLocalBindUnlink"; "TrustedUserCAKeys"; 
  "UnusedConnectionTimeout"; "X11DisplayOffset"; "X11Forwarding"; "X11UseLocalhost"]%string.
Definition main_section_only : list string := [
  "AddressFamily"; "Ciphers"; "Compression"; "FingerprintHash"; "GSSAPICleanupCredentials"; "GSSAPIStrictAcceptorCheck"; 
  "HostCertificate"; "HostKey"; "HostKeyAgent"; "HostKeyAlgorithms"; "IgnoreUserKnownHosts"; "KerberosGetAFSToken"; 
  "KerberosOrLocalPasswd"; "KerberosTicketCleanup"; "KexAlgorithms"; "ListenAddress"; "LoginGraceTime"; "MACs"; "MaxStartups"; 
  "ModuliFile"; "PerSourceMaxStartups"; "PerSourceNetBlockSize"; "PerSourcePenalties"; "PerSourcePenaltyExemptList"; 
  "PermitUserEnvironment"; "PidFile"; "Port"; "PrintLastLog"; "PrintMotd"; "SecurityKeyProvider"; "SshdAuthPath"; 
  "SshdSessionPath"; "StrictModes"; "SyslogFacility"; "TCPKeepAlive"; "UseDNS"; "UsePAM"; "VersionAddendum"; "XAuthLocation"]%string.
