(** channels.c, session.c, monitor_wrap.c, serverloop.c: which destinations and
    listening addresses a forwarding request may use.

    C strings are lists of bytes without their NUL; [None] is a null pointer.  The
    sockets themselves, name resolution and GatewayPorts are not modelled: a
    decision is either to connect to (or listen on) something or to refuse. *)
From Coq Require Import String.
From Verif Require Import Base Text MatchModel MiscNumModel.

(** misc.h:25,28,153 *)
Definition FWD_PERMIT_ANY_PORT : Z := 0.
Definition FWD_PERMIT_ANY_HOST : list Z := bs "*".
Definition PORT_STREAMLOCAL : Z := -2.

(** channels.c:106-113 (struct permission); [q_down] is the downstream channel. *)
Record perm := mkQ {
  q_host : option (list Z); q_port : Z;                                (* to connect to *)
  q_lhost : option (list Z); q_lpath : option (list Z); q_lport : Z;   (* to listen on *)
  q_down : option nat;
}.
(** channels.c:119-140 (struct permission_set) *)
Record pset := mkS { s_user : list perm; s_admin : list perm; s_all : bool }.
(** ssh_channels: local_perms, remote_perms (channels.c:170-175) *)
Record perms := mkPerms { p_local : pset; p_remote : pset }.
(** channel_init_channels: calloc *)
Definition no_perms : perms := mkPerms (mkS [] [] false) (mkS [] [] false).

(** channels.h: FORWARD_LOCAL / FORWARD_REMOTE and FORWARD_ADM / FORWARD_USER *)
Inductive where_ := Local | Remote.
Inductive who_ := Admin | User.

(** channels.c:636-653 *)
Definition permission_set_get (p : perms) (w : where_) : pset :=
  match w with Local => p_local p | Remote => p_remote p end.
Definition put_set (p : perms) (w : where_) (s : pset) : perms :=
  match w with Local => mkPerms s (p_remote p) | Remote => mkPerms (p_local p) s end.
(** channels.c:655-673 *)
Definition get_array (s : pset) (o : who_) : list perm := match o with User => s_user s | Admin => s_admin s end.
Definition put_array (s : pset) (o : who_) (l : list perm) : pset :=
  match o with User => mkS l (s_admin s) (s_all s) | Admin => mkS (s_user s) l (s_all s) end.
(** channels.c:675-700; the overflow at INT_MAX entries (fatal) is left out *)
Definition permission_set_add (p : perms) (o : who_) (w : where_) (q : perm) : perms :=
  let s := permission_set_get p w in put_set p w (put_array s o (get_array s o ++ [q])).
(** channels.c:609-616 (fwd_perm_clear) *)
Definition cleared : perm := mkQ None 0 None None 0 None.

(** channels.c:4495-4502 *)
Definition channel_permit_all (p : perms) (w : where_) : perms :=
  let s := permission_set_get p w in
  if is_nil (s_user s) then put_set p w (mkS (s_user s) (s_admin s) true) else p.
(** channels.c:4507-4524 *)
Definition channel_add_permission (p : perms) (o : who_) (w : where_) (host : list Z) (port : Z) : perms :=
  let q := match w with
           | Local => mkQ (Some host) port None None 0 None
           | Remote => mkQ None 0 (Some host) None port None
           end in
  let p := permission_set_add p o w q in
  let s := permission_set_get p w in put_set p w (mkS (s_user s) (s_admin s) false).
(** channels.c:4540-4549 *)
Definition channel_clear_permission (p : perms) (o : who_) (w : where_) : perms :=
  put_set p w (put_array (permission_set_get p w) o []).
(** channels.c:4529-4535 *)
Definition channel_disable_admin (p : perms) (w : where_) : perms :=
  permission_set_add (channel_clear_permission p Admin w) Admin w cleared.
(** Replace one entry. *)
Fixpoint set_nth {A} (l : list A) (n : nat) (x : A) : list A :=
  match l, n with
  | [], _ => []
  | _ :: r, O => x :: r
  | y :: r, S k => y :: set_nth r k x
  end.
(** channels.c:4556-4580; [bug] is ssh->compat & SSH_BUG_DYNAMIC_RPORT *)
Definition channel_update_permission (p : perms) (bug : bool) (idx newport : Z) : perms :=
  let s := p_local p in
  if (idx <? 0) || (zlen (s_user s) <=? idx) then p
  else match nth_error (s_user s) (Z.to_nat idx) with
       | None => p
       | Some q =>
         let q' := if newport <=? 0 then cleared
                   else mkQ (q_host q) (q_port q) (q_lhost q) (q_lpath q) (if bug then 0 else newport) (q_down q) in
         put_set p Local (put_array s User (set_nth (s_user s) (Z.to_nat idx) q'))
       end.

(** ** Matching *)
Definition oeqb (a : option (list Z)) (b : list Z) : bool := match a with Some x => beqb x b | None => false end.
(** channels.c:4344-4357 (open_match) *)
Definition open_match (q : perm) (host : list Z) (port : Z) : bool :=
  match q_host q with
  | None => false
  | Some h =>
    if negb (q_port q =? FWD_PERMIT_ANY_PORT) && negb (q_port q =? port) then false
    else if negb (beqb h FWD_PERMIT_ANY_HOST) && negb (beqb h host) then false
    else true
  end.
(** misc.h:36-46 (struct Forward), the fields used here *)
Record forward := mkFwd {
  w_lhost : option (list Z); w_lport : Z; w_lpath : option (list Z);
  w_chost : option (list Z); w_cport : Z; w_cpath : option (list Z);
}.
(** channels.c:4170-4193 (remote_open_match); lowercase is tolower on each byte *)
Definition remote_open_match (q : perm) (f : forward) : bool :=
  match w_lpath f with
  | Some _ => true
  | None =>
    match w_lhost f, q_lhost q with
    | Some h, Some pat =>
      if negb (q_lport q =? FWD_PERMIT_ANY_PORT) && negb (q_lport q =? w_lport f) then false
      else match_pattern (map tolower h) pat
    | _, _ => false
    end
  end.
(** channels.c:4269-4278 *)
Definition channel_rfwd_bind_host (h : option (list Z)) : list Z :=
  match h with
  | None => bs "localhost"
  | Some h => if is_nil h || beqb h (bs "*") then [] else h
  end.
(** channels.c:4365-4385 (open_listen_match_tcpip) *)
Definition open_listen_match_tcpip (q : perm) (host : option (list Z)) (port : Z) (translate : bool) : bool :=
  match q_host q with
  | None => false
  | Some _ =>
    if negb (q_lport q =? port) then false
    else if negb translate && match q_lhost q, host with None, None => true | _, _ => false end then true
    else
      let allowed := if translate then Some (channel_rfwd_bind_host (q_lhost q)) else q_lhost q in
      match allowed, host with Some a, Some h => beqb a h | _, _ => false end
  end.
(** channels.c:4387-4399 *)
Definition open_listen_match_streamlocal (q : perm) (path : list Z) : bool :=
  match q_host q with
  | None => false
  | Some _ => if negb (q_lport q =? PORT_STREAMLOCAL) then false else oeqb (q_lpath q) path
  end.

(** ** Decisions *)
Inductive decision :=
| Refused
| ConnectTo (host : list Z) (port : Z)      (* port PORT_STREAMLOCAL: a socket path *)
| ToDownstream (c : nat)                    (* hand over to a multiplexing client *)
| Dynamic.                                  (* SOCKS destination to be asked for *)

Definition permits (s : pset) (m : perm -> bool) : bool :=
  (s_all s || existsb m (s_user s)) && (is_nil (s_admin s) || existsb m (s_admin s)).
(** channels.c:4799-4860 (channel_connect_to_port), up to the connection itself *)
Definition channel_connect_to_port (p : perms) (host : list Z) (port : Z) : decision :=
  if permits (p_local p) (fun q => open_match q host port) then ConnectTo host port else Refused.
(** channels.c:4863-4901 (channel_connect_to_path) *)
Definition channel_connect_to_path (p : perms) (path : list Z) : decision :=
  if permits (p_local p) (fun q => open_match q path PORT_STREAMLOCAL) then ConnectTo path PORT_STREAMLOCAL else Refused.
(** channels.c:4195-4229 (check_rfwd_permission) *)
Definition check_rfwd_permission (p : perms) (f : forward) : bool :=
  permits (p_remote p) (fun q => remote_open_match q f).
(** channels.c:4949-4990 (rdynamic_connect_finish): administrator's rules only *)
Definition rdynamic_connect_finish (p : perms) (host : list Z) (port : Z) : decision :=
  let s := p_local p in
  if is_nil (s_admin s) || existsb (fun q => open_match q host port) (s_admin s) then ConnectTo host port else Refused.
(** The host_to_connect of an entry that matched is not NULL. *)
Definition target (q : perm) : decision :=
  match q_host q with Some h => ConnectTo h (q_port q) | None => Refused end.
(** channels.c:4747-4773 (channel_connect_by_listen_address) *)
Definition channel_connect_by_listen_address (p : perms) (host : list Z) (port : Z) : decision :=
  match find (fun q => open_listen_match_tcpip q (Some host) port true) (s_user (p_local p)) with
  | None => Refused
  | Some q =>
    match q_down q with
    | Some c => ToDownstream c
    | None => if q_port q =? 0 then Dynamic else target q
    end
  end.
(** channels.c:4775-4796 (channel_connect_by_listen_path) *)
Definition channel_connect_by_listen_path (p : perms) (path : list Z) : decision :=
  match find (fun q => open_listen_match_streamlocal q path) (s_user (p_local p)) with
  | None => Refused
  | Some q => target q
  end.

(** ** Client: registering and cancelling remote forwardings *)
(** channels.c:4287-4341 (channel_request_remote_forwarding), the record kept *)
Definition entry_of (f : forward) : perm :=
  let '(h, pt) := match w_cpath f with Some x => (Some x, PORT_STREAMLOCAL) | None => (w_chost f, w_cport f) end in
  match w_lpath f with
  | Some x => mkQ h pt None (Some x) PORT_STREAMLOCAL None
  | None => mkQ h pt (w_lhost f) None (w_lport f) None
  end.
Definition channel_request_remote_forwarding (p : perms) (f : forward) : perms :=
  permission_set_add p User Local (entry_of f).
(** channels.c:3244-3247: a forwarding registered for a multiplexing client *)
Definition mux_add (p : perms) (c : nat) (lhost : list Z) (lport : Z) : perms :=
  permission_set_add p User Local (mkQ (Some (bs "<mux>")) (-1) (Some lhost) None lport (Some c)).
(** Clear the first entry that matches. *)
Fixpoint clear_first (m : perm -> bool) (l : list perm) : list perm :=
  match l with
  | [] => []
  | q :: r => if m q then cleared :: r else q :: clear_first m r
  end.
Definition on_user (p : perms) (f : list perm -> list perm) : perms :=
  let s := p_local p in put_set p Local (put_array s User (f (s_user s))).
(** channels.c:4405-4437, 4443-4474, 4479-4489 *)
Definition channel_request_rforward_cancel (p : perms) (f : forward) (allocated : Z) : perms :=
  match w_lpath f with
  | Some path => on_user p (clear_first (fun q => open_listen_match_streamlocal q path))
  | None => on_user p (clear_first (fun q => open_listen_match_tcpip q (w_lhost f) (if w_lport f =? 0 then allocated else w_lport f) false))
  end.
(** channels.c:702-733 (mux_remove_remote_forwardings) *)
Definition is_down (c : nat) (q : perm) : bool := match q_down q with Some d => Nat.eqb c d | None => false end.
Definition mux_remove (p : perms) (c : nat) : perms :=
  on_user p (map (fun q => if is_down c q then cleared else q)).

(** ** Configuration *)
(** misc.c:746-780 (hpdelim2): the field and what follows it; [None] inside the
    pair: no more fields.  The delimiter found is returned as third component. *)
Fixpoint span (stop : Z -> bool) (s : list Z) : list Z * list Z :=
  match s with
  | [] => ([], [])
  | c :: r => if stop c then ([], s) else let '(a, b) := span stop r in (c :: a, b)
  end.
Definition is_delim (c : Z) : bool := (c =? 58) || (c =? 47).  (* ':' '/' *)
Definition hpdelim2 (s : list Z) : option (list Z * option (list Z) * option Z) :=
  let cut := match s with
    | c :: _ => if c =? 91 (* '[' *) then
        match span (Z.eqb 93) s with
        | (a, d :: r) => Some (a ++ [d], r)
        | (_, []) => None
        end
      else Some (span is_delim s)
    | [] => Some ([], [])
    end in
  match cut with
  | None => None
  | Some (old, []) => Some (old, None, None)
  | Some (old, d :: r) => if is_delim d then Some (old, Some r, Some d) else None
  end.
(** misc.c:783-792 *)
Definition hpdelim (s : list Z) : option (list Z * option (list Z)) :=
  match hpdelim2 s with
  | Some (old, rest, Some d) => if d =? 47 then None else Some (old, rest)
  | Some (old, rest, None) => Some (old, rest)
  | None => None
  end.
(** misc.c:795-803 (cleanhostname) *)
Definition cleanhostname (h : list Z) : list Z :=
  match h with
  | c :: r => if (c =? 91) && (last h 0 =? 93) then removelast r else h
  | [] => h
  end.
(** misc.c:2029-2039 (permitopen_port); [serv] is getservbyname *)
Definition permitopen_port (serv : list Z -> option Z) (s : list Z) : Z :=
  if beqb s (bs "*") then FWD_PERMIT_ANY_PORT
  else let port := a2port serv s in if 0 <? port then port else -1.

Section Config.
Variable serv : list Z -> option Z.
(** One "host:port" text of an option; [two]: '/' is accepted as separator
    (hpdelim2) or not (hpdelim).  [None]: fatal. *)
Definition parse_rule (two : bool) (t : list Z) : option (list Z * Z) :=
  match (if two then match hpdelim2 t with Some (h, r, _) => Some (h, r) | None => None end else hpdelim t) with
  | Some (h, Some rest) =>
    let port := permitopen_port serv rest in
    if port <? 0 then None else Some (cleanhostname h, port)
  | _ => None
  end.
Fixpoint add_rules (two : bool) (p : perms) (o : who_) (w : where_) (ts : list (list Z)) : option perms :=
  match ts with
  | [] => Some p
  | t :: r => match parse_rule two t with
              | None => None
              | Some (h, port) => add_rules two (channel_add_permission p o w h port) o w r
              end
  end.
(** monitor_wrap.c:1138-1173 (server_process_permitopen_list) *)
Definition server_process_permitopen_list (p : perms) (w : where_) (opens : list (list Z)) : option perms :=
  let p := channel_clear_permission p Admin w in
  match opens with
  | [] => Some p
  | [o] => if beqb o (bs "any") then Some p
           else if beqb o (bs "none") then Some (channel_disable_admin p w)
           else add_rules false p Admin w opens
  | _ => add_rules false p Admin w opens
  end.
(** sshd_config: AllowTcpForwarding, AllowStreamLocalForwarding, DisableForwarding,
    PermitOpen, PermitListen *)
Record config := mkCfg {
  o_tcp_local : bool; o_tcp_remote : bool; o_stream_local : bool; o_stream_remote : bool;
  o_disable : bool; o_opens : list (list Z); o_listens : list (list Z);
}.
(** From the key or certificate used: port-forwarding flag, permitopen, permitlisten *)
Record authopts := mkAO { a_fwd : bool; a_opens : list (list Z); a_listens : list (list Z) }.
(** monitor_wrap.c:1178-1185 *)
Definition server_process_permitopen (c : config) (p : perms) : option perms :=
  match server_process_permitopen_list p Local (o_opens c) with
  | None => None
  | Some p => server_process_permitopen_list p Remote (o_listens c)
  end.
(** session.c:304-342 (set_fwdpermit_from_authopts) *)
Definition set_fwdpermit_from_authopts (c : config) (a : authopts) (p : perms) : option perms :=
  match (if o_tcp_local c then add_rules true (channel_clear_permission p User Local) User Local (a_opens a) else Some p) with
  | None => None
  | Some p =>
    if o_tcp_remote c then add_rules false (channel_clear_permission p User Remote) User Remote (a_listens a) else Some p
  end.
(** session.c:345-367 (do_authenticated) *)
Definition do_authenticated (c : config) (a : authopts) (p : perms) : option perms :=
  match set_fwdpermit_from_authopts c a p with
  | None => None
  | Some p =>
    Some (if negb (a_fwd a) || o_disable c then channel_disable_admin (channel_disable_admin p Local) Remote
          else
            let p := if o_tcp_local c then channel_permit_all p Local else channel_disable_admin p Local in
            if o_tcp_remote c then channel_permit_all p Remote else channel_disable_admin p Remote)
  end.
(** A server session: sshd-session.c:1218, then session.c:345. *)
Definition setup (c : config) (a : authopts) : option perms :=
  match server_process_permitopen c no_perms with
  | None => None
  | Some p => do_authenticated c a p
  end.
(** serverloop.c:390-438 (server_request_direct_tcpip) *)
Definition server_request_direct_tcpip (c : config) (a : authopts) (p : perms) (host : list Z) (port : Z) : decision :=
  if 65535 <? port then Refused
  else if o_tcp_local c && a_fwd a && negb (o_disable c) then channel_connect_to_port p host port
  else Refused.
(** serverloop.c:440-482 (server_request_direct_streamlocal) *)
Definition server_request_direct_streamlocal (c : config) (a : authopts) (p : perms) (path : list Z) : decision :=
  if o_stream_local c && a_fwd a && negb (o_disable c) then channel_connect_to_path p path else Refused.
(** serverloop.c:751-775: "tcpip-forward"; true: channel_setup_fwd_listener is called *)
Definition server_tcpip_forward (c : config) (a : authopts) (p : perms) (host : list Z) (port : Z) (want_reply : bool) : bool :=
  if (INT_MAX <? port) || negb (o_tcp_remote c) || negb (a_fwd a) || o_disable c || (negb want_reply && (port =? 0)) then false
  else check_rfwd_permission p (mkFwd (Some host) port None None 0 None).
(** serverloop.c:792-809: "streamlocal-forward@openssh.com" *)
Definition server_streamlocal_forward (c : config) (a : authopts) (p : perms) (path : list Z) : bool :=
  if negb (o_stream_remote c) || negb (a_fwd a) || o_disable c then false
  else check_rfwd_permission p (mkFwd None 0 (Some path) None 0 None).
(** auth-options.c:299-306: how a permitopen or permitlisten text is validated
    when the key is read (length limit of the host left out) *)
Definition valid_permit (t : list Z) : bool :=
  match hpdelim2 t with
  | Some (_, Some cp, _) => beqb cp (bs "*") || (0 <? a2port serv cp)
  | _ => false
  end.
End Config.
