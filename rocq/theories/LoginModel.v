(** auth.c: which accounts may try to log in over a connection.  The settings come from servconf.c (ServModel).  The build is
    one without login classes, BSD authentication and AIX, as on Linux. *)
From Coq Require Import String.
From Verif Require Import Base Text MatchModel MiscNumModel ArgvModel AddrModel ServModel.
Local Open Scope Z_scope.

(** struct passwd: name, user number, shell. *)
Record account := mkAccount { ac_name : list Z; ac_uid : Z; ac_shell : list Z }.
(** The machine: getpwnam, platform_locked_account (platform.c 158-205), stat of a file (whether it is a regular one, and its
    mode bits), and options.use_pam. *)
Record machine := mkMachine { m_account : list Z -> option account; m_locked : list Z -> bool; m_stat : list Z -> option (bool * Z);
  m_pam : bool }.

Inductive login := LYes (a : account) (o : opts) | LNo | LFatal | LUndefined.
Inductive verdict := VYes | VNo | VFatal.

(** ga_match, groupaccess.c 85-94. *)
Definition ga_match (gs pats : list (list Z)) : bool := existsb (fun g => existsb (fun p => match_pattern g p) pats) gs.

(** auth.c 119-138; S_IXUSR|S_IXGRP|S_IXOTH is 0111. *)
Definition shell_of (a : account) : list Z := if is_nil (ac_shell a) then bs "/bin/sh" else ac_shell a.
Definition shell_ok (M : machine) (a : account) : bool :=
  match m_stat M (shell_of a) with
  | None => false
  | Some (regular, mode) => regular && negb (Z.land mode 73 =? 0)
  end.
Definition no_chroot (o : opts) : bool :=
  match o_str o chroot_directory with None => true | Some t => strcaseeq t (bs "none") end.

Section WithEnv.
Variable E : env.
(** The DenyUsers loop, 149-161: None for fatal, else whether an entry matched. *)
Fixpoint deny_loop (u : list Z) (h ip : option (list Z)) (ps : list (list Z)) : option bool :=
  match ps with
  | [] => Some false
  | p :: r => match match_user (e_pton E) u h ip p with
              | None => None
              | Some v => if v <? 0 then None else if negb (v =? 0) then Some true else deny_loop u h ip r
              end
  end.
(** The AllowUsers loop, 165-173. *)
Fixpoint allow_loop (u : list Z) (h ip : option (list Z)) (ps : list (list Z)) : option bool :=
  match ps with
  | [] => Some false
  | p :: r => match match_user (e_pton E) u h ip p with
              | None => None
              | Some v => if v <? 0 then None else if v =? 1 then Some true else allow_loop u h ip r
              end
  end.
(** 180-212; ga_init returns the number of the user's groups that have names. *)
Definition groups_ok (o : opts) (gs : list (list Z)) : bool :=
  if negb (is_nil (o_arr o deny_groups)) || negb (is_nil (o_arr o allow_groups)) then
    if is_nil gs then false
    else if negb (is_nil (o_arr o deny_groups)) && ga_match gs (o_arr o deny_groups) then false
    else if negb (is_nil (o_arr o allow_groups)) && negb (ga_match gs (o_arr o allow_groups)) then false
    else true
  else true.
(** allowed_user, auth.c 98-222. *)
Definition allowed_user (M : machine) (o : opts) (c : conn) (a : account) : verdict :=
  if negb (m_pam M) && m_locked M (ac_name a) then VNo
  else if no_chroot o && negb (shell_ok M a) then VNo
  else match deny_loop (ac_name a) (ci_host c) (ci_address c) (o_arr o deny_users) with
       | None => VFatal
       | Some true => VNo
       | Some false =>
           match (if is_nil (o_arr o allow_users) then Some true else allow_loop (ac_name a) (ci_host c) (ci_address c) (o_arr o allow_users)) with
           | None => VFatal
           | Some false => VNo
           | Some true => if groups_ok o (match e_groups E (ac_name a) with Some gs => gs | None => [] end) then VYes else VNo
           end
       end.
(** getpwnamallow, 462-545: the connection's user is filled in, the settings are computed for it, and the account is checked. *)
Definition with_user (c : conn) (u : list Z) (invalid : bool) : conn :=
  mkConn (Some u) invalid (ci_host c) (ci_address c) (ci_laddress c) (ci_lport c) (ci_rdomain c) (ci_test c).
Definition getpwnamallow (M : machine) (cmdline : list (list Z)) (text : list Z) (inc : list item) (c : conn) (user : list Z) : login :=
  let c' := with_user c user (match m_account M user with None => true | Some _ => false end) in
  match connection E cmdline text inc c' with
  | Refused => LFatal
  | Undefined => LUndefined
  | Settings o =>
      match m_account M user with
      | None => LNo
      | Some a => match allowed_user M o c' a with VYes => LYes a o | VNo => LNo | VFatal => LFatal end
      end
  end.
End WithEnv.
