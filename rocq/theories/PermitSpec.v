(** Vocabulary for C28: rules, their texts, and histories of rule changes. *)
From Coq Require Import String.
From Verif Require Import Base Text MatchSpec MiscNumModel PermitModel.

(** A rule is a host and a port; "*" and 0 stand for any. *)
Definition open_ok (host : list Z) (port : Z) (h : list Z) (p : Z) : Prop :=
  (h = bs "*" \/ h = host) /\ (p = 0 \/ p = port).
(** Listening rules: the host is a wildcard pattern for the lower-case name. *)
Definition listen_ok (host : list Z) (port : Z) (h : list Z) (p : Z) : Prop :=
  glob h (map tolower host) /\ (p = 0 \/ p = port).

(** The text of a rule: host, separator, port; the host may stand in brackets. *)
Definition port_text (serv : list Z -> option Z) (t : list Z) (p : Z) : Prop :=
  (t = bs "*" /\ p = 0) \/ (t <> bs "*" /\ 0 < p /\ a2port serv t = p).
Definition denotes (serv : list Z -> option Z) (seps : list Z) (t h : list Z) (p : Z) : Prop :=
  exists s pt, In s seps /\ port_text serv pt p /\
    ((t = h ++ s :: pt /\ hd 0 h <> 91 /\ ~ In 58 h /\ ~ In 47 h) \/
     (t = 91 :: h ++ 93 :: s :: pt /\ ~ In 93 h)).
Definition COLON : list Z := [58].
Definition COLON_SLASH : list Z := [58; 47].

(** sshd_config PermitOpen / PermitListen: nothing or "any" is no restriction;
    ("none" denotes no rule). *)
Definition admin_allows serv (texts : list (list Z)) (ok : list Z -> Z -> Prop) : Prop :=
  texts = [] \/ texts = [bs "any"] \/ exists t h p, In t texts /\ denotes serv COLON t h p /\ ok h p.
(** permitopen / permitlisten of a key: none means no restriction. *)
Definition user_allows serv seps (texts : list (list Z)) (ok : list Z -> Z -> Prop) : Prop :=
  texts = [] \/ exists t h p, In t texts /\ denotes serv seps t h p /\ ok h p.

(** Histories of rule changes. *)
Inductive rop :=
| RAll (w : where_) | RAdd (o : who_) (w : where_) (h : list Z) (p : Z)
| RDisable (w : where_) | RClear (o : who_) (w : where_).
Definition rexec1 (p : perms) (x : rop) : perms :=
  match x with
  | RAll w => channel_permit_all p w
  | RAdd o w h q => channel_add_permission p o w h q
  | RDisable w => channel_disable_admin p w
  | RClear o w => channel_clear_permission p o w
  end.
Definition rexec (hist : list rop) : perms := fold_left rexec1 hist no_perms.

Definition resets (o : who_) (w : where_) (x : rop) : Prop :=
  x = RClear o w \/ (o = Admin /\ x = RDisable w).
(** Rule (h, p) was added and not cleared since. *)
Definition in_force (o : who_) (w : where_) (hist : list rop) (h : list Z) (p : Z) : Prop :=
  exists a b, hist = a ++ RAdd o w h p :: b /\ forall x, In x b -> ~ resets o w x.
(** The administrator has restricted forwarding and not cleared that since. *)
Definition restricted (w : where_) (hist : list rop) : Prop :=
  exists a x b, hist = a ++ x :: b /\ (x = RDisable w \/ exists h p, x = RAdd Admin w h p) /\ ~ In (RClear Admin w) b.
(** Everything was permitted at a time the user had no rules, and no rule of
    either kind was added since. *)
Definition opened_up (w : where_) (hist : list rop) : Prop :=
  exists a b, hist = a ++ RAll w :: b /\ (forall h p, ~ in_force User w a h p) /\
    forall o h p, ~ In (RAdd o w h p) b.

(** A client's registrations of remote forwardings. *)
Inductive cop :=
| CRequest (f : forward) | CCancel (f : forward) (allocated : Z) | CUpdate (bug : bool) (idx newport : Z)
| CMux (c : nat) (lhost : list Z) (lport : Z) | CMuxGone (c : nat).
Definition cexec1 (p : perms) (x : cop) : perms :=
  match x with
  | CRequest f => channel_request_remote_forwarding p f
  | CCancel f al => channel_request_rforward_cancel p f al
  | CUpdate bug i n => channel_update_permission p bug i n
  | CMux c h n => mux_add p c h n
  | CMuxGone c => mux_remove p c
  end.
(** PermitRemoteOpen rules are set up first (ssh.c:2043-2081). *)
Definition cexec (p : perms) (ops : list cop) : perms := fold_left cexec1 ops p.

(** The registrations in order; the i-th one has handle i. *)
Fixpoint registered (ops : list cop) : list (forward + nat * list Z * Z) :=
  match ops with
  | [] => []
  | CRequest f :: r => inl f :: registered r
  | CMux c h n :: r => inr (c, h, n) :: registered r
  | _ :: r => registered r
  end.
(** Where a registered forwarding leads. *)
Definition leads_to (f : forward) (h : list Z) (p : Z) : Prop :=
  match w_cpath f with
  | Some path => h = path /\ p = PORT_STREAMLOCAL
  | None => w_chost f = Some h /\ p = w_cport f
  end.
(** Listening port under which the i-th registration is known. *)
Definition known_port (ops : list cop) (i : nat) (orig port : Z) : Prop :=
  port = orig \/ exists bug n, In (CUpdate bug (Z.of_nat i) n) ops /\ port = if bug then 0 else n.
(** Address a registered forwarding asks the server to listen on. *)
Definition asks_for (f : forward) : list Z :=
  channel_rfwd_bind_host (match w_lpath f with Some _ => None | None => w_lhost f end).
Definition asks_port (f : forward) : Z := match w_lpath f with Some _ => PORT_STREAMLOCAL | None => w_lport f end.
