(** Vocabulary for C33-C35: rights, option lines and their meaning. *)
From Coq Require Import String.
From Verif Require Import Base Text MiscNumModel MiscNumSpec AuthOptModel.

(** What a login may be allowed to do. *)
Inductive right_ := Port | Agent | X11 | Pty | Rc | NoTouch.
Definition flag (r : right_) (o : aopt) : Z :=
  match r with Port => a_port o | Agent => a_agent o | X11 => a_x11 o | Pty => a_pty o | Rc => a_rc o | NoTouch => a_notouch o end.
Definition granted (r : right_) (o : aopt) : Prop := flag r o <> 0.
(** Flags as every parser sets them. *)
Definition bit (v : Z) : Prop := v = 0 \/ v = 1.
Definition bits (o : aopt) : Prop := (forall r, bit (flag r o)) /\ bit (a_verify o).

(** The sets of restrictions activated during a login, in order. *)
Fixpoint login (o : aopt) (l : list aopt) : option aopt :=
  match l with [] => Some o | x :: r => match auth_activate_options o x with Some o => login o r | None => None end end.

(** An expiry time (0: never) that ends no later than both. *)
Definition earliest (x y : Z) : Z := if x =? 0 then y else if y =? 0 then x else Z.min x y.

(** Option sets that can be stored: C strings and values within their C types. *)
Definition cstring (s : list Z) : Prop := ~ In 0 s.
Definition ocstring (s : option (list Z)) : Prop := match s with Some x => cstring x | None => True end.
Definition byteflag (v : Z) : Prop := 0 <= v < 256.
Definition storable (o : aopt) : Prop :=
  byteflag (a_port o) /\ byteflag (a_agent o) /\ byteflag (a_x11 o) /\ byteflag (a_pty o) /\ byteflag (a_rc o) /\
  byteflag (a_restricted o) /\ byteflag (a_ca o) /\ byteflag (a_notouch o) /\ byteflag (a_verify o) /\
  0 <= a_expiry o < 18446744073709551616 /\ -1 <= a_tun o <= 2147483647 /\
  ocstring (a_princ o) /\ ocstring (a_cmd o) /\ ocstring (a_from_cert o) /\ ocstring (a_from_keys o) /\
  Forall cstring (a_env o) /\ Forall cstring (a_open o) /\ Forall cstring (a_listen o).
(** What an untrusted process is told instead: it learns that there may be
    principals and a command, not which, and nothing of the lists. *)
Definition censored (o : aopt) : aopt :=
  mkA (a_port o) (a_agent o) (a_x11 o) (a_pty o) (a_rc o) (a_restricted o) (a_expiry o) (a_ca o) (Some (bs "yes"))
      (a_tun o) (Some (bs "true")) [] [] [] None None (a_notouch o) (a_verify o).

(** ** Option lines *)
Inductive fname := FPort | FAgent | FX11 | FTouch | FVerify | FPty | FRc.
Inductive item :=
| Restrict | CertAuthority | Flag (f : fname) (on : bool)
| Command (v : list Z) | Principals (v : list Z) | From (v : list Z) | Expiry (v : list Z) | Environment (v : list Z)
| PermitOpen (v : list Z) | PermitListen (v : list Z) | Tunnel (v : list Z)
| Empty.
Definition fword (f : fname) : list Z :=
  match f with
  | FPort => bs "port-forwarding" | FAgent => bs "agent-forwarding" | FX11 => bs "x11-forwarding"
  | FTouch => bs "touch-required" | FVerify => bs "verify-required" | FPty => bs "pty" | FRc => bs "user-rc"
  end.
(** Keywords are read in any case. *)
Definition word (w t : list Z) : Prop := map tolower t = w.
(** A value stands in double quotes; a double quote in it is written backslash
    quote.  A value cannot end in a backslash. *)
Definition escape (v : list Z) : list Z := flat_map (fun c => if c =? 34 then [92; 34] else [c]) v.
Definition quoted (v : list Z) : list Z := 34 :: escape v ++ [34].
Definition valued (w v t : list Z) : Prop := last v 0 <> 92 /\ exists k, word w k /\ t = k ++ 61 :: quoted v.
Definition spelled (i : item) (t : list Z) : Prop :=
  match i with
  | Restrict => word (bs "restrict") t
  | CertAuthority => word (bs "cert-authority") t
  | Flag f true => word (fword f) t
  | Flag f false => word (bs "no-" ++ fword f) t
  | Command v => valued (bs "command") v t
  | Principals v => valued (bs "principals") v t
  | From v => valued (bs "from") v t
  | Expiry v => valued (bs "expiry-time") v t
  | Environment v => valued (bs "environment") v t
  | PermitOpen v => valued (bs "permitopen") v t
  | PermitListen v => valued (bs "permitlisten") v t
  | Tunnel v => valued (bs "tunnel") v t
  | Empty => t = []
  end.
(** The options of a line: separated by commas, ended by the end of the line or a
    blank; the line does not end right after a comma. *)
Definition blank_or_end (t : list Z) : Prop := t = [] \/ exists c r, t = c :: r /\ (c = 32 \/ c = 9).
Definition reads (line : list Z) (its : list item) (tail : list Z) : Prop :=
  exists ts, Forall2 spelled its ts /\ ts <> [] /\ line = join 44 ts ++ tail /\ blank_or_end tail /\
    ((2 <= length ts)%nat -> tail = [] -> last ts [] <> []).

Section Effect.
Variable serv : list Z -> option Z.
Variable ptime : list Z -> option Z.
(** host:port or host/port; a host in brackets may contain the separators. *)
Definition destination (v : list Z) : Prop :=
  exists h s pt, v = h ++ s :: pt /\ (s = 58 \/ s = 47) /\ zlen h <= 1024 /\
    ((hd 0 h <> 91 /\ ~ In 58 h /\ ~ In 47 h) \/ (exists n, h = 91 :: n ++ [93] /\ ~ In 93 n)) /\
    (pt = bs "*" \/ 0 < a2port serv pt).
(** A listening address may be given as a port only. *)
Definition listening (v : list Z) (w : list Z) : Prop := (In 58 v /\ w = v) \/ (~ In 58 v /\ w = bs "*:" ++ v).
Definition envname (n : list Z) : Prop :=
  n <> [] /\ Forall (fun c => 48 <= c <= 57 \/ 65 <= c <= 90 \/ 97 <= c <= 122 \/ c = 95) n.
Definition tunnel_number (v : list Z) (n : Z) : Prop :=
  (map tolower v = bs "any" /\ n = 2147483647) \/ (map tolower v <> bs "any" /\ numeral v n /\ 0 <= n <= 2147483645).
Definition set_flag (f : fname) (on : bool) (o : aopt) : aopt :=
  let v := if on then 1 else 0 in
  match f with
  | FPort => w_port v o | FAgent => w_agent v o | FX11 => w_x11 v o | FPty => w_pty v o | FRc => w_rc v o
  | FTouch => w_notouch (1 - v) o | FVerify => w_verify v o
  end.
(** What one option does to the options before it. *)
Definition effect (i : item) (o o' : aopt) : Prop :=
  match i with
  | Restrict => o' = w_restricted 1 (w_port 0 (w_agent 0 (w_x11 0 (w_pty 0 (w_rc 0 o)))))
  | CertAuthority => o' = w_ca 1 o
  | Flag f on => o' = set_flag f on o
  | Command v => a_cmd o = None /\ o' = w_cmd (Some v) o
  | Principals v => a_princ o = None /\ o' = w_princ (Some v) o
  | From v => a_from_keys o = None /\ o' = w_from_keys (Some v) o
  | Expiry v => exists t, ptime v = Some t /\ t <> 0 /\ o' = w_expiry (earliest (a_expiry o) t) o
  | Environment v => zlen (a_env o) <= 1024 /\ exists n x, v = n ++ 61 :: x /\ envname n /\
      (((exists y, In (n ++ 61 :: y) (a_env o)) /\ o' = o) \/
       ((forall y, ~ In (n ++ 61 :: y) (a_env o)) /\ o' = w_env (a_env o ++ [v]) o))
  | PermitOpen v => zlen (a_open o) <= 4096 /\ destination v /\ o' = w_open (a_open o ++ [v]) o
  | PermitListen v => zlen (a_listen o) <= 4096 /\ exists w, listening v w /\ destination w /\ o' = w_listen (a_listen o ++ [w]) o
  | Tunnel v => exists n, tunnel_number v n /\ o' = w_tun n o
  | Empty => o' = o
  end.
Fixpoint effects (its : list item) (o o' : aopt) : Prop :=
  match its with [] => o' = o | i :: r => exists o1, effect i o o1 /\ effects r o1 o' end.
End Effect.

(** The options of a line that say something about a right: what they say. *)
Definition says (r : right_) (i : item) : option bool :=
  match r, i with
  | NoTouch, Restrict => None
  | _, Restrict => Some false
  | Port, Flag FPort b | Agent, Flag FAgent b | X11, Flag FX11 b | Pty, Flag FPty b | Rc, Flag FRc b => Some b
  | NoTouch, Flag FTouch b => Some (negb b)
  | _, _ => None
  end.
Definition by_default (r : right_) : bool := match r with NoTouch => false | _ => true end.
