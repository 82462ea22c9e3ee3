(** Vocabulary for C36, C57 and C58: scope of certificates, certificate options,
    entries of authorized_keys. *)
From Coq Require Import String.
From Verif Require Import Base Text SshbufSpec MatchSpec AddrModel AddrSpec AuthOptModel AuthOptSpec CertModel.

(** ** Scope of a certificate *)
Inductive purpose := ForUser | ForHost.
Definition purpose_code (p : purpose) : Z := match p with ForUser => 1 | ForHost => 2 end.
(** [by_pattern]: the name is a pattern for the principal, not the principal. *)
Definition lists_name (c : cert) (by_pattern : bool) (name : list Z) : Prop :=
  exists p, In p (c_principals c) /\ if by_pattern then glob name p else p = name.
Definition valid_at (c : cert) (t : Z) : Prop := c_after c <= t < c_before c.
(** [required]: a certificate without principals is not accepted. *)
Definition in_scope (c : cert) (p : purpose) (required by_pattern : bool) (t : Z) (name : option (list Z)) : Prop :=
  c_type c = purpose_code p /\ valid_at c t /\
  (required = true -> c_principals c <> []) /\
  (c_principals c <> [] -> forall n, name = Some n -> lists_name c by_pattern n).

(** ** Certificate options *)
(** A C string as a wire string; one final NUL is tolerated. *)
Definition ctext (w v : list Z) : Prop :=
  ~ In 0 v /\ (w = enc_string v /\ zlen v <= 134217724 \/ w = enc_string (v ++ [0]) /\ zlen v <= 134217723).
Inductive fields : list Z -> list (list Z * list Z) -> Prop :=
| fields_nil : fields [] []
| fields_cons : forall w n d b l, ctext w n -> zlen d <= 134217724 -> fields b l -> fields (w ++ enc_string d ++ b) ((n, d) :: l).
Definition CIDR_CHARS : list Z := bs "0123456789abcdefABCDEF.:/".
Section Options.
Variable pton : list Z -> option xaddr.
(** A list of networks for source-address. *)
Definition network (e : list Z) : Prop :=
  e <> [] /\ zlen e <= 49 /\ Forall (fun c => In c CIDR_CHARS) e /\ exists a m, AddrSpec.reads pton e a m /\ consistent a m.
Definition networks (l : list Z) : Prop := Forall network (split 44 l).
Definition critical_effect (f : list Z * list Z) (o o' : aopt) : Prop :=
  let (name, data) := f in
  (name = bs "verify-required" /\ data = [] /\ o' = w_verify 1 o) \/
  (name = bs "force-command" /\ a_cmd o = None /\ exists c, ctext data c /\ o' = w_cmd (Some c) o) \/
  (name = bs "source-address" /\ a_from_cert o = None /\ exists c, ctext data c /\ networks c /\ o' = w_from_cert (Some c) o).
Definition ext_names : list (list Z * (aopt -> aopt)) :=
  [ (bs "no-touch-required", w_notouch 1); (bs "permit-X11-forwarding", w_x11 1); (bs "permit-agent-forwarding", w_agent 1);
    (bs "permit-port-forwarding", w_port 1); (bs "permit-pty", w_pty 1); (bs "permit-user-rc", w_rc 1) ].
Definition extension_effect (f : list Z * list Z) (o o' : aopt) : Prop :=
  let (name, data) := f in
  (exists set, In (name, set) ext_names /\ data = [] /\ o' = set o) \/
  ((forall set, ~ In (name, set) ext_names) /\ o' = o).
Fixpoint chain {A} (eff : A -> aopt -> aopt -> Prop) (l : list A) (o o' : aopt) : Prop :=
  match l with [] => o' = o | f :: r => exists o1, eff f o o1 /\ chain eff r o1 o' end.
(** The name of the extension that grants a right. *)
Definition grants_right (r : right_) : list Z :=
  match r with
  | Port => bs "permit-port-forwarding" | Agent => bs "permit-agent-forwarding" | X11 => bs "permit-X11-forwarding"
  | Pty => bs "permit-pty" | Rc => bs "permit-user-rc" | NoTouch => bs "no-touch-required"
  end.
End Options.

(** ** Entries *)
Section Entry.
Variable pton : list Z -> option xaddr.
Variable now : Z.
Variables ip host : list Z.
(** The connection meets what the options ask of it; [match_host_and_ip] is
    characterised by C13_host_and_ip, [addr_match_cidr_list] by C13_cidr_list. *)
Definition meets (o : aopt) : Prop :=
  (a_expiry o <> 0 -> 0 < now -> now <= a_expiry o) /\
  (forall l, a_from_keys o = Some l -> match_host_and_ip pton (Some host) (Some ip) l = Some 1) /\
  (forall l, a_from_cert o = Some l -> addr_match_cidr_list pton (Some ip) l = 1).
End Entry.

(** What stands at the front of an entry: optional blanks, maybe options, the key. *)
Definition blanks (s : list Z) : Prop := Forall (fun c => c = 32 \/ c = 9) s.
Definition no_blank_first (s : list Z) : Prop := match s with [] => True | c :: _ => c <> 32 /\ c <> 9 end.
Section Lines.
Variable serv : list Z -> option Z.
Variable ptime : list Z -> option Z.
Variable rd : list Z -> option (list Z).
Definition entry (line : list Z) (key : list Z) (o : aopt) : Prop :=
  (rd line = Some key /\ o = sshauthopt_new_with_keys_defaults) \/
  (rd line = None /\ exists its tail sp rest, AuthOptSpec.reads line its tail /\ tail = sp ++ rest /\ blanks sp /\ no_blank_first rest /\
     rd rest = Some key /\ effects serv ptime its sshauthopt_new_with_keys_defaults o).
(** The principals named in the entry.  A principal of the certificate is read as a
    comma-separated list, and only the first 40 names of the entry count. *)
Definition principals_meet (l : list Z) (c : cert) : Prop :=
  exists p n, In p (c_principals c) /\ In n (names p) /\ In n (firstn 40 (names l)).
Variable pton : list Z -> option xaddr.
Variable now : Z.
Variables ip host user : list Z.
(** An entry accepts a key or certificate, giving the login options [o]. *)
Definition accepts (k : skey) (line : list Z) (o : aopt) : Prop :=
  exists key ko, entry line key ko /\ meets pton now ip host ko /\
  match k_cert k with
  | None => key = k_pub k /\ a_ca ko = 0 /\ a_princ ko = None /\ o = ko
  | Some c => key = c_ca c /\ a_ca ko <> 0 /\ 0 <= now /\
      in_scope c ForUser false false now (match a_princ ko with Some _ => None | None => Some user end) /\
      (forall l, a_princ ko = Some l -> principals_meet l c) /\
      exists co, sshauthopt_from_cert pton k = Some co /\ meets pton now ip host co /\ sshauthopt_merge ko co = Some o
  end.
(** A line of the file: blanks, then an entry, not a comment. *)
Definition file_line (line e : list Z) : Prop :=
  exists sp, line = sp ++ e /\ blanks sp /\ match e with [] => False | c :: _ => c <> 32 /\ c <> 9 /\ c <> 10 /\ c <> 35 end.
Definition line_accepts (k : skey) (line : list Z) (o : aopt) : Prop := exists e, file_line line e /\ accepts k e o.
(** The first accepting line decides. *)
Definition first_of {A} (P : A -> aopt -> Prop) (l : list A) (o : aopt) : Prop :=
  exists a x b, l = a ++ x :: b /\ P x o /\ forall y o', In y a -> ~ P y o'.

(** ** Lines of principals: [options] name, up to a comment *)
Definition blank3 (c : Z) : Prop := c = 10 \/ c = 32 \/ c = 9.
(** [t] without its final blanks, but never empty *)
Definition trimmed (t b : list Z) : Prop :=
  exists w, t = b ++ w /\ Forall blank3 w /\ b <> [] /\ (length b = 1%nat \/ ~ blank3 (last b 0)).
(** The name is what follows the last space, or the last tab if there is no space. *)
Definition line_name (b name : list Z) (opts : bool) : Prop :=
  (opts = false /\ ~ In 32 b /\ ~ In 9 b /\ name = b) \/
  (opts = true /\ exists x s sp r, b = x ++ s :: sp ++ name /\ r = sp ++ name /\ blanks sp /\ no_blank_first name /\
     (s = 32 /\ ~ In 32 r \/ s = 9 /\ ~ In 32 b /\ ~ In 9 r)).
Definition principal_line (line name : list Z) (o : aopt) : Prop :=
  exists sp t tail b opts, line = sp ++ t ++ tail /\ blanks sp /\ no_blank_first (t ++ tail) /\ ~ In 35 t /\ (tail = [] \/ exists r, tail = 35 :: r) /\
    hd 10 t <> 10 /\ trimmed t b /\ line_name b name opts /\
    if opts then exists its rest, AuthOptSpec.reads b its rest /\ effects serv ptime its sshauthopt_new_with_keys_defaults o
    else o = sshauthopt_new_with_keys_defaults.
Definition principal_accepts (c : cert) (line : list Z) (o : aopt) : Prop := exists n, In n (c_principals c) /\ principal_line line n o.
End Lines.

(** ** All the ways in *)
Section Routes.
Variable serv : list Z -> option Z.
Variable ptime : list Z -> option Z.
Variable rd : list Z -> option (list Z).
Variable pton : list Z -> option xaddr.
Variable now : Z.
Variables ip host user : list Z.
Variable s : sources.
Notation line_ok := (line_accepts serv ptime rd pton now ip host user).
Notation name_ok := (principal_accepts serv ptime).
(** AuthorizedKeysFile, AuthorizedKeysCommand *)
Definition by_file (k : skey) (o : aopt) : Prop := first_of (fun f => first_of (line_ok k) f) (s_files s) o.
Definition by_command (k : skey) (o : aopt) : Prop := exists out, s_keys_cmd s = Some (out, true) /\ first_of (line_ok k) out o.
(** AuthorizedPrincipalsFile, else AuthorizedPrincipalsCommand *)
Definition listed_in_files (c : cert) (o : aopt) : Prop := exists fs, s_princ_files s = Some fs /\ first_of (fun f => first_of (name_ok c) f) fs o.
Definition listed (c : cert) (o : aopt) : Prop :=
  listed_in_files c o \/
  ((forall o', ~ listed_in_files c o') /\ exists out, s_princ_cmd s = Some (out, true) /\ first_of (name_ok c) out o).
(** TrustedUserCAKeys *)
Definition by_authority (k : skey) (o : aopt) : Prop :=
  exists c trusted co, k_cert k = Some c /\ s_trusted s = Some trusted /\ trusted (c_ca c) = true /\ 0 <= now /\
    sshauthopt_from_cert pton k = Some co /\ meets pton now ip host co /\
    ((s_princ_files s = None /\ s_princ_cmd s = None /\ in_scope c ForUser true false now (Some user) /\ o = co) \/
     (~ (s_princ_files s = None /\ s_princ_cmd s = None) /\ in_scope c ForUser true false now None /\
      exists po, listed c po /\ meets pton now ip host po /\ a_ca po = 0 /\ a_princ po = None /\ sshauthopt_merge po co = Some o)).
Definition allowed (revoked : skey -> bool) (k : skey) (o : aopt) : Prop :=
  revoked k = false /\ (forall c, k_cert k = Some c -> revoked (mkK (c_ca c) None) = false) /\
  (by_file k o \/
   (forall o', ~ by_file k o') /\ (by_authority k o \/ (forall o', ~ by_authority k o') /\ by_command k o)).
End Routes.
