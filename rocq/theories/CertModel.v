(** sshkey.c:2409-2504, auth2-pubkeyfile.c, auth2-pubkey.c: when a public key or
    certificate lets a user in, and when a host certificate is believed.

    Reading a key off a line (sshkey_read), address parsing, services and times are
    parameters.  Files are the lists of their lines as getline returns them; opening
    them and the safe-path checks are not modelled.  Log messages are left out. *)
From Coq Require Import String.
From Verif Require Import Base Text MatchModel MiscNumModel AddrModel PermitModel AuthOptModel.

(** sshkey.c:2409-2466 (sshkey_cert_check_authority); [name]: None for a null name *)
Definition principal_matches (wildcard : bool) (name p : list Z) : bool :=
  if wildcard then match_pattern p name else beqb name p.
Definition check_authority (k : skey) (want_host require wildcard : bool) (t : Z) (name : option (list Z)) : bool :=
  match k_cert k with
  | None => false
  | Some c =>
    if (if want_host then negb (c_type c =? SSH2_CERT_TYPE_HOST) else negb (c_type c =? SSH2_CERT_TYPE_USER)) then false
    else if t <? c_after c then false
    else if c_before c <=? t then false
    else if is_nil (c_principals c) then negb require
    else match name with
         | None => true
         | Some n => existsb (principal_matches wildcard n) (c_principals c)
         end
  end.
(** sshkey.c:2468-2482; [now] is time(NULL) *)
Definition check_authority_now (now : Z) (k : skey) (want_host require wildcard : bool) (name : option (list Z)) : bool :=
  if now <? 0 then false else check_authority k want_host require wildcard now name.
(** sshkey.c:2484-2504, 2133-2144; [algs]: None for a null list *)
Definition check_host (now : Z) (k : skey) (host : list Z) (wildcard : bool) (algs : option (list Z)) : bool :=
  check_authority_now now k true false wildcard (Some host) &&
  match k_cert k with
  | None => false
  | Some c => is_nil (c_critical c) &&
              match algs with
              | None => true
              | Some a => match match_pattern_list (c_sigtype c) a false with Some v => v =? 1 | None => false end
              end
  end.

Section Files.
Variable pton : list Z -> option xaddr.
Variable serv : list Z -> option Z.
Variable ptime : list Z -> option Z.
(** sshkey_read: what identifies the key at the front of the text *)
Variable rd : list Z -> option (list Z).
Variable now : Z.
Variables ip host user : list Z.

(** auth2-pubkeyfile.c:54-141 (auth_authorise_keyopts) *)
Definition authorise_keyopts (o : aopt) (allow_ca : bool) : bool :=
  if negb (a_expiry o =? 0) && (0 <? now) && (a_expiry o <? now) then false
  else if match a_princ o with Some _ => a_ca o =? 0 | None => false end then false
  else if negb allow_ca && negb (a_ca o =? 0) then false
  else if match a_from_keys o with
          | Some l => match match_host_and_ip pton (Some host) (Some ip) l with Some v => negb (v =? 1) | None => true end
          | None => false
          end then false
  else match a_from_cert o with
       | Some l => addr_match_cidr_list pton (Some ip) l =? 1
       | None => true
       end.
(** auth2-pubkeyfile.c:143-161 (match_principals_option) *)
Definition match_principals_option (l : list Z) (c : cert) : bool :=
  existsb (fun p => match match_list p l with Some _ => true | None => false end) (c_principals c).

(** auth2-pubkeyfile.c:168-217 (auth_check_principals_line).  Trailing newline and
    blanks are removed, but never the first character. *)
Fixpoint trim_rev (r : list Z) : list Z :=
  match r with
  | c :: r' => if is_nil r' then r else if (c =? 10) || (c =? 32) || (c =? 9) then trim_rev r' else r
  | [] => []
  end.
Definition trim (s : list Z) : list Z := rev (trim_rev (rev s)).
Fixpoint skip_blanks (s : list Z) : list Z :=
  match s with c :: r => if (c =? 32) || (c =? 9) then skip_blanks r else s | [] => [] end.
(** The principal of a line, and the text of its options if it has a blank *)
Definition split_line (s : list Z) : list Z * option (list Z) :=
  match strrchr_cut 32 s with
  | Some (_, b) => (skip_blanks b, Some s)
  | None => match strrchr_cut 9 s with
            | Some (_, b) => (skip_blanks b, Some s)
            | None => (s, None)
            end
  end.
Definition check_principals_line (cp : list Z) (c : cert) : option aopt :=
  let '(name, line_opts) := split_line (trim cp) in
  match sshauthopt_parse serv ptime line_opts with
  | None => None
  | Some o => if existsb (beqb name) (c_principals c) then Some o else None
  end.
(** auth2-pubkeyfile.c:219-257 (auth_process_principals) *)
Definition cut_comment (s : list Z) : list Z := match strchr_cut 35 s with Some (a, _) => a | None => s end.
Fixpoint process_principals (lines : list (list Z)) (c : cert) : option aopt :=
  match lines with
  | [] => None
  | l :: r =>
    let cp := cut_comment (skip_blanks l) in
    if match cp with [] => true | x :: _ => x =? 10 end then process_principals r c
    else match check_principals_line cp c with Some o => Some o | None => process_principals r c end
  end.

(** auth2-pubkeyfile.c:264-399 (auth_check_authkey_line) *)
Definition check_authkey_line (k : skey) (cp : list Z) : option aopt :=
  let key_and_options :=
    match rd cp with
    | Some found => Some (found, None)
    | None => match sshkey_advance_past_options cp with
              | None => None
              | Some rest => match rd (skip_blanks rest) with
                             | None => None
                             | Some found => Some (found, Some cp)
                             end
              end
    end in
  match key_and_options with
  | None => None
  | Some (found, key_options) =>
    match sshauthopt_parse serv ptime key_options with
    | None => None
    | Some keyopts =>
      match k_cert k with
      | None =>
        if negb (beqb found (k_pub k)) || negb (a_ca keyopts =? 0) then None
        else if authorise_keyopts keyopts false then Some keyopts else None
      | Some c =>
        if negb (beqb found (c_ca c)) || (a_ca keyopts =? 0) then None
        else if negb (authorise_keyopts keyopts true) then None
        else match sshauthopt_from_cert pton k with
             | None => None
             | Some certopts =>
               if negb (authorise_keyopts certopts false) then None
               else match sshauthopt_merge keyopts certopts with
                    | None => None
                    | Some final =>
                      if match a_princ keyopts with Some l => negb (match_principals_option l c) | None => false end then None
                      else if check_authority_now now k false false false
                                (match a_princ keyopts with Some _ => None | None => Some user end)
                      then Some final else None
                    end
             end
      end
    end
  end.
(** auth2-pubkeyfile.c:405-438 (auth_check_authkeys_file) *)
Fixpoint check_authkeys_file (k : skey) (lines : list (list Z)) : option aopt :=
  match lines with
  | [] => None
  | l :: r =>
    let cp := skip_blanks l in
    if match cp with [] => true | x :: _ => (x =? 10) || (x =? 35) end then check_authkeys_file k r
    else match check_authkey_line k cp with Some o => Some o | None => check_authkeys_file k r end
  end.
Fixpoint first_file {A} (f : A -> option aopt) (l : list A) : option aopt :=
  match l with [] => None | x :: r => match f x with Some o => Some o | None => first_file f r end end.

(** The configuration that matters here: TrustedUserCAKeys (whether the file lists
    the key), AuthorizedPrincipalsFile (the readable files), and the output of
    AuthorizedPrincipalsCommand and AuthorizedKeysCommand with whether the command
    exited cleanly; [None]: not configured. *)
Record sources := mkSrc {
  s_files : list (list (list Z));
  s_trusted : option (list Z -> bool);
  s_princ_files : option (list (list (list Z)));
  s_princ_cmd : option (list (list Z) * bool);
  s_keys_cmd : option (list (list Z) * bool);
}.
(** auth2-pubkey.c:318-373 and 375-513, the result of reading the output *)
Definition from_cmd {A} (f : list (list Z) -> option A) (c : option (list (list Z) * bool)) : option A :=
  match c with Some (out, clean) => if clean then f out else None | None => None end.
(** auth2-pubkey.c:515-618 (user_cert_trusted_ca) *)
Definition user_cert_trusted_ca (s : sources) (k : skey) : option aopt :=
  match k_cert k, s_trusted s with
  | Some c, Some trusted =>
    if negb (trusted (c_ca c)) then None
    else
      let found := match s_princ_files s with
                   | Some fs => first_file (fun f => process_principals f c) fs
                   | None => None
                   end in
      let found := match found with Some o => Some o | None => from_cmd (fun f => process_principals f c) (s_princ_cmd s) end in
      let use := match s_princ_files s, s_princ_cmd s with None, None => false | _, _ => true end in
      if use && match found with None => true | Some _ => false end then None
      else if negb (check_authority_now now k false true false (if use then None else Some user)) then None
      else match sshauthopt_from_cert pton k with
           | None => None
           | Some cert_opts =>
             if negb (authorise_keyopts cert_opts false) then None
             else match found with
                  | None => Some cert_opts
                  | Some po => if negb (authorise_keyopts po false) then None
                               else sshauthopt_merge po cert_opts
                  end
           end
  | _, _ => None
  end.
(** auth2-pubkey.c:785-873 (user_key_allowed); [revoked]: auth_key_is_revoked *)
Definition user_key_allowed (revoked : skey -> bool) (s : sources) (k : skey) : option aopt :=
  if revoked k then None
  else if match k_cert k with Some c => revoked (mkK (c_ca c) None) | None => false end then None
  else match first_file (check_authkeys_file k) (s_files s) with
       | Some o => Some o
       | None => match user_cert_trusted_ca s k with
                 | Some o => Some o
                 | None => from_cmd (check_authkeys_file k) (s_keys_cmd s)
                 end
       end.
End Files.
