(** Model of the client's decision about a server's host key: sshconnect.c
    (confirm, get_hostfile_hostname_ipaddr, hostkey_accepted_by_hostkeyalgs,
    check_host_key, verify_host_key), dns.c (verify_host_key_dns), authfile.c
    (sshkey_in_file, sshkey_check_revoked), sshconnect2.c
    (verify_host_key_callback) and kex.c (kex_verify_host_key).  The lookup in
    known-hosts entries is the one of HostfileModel.

    Simplifications: messages are left out (the fingerprints computed for
    messages other than the question do not fail); memory does not run out
    except in sshkey_from_private. *)
From Coq Require Import String.
From Verif Require Import Base Text MatchModel HostfileModel.
Local Open Scope Z_scope.

(** readconf.h:225-228, sshconnect.c:951-953 *)
Definition STRICT_OFF : Z := 0.
Definition STRICT_NEW : Z := 1.
Definition STRICT_YES : Z := 2.
Definition STRICT_ASK : Z := 3.
Definition RDRW : Z := 0.
Definition RDONLY : Z := 1.
Definition ROQUIET : Z := 2.
Definition SSH_DEFAULT_PORT : Z := 22.

(** Settings that do not change. *)
Record hconf := mkHC {
  hc_local_exempt : bool;         (* no_host_authentication_for_localhost == 1 *)
  hc_alias : option (list Z);     (* host_key_alias *)
  hc_proxy : bool;                (* proxy_command != NULL *)
  hc_algs : list Z;               (* hostkeyalgorithms *)
  hc_strict : Z;                  (* strict_host_key_checking *)
  hc_batch : bool;
  hc_hash : bool;                 (* hash_known_hosts *)
  hc_exit : bool;                 (* exit_on_forward_failure *)
  hc_dns : Z;                     (* verify_host_key_dns *)
  hc_revoked : bool;              (* revoked_host_keys != NULL *)
  hc_port : Z;
  hc_user_files : Z               (* num_user_hostfiles *)
}.
(** Options the check changes. *)
Record hopts := mkHO {
  ho_check_ip : bool; ho_update : bool; ho_password : bool; ho_kbdint : bool; ho_agent : bool; ho_x11 : bool;
  ho_local : Z; ho_remote : Z; ho_tun : Z
}.
(** What happens besides: attempts to add a line to the first user file,
    questions with the fingerprint shown and whether they were confirmed. *)
Inductive hevent := HAdd (name : list Z) (k : hkey) | HAsk (fp : option (list Z)) (yes : bool).
Record hworld := mkHW { hw_o : hopts; hw_in : list (list Z); hw_log : list hevent }.

(** The surroundings of one check. *)
Record henv := mkEnv {
  en_local : bool;                                             (* sockaddr_is_local *)
  en_ntop : option (list Z);                                   (* getnameinfo *)
  en_files : list Z -> list hentry;                            (* user, then system files *)
  en_command : option (bool -> list Z -> option (list hentry));  (* KnownHostsCommand; true: ADDRESS; None: fatal *)
  en_system : hentry -> bool;                                  (* the entry's file is a system file *)
  en_cert_ok : hkey -> list Z -> bool;                         (* sshkey_cert_check_host *)
  en_plain : hkey -> option hkey;                              (* sshkey_from_private and sshkey_drop_cert of a certificate *)
  en_fp : hkey -> option (list Z);                             (* sshkey_fingerprint *)
  en_add : list Z -> bool;                                     (* add_host_to_hostfile succeeds *)
  en_revfile : hkey -> Z;                                      (* sshkey_check_revoked *)
  en_numeric : bool;                                           (* is_numeric_hostname *)
  en_rrset : option (bool * list (list Z));                    (* getrrsetbyname: validated, records *)
  en_digest : Z -> hkey -> option (list Z);                    (* sshkey_fingerprint_raw *)
  en_copy : hkey -> Z                                          (* sshkey_from_private *)
}.

(** ** Questions: sshconnect.c:575-600 confirm *)
Fixpoint skip_blank (s : list Z) : list Z :=
  match s with c :: r => if (c =? 32) || (c =? 9) then skip_blank r else s | [] => [] end.
Fixpoint upto_blank (s : list Z) : list Z :=
  match s with c :: r => if (c =? 32) || (c =? 9) || (c =? 10) then [] else c :: upto_blank r | [] => [] end.
Definition caseq (a b : list Z) : bool := beqb (map tolower a) (map tolower b).
(** [answers] are the lines read_passphrase gives; it gives the empty string
    when there are no more. *)
Fixpoint confirm_loop (fp : option (list Z)) (answers : list (list Z)) : bool * list (list Z) :=
  match answers with
  | [] => (false, [])
  | a :: r =>
      let p := upto_blank (skip_blank a) in
      if beqb p [] || caseq p (bs "no") then (false, r)
      else if caseq p (bs "yes") || (match fp with Some f => beqb p f | None => false end) then (true, r)
      else confirm_loop fp r
  end.
Definition confirm (batch : bool) (fp : option (list Z)) (w : hworld) : bool * hworld :=
  if batch then (false, mkHW (hw_o w) (hw_in w) (hw_log w ++ [HAsk fp false]))
  else let '(b, r) := confirm_loop fp (hw_in w) in (b, mkHW (hw_o w) r (hw_log w ++ [HAsk fp b])).

(** ** Names: misc.c:726-736 put_host_port, sshconnect.c:621-673.  [port] is a
    u_short. *)
Fixpoint dec_digits (fuel : nat) (n : Z) : list Z :=
  match fuel with
  | O => []
  | S f => if n <? 10 then [48 + n] else dec_digits f (n / 10) ++ [48 + n mod 10]
  end.
Definition put_host_port (host : list Z) (port : Z) : list Z :=
  if (port =? 0) || (port =? SSH_DEFAULT_PORT) then host else bs "[" ++ host ++ bs "]:" ++ dec_digits 6 port.
Definition file_host (cf : hconf) (hostname : list Z) (port : Z) : list Z :=
  match hc_alias cf with Some a => a | None => put_host_port hostname port end.
Definition file_ip (cf : hconf) (en : henv) (port : Z) : option (list Z) :=
  if hc_proxy cf then Some (bs "<no hostip for proxy command>")
  else match en_ntop en with None => None | Some a => Some (put_host_port a port) end.

(** sshconnect.c:998: at sign, question mark, asterisk, hash, brackets, bar,
    quotes and backslash. *)
Definition bad_char (c : Z) : bool :=
  (c =? 64) || (c =? 63) || (c =? 42) || (c =? 35) || (c =? 91) || (c =? 93) || (c =? 124) || (c =? 39) || (c =? 34) || (c =? 92).

(** ** sshconnect.c:725-742 hostkey_accepted_by_hostkeyalgs *)
Definition KEY_RSA : Z := 0.
Definition KEY_RSA_CERT : Z := 4.
Definition KEY_UNSPEC : Z := 14.
Definition in_algs (cf : hconf) (name : list Z) : bool :=
  match match_pattern_list name (hc_algs cf) false with Some r => r =? 1 | None => false end.
Definition accepted_alg (cf : hconf) (k : hkey) : bool :=
  if hk_type k =? KEY_UNSPEC then false
  else if (hk_type k =? KEY_RSA) && (in_algs cf (bs "rsa-sha2-256") || in_algs cf (bs "rsa-sha2-512")) then true
  else if (hk_type k =? KEY_RSA_CERT) && (in_algs cf (bs "rsa-sha2-512-cert-v01@openssh.com") || in_algs cf (bs "rsa-sha2-256-cert-v01@openssh.com")) then true
  else in_algs cf (hk_name k).

(** ** check_host_key *)
Inductive hres :=
| HAccept (w : hworld)
| HRefuse (w : hworld)
| HExit (w : hworld)       (** fatal *)
| HCrash (w : hworld)      (** a null pointer is read *)
| HLoop (w : hworld).      (** retried for ever *)

Definition set_check_ip (b : bool) (o : hopts) : hopts :=
  mkHO b (ho_update o) (ho_password o) (ho_kbdint o) (ho_agent o) (ho_x11 o) (ho_local o) (ho_remote o) (ho_tun o).
Definition no_update (o : hopts) : hopts :=
  mkHO (ho_check_ip o) false (ho_password o) (ho_kbdint o) (ho_agent o) (ho_x11 o) (ho_local o) (ho_remote o) (ho_tun o).
Definition with_o (f : hopts -> hopts) (w : hworld) : hworld := mkHW (f (hw_o w)) (hw_in w) (hw_log w).
Definition added (name : list Z) (k : hkey) (w : hworld) : hworld := mkHW (hw_o w) (hw_in w) (hw_log w ++ [HAdd name k]).

Definition st_eqb (a b : hstatus) : bool :=
  match a, b with
  | HOST_OK, HOST_OK | HOST_NEW, HOST_NEW | HOST_CHANGED, HOST_CHANGED | HOST_REVOKED, HOST_REVOKED | HOST_FOUND, HOST_FOUND => true
  | _, _ => false
  end.

(** sshconnect.c:1337-1388: the connection goes on without what a man in the
    middle could use. *)
Definition cancels (o : hopts) : bool :=
  ho_password o || ho_kbdint o || ho_agent o || ho_x11 o || (ho_local o >? 0) || (ho_remote o >? 0) || negb (ho_tun o =? 0).
Definition restricted (o : hopts) : hopts :=
  mkHO (ho_check_ip o) false false false false false
    (if (ho_local o >? 0) || (ho_remote o >? 0) then 0 else ho_local o)
    (if (ho_local o >? 0) || (ho_remote o >? 0) then 0 else ho_remote o) 0.

(** One attempt, from the label retry to the end or to the label fail. *)
Inductive pass_out :=
| PDone (r : hres)
| PFail (want_cert : bool) (st : option hstatus) (ro : Z) (w : hworld).

(** sshconnect.c:1403-1438: after the switch. *)
Definition after_switch (cf : hconf) (want_cert : bool) (st ipst : hstatus) (ro : Z) (trusted : bool) (w : hworld) : pass_out :=
  let '(ok, w) :=
    if ho_check_ip (hw_o w) && negb (st_eqb st HOST_CHANGED) && st_eqb ipst HOST_CHANGED then
      if hc_strict cf =? STRICT_ASK then confirm (hc_batch cf) None w
      else if negb (hc_strict cf =? STRICT_OFF) then (false, w)
      else (true, w)
    else (true, w) in
  if ok then PDone (HAccept (if trusted then w else with_o no_update w)) else PFail want_cert (Some st) ro w.

(** sshconnect.c:1337-1400 *)
Definition continue_unsafe (cf : hconf) (want_cert : bool) (st ipst : hstatus) (ro : Z) (w : hworld) : pass_out :=
  if hc_exit cf && cancels (hw_o w) then PDone (HExit (with_o restricted w))
  else after_switch cf want_cert st ipst ro false (with_o restricted w).

(** sshconnect.c:1231-1262: a new host is added. *)
Definition add_new (cf : hconf) (en : henv) (host ip : list Z) (k : hkey) (ipst : hstatus) (w : hworld) : hworld :=
  if ho_check_ip (hw_o w) && st_eqb ipst HOST_NEW then
    if hc_hash cf then
      let w := added host k w in
      if en_add en host then added ip k w else w
    else added (ztake 999 (host ++ bs "," ++ ip)) k w
  else added host k w.

(** sshconnect.c:1043-1438 *)
Definition one_pass (cf : hconf) (en : henv) (clobber : bool) (port : Z) (nested : hkey -> hworld -> hres)
    (hostname host ip : list Z) (hkeys : list hentry) (ipkeys : option (list hentry))
    (k : hkey) (want_cert : bool) (st : option hstatus) (ro : Z) (w : hworld) : pass_out :=
  if negb (accepted_alg cf k) then PFail want_cert st ro w
  else
    let want_cert := sshkey_is_cert k in
    let '(st, hf) := check_key_in_hostkeys hkeys k in
    let ro := if (ro =? RDRW) && ((hc_user_files cf =? 0) || match hf with Some e => negb (he_note e =? 0) | None => false end) then RDONLY else ro in
    let '(ipst, ipf, differ) :=
      match (if want_cert then None else ipkeys) with
      | Some ik =>
          let '(s, f) := check_key_in_hostkeys ik k in
          (s, f, st_eqb st HOST_CHANGED && (negb (st_eqb s HOST_CHANGED) ||
            match f, hf with Some a, Some b => negb (sshkey_equal (he_key a) (he_key b)) | _, _ => false end))
      | None => (st, None, false)
      end in
    match st with
    | HOST_OK =>
        if want_cert && negb (en_cert_ok en k (match hc_alias cf with Some a => a | None => hostname end)) then PFail want_cert (Some st) ro w
        else
          let w := if want_cert then with_o no_update w else w in
          let sys f := match f with Some e => en_system en e | None => false end in
          let w := if sys hf || (st_eqb ipst HOST_OK && sys ipf) then with_o no_update w else w in
          let w := match hf with Some e => if he_note e =? 0 then w else with_o no_update w | None => w end in
          let w := if ho_check_ip (hw_o w) && st_eqb ipst HOST_NEW then
                     (if negb (ro =? RDRW) || want_cert then w else added ip k w) else w in
          after_switch cf want_cert st ipst ro true w
    | HOST_NEW =>
        let try_port := negb (is_some (hc_alias cf)) && negb (port =? 0) && negb (port =? SSH_DEFAULT_PORT) && negb clobber in
        match (if try_port then nested k w else HRefuse w) with
        | HAccept w => after_switch cf want_cert st ipst ro false w
        | HRefuse w =>
            if negb (ro =? RDRW) || want_cert then PFail want_cert (Some st) ro w
            else if hc_strict cf =? STRICT_YES then PFail want_cert (Some st) ro w
            else if hc_strict cf =? STRICT_ASK then
              match en_fp en k with
              | None => PDone (HExit w)
              | Some fp =>
                  let '(yes, w) := confirm (hc_batch cf) (Some fp) w in
                  if negb yes then PFail want_cert (Some st) ro w
                  else after_switch cf want_cert st ipst ro true (add_new cf en host ip k ipst w)
              end
            else after_switch cf want_cert st ipst ro false (add_new cf en host ip k ipst w)
        | other => PDone other
        end
    | HOST_REVOKED =>
        if negb (hc_strict cf =? STRICT_OFF) then PFail want_cert (Some st) ro w
        else continue_unsafe cf want_cert st ipst ro w
    | HOST_CHANGED =>
        if want_cert then PFail want_cert (Some st) ro w
        else if ro =? ROQUIET then PFail want_cert (Some st) ro w
        else if ho_check_ip (hw_o w) && differ && negb (st_eqb ipst HOST_NEW) && negb (is_some ipf) then PDone (HCrash w)
        else if negb (hc_strict cf =? STRICT_OFF) then PFail want_cert (Some st) ro w
        else continue_unsafe cf want_cert st ipst ro w
    | HOST_FOUND => PDone (HExit w)
    end.

(** sshconnect.c:1445-1456: the label fail.  A certificate is given up for its
    plain key.  [want_cert] may be that of the previous attempt. *)
Definition downgrade (en : henv) (k : hkey) : option hkey := if sshkey_is_cert k then en_plain en k else None.
Definition not_revoked (st : option hstatus) : bool := match st with Some s => negb (st_eqb s HOST_REVOKED) | None => true end.
Definition passes (en : henv) (pass : hkey -> bool -> option hstatus -> Z -> hworld -> pass_out) (k : hkey) (ro : Z) (w : hworld) : hres :=
  match pass k (sshkey_is_cert k) None ro w with
  | PDone r => r
  | PFail wc st ro w =>
      if wc && not_revoked st then
        match downgrade en k with
        | None => HExit w
        | Some k1 =>
            match pass k1 wc st ro w with
            | PDone r => r
            | PFail wc st ro w =>
                if wc && not_revoked st then (match downgrade en k1 with None => HExit w | Some _ => HLoop w end)
                else HRefuse w
            end
        end
      else HRefuse w
  end.

(** The entries for a name: sshconnect.c:1020-1028, 1033-1040. *)
Definition lookup (en : henv) (clobber address : bool) (name : list Z) : option (list hentry) :=
  match (if clobber then None else en_command en) with
  | None => Some (en_files en name)
  | Some f => match f address name with None => None | Some es => Some (en_files en name ++ es) end
  end.

(** sshconnect.c:954-1466 check_host_key *)
Definition check_with (cf : hconf) (en : henv) (nested : hkey -> hworld -> hres)
    (hostname : list Z) (port : Z) (k : hkey) (ro : Z) (clobber : bool) (w : hworld) : hres :=
  if hc_local_exempt cf && en_local en && negb (is_some (hc_alias cf)) then HAccept (with_o no_update w)
  else
    let ro := if existsb bad_char hostname then RDONLY else ro in
    let p := if clobber then 0 else port in
    let host := file_host cf hostname p in
    match file_ip cf en p with
    | None => HExit w
    | Some ip =>
        let w := if ho_check_ip (hw_o w) && (en_local en || beqb hostname ip || hc_proxy cf) then with_o (set_check_ip false) w else w in
        match lookup en clobber false host with
        | None => HExit w
        | Some hkeys =>
            if negb (sshkey_is_cert k) && ho_check_ip (hw_o w) then
              match lookup en clobber true ip with
              | None => HExit w
              | Some ik => passes en (one_pass cf en clobber port nested hostname host ip hkeys (Some ik)) k ro w
              end
            else passes en (one_pass cf en clobber port nested hostname host ip hkeys None) k ro w
        end
    end.
(** The call without the port (sshconnect.c:1159-1163) cannot nest again. *)
Definition check_portless (cf : hconf) (en : henv) (hostname : list Z) (k : hkey) (w : hworld) : hres :=
  check_with cf en (fun _ w => HCrash w) hostname 0 k ROQUIET true w.
Definition check_host_key (cf : hconf) (en : henv) (hostname : list Z) (port : Z) (k : hkey) (ro : Z) (w : hworld) : hres :=
  check_with cf en (check_portless cf en hostname) hostname port k ro false w.

(** ** dns.c:80-126 dns_read_key: the algorithm number of the key *)
Definition sshfp_alg (t : Z) : Z :=
  if t =? 0 then 1 else if t =? 1 then 2 else if t =? 2 then 3 else if t =? 3 then 4 else if t =? 8 then 5 else 0.
(** dns.c:238-282: the records one after the other; flags FOUND 1, MATCH 2,
    SECURE 4, FAILED 8. *)
Inductive dns_out := DnsRet (r flags : Z) | DnsExit.
Fixpoint dns_records (en : henv) (k : hkey) (rs : list (list Z)) (flags : Z) : dns_out :=
  match rs with
  | [] => DnsRet 0 flags
  | rdata :: rest =>
      if zlen rdata <? 2 then dns_records en k rest flags
      else
        let alg := nth 0 rdata 0 in let dtype := nth 1 rdata 0 in let digest := zdrop 2 rdata in
        let dtype := if (dtype =? 1) || (dtype =? 2) then dtype else 0 in
        if (sshfp_alg (hk_type k) =? 0) || (dtype =? 0) then DnsRet (-1) flags
        else match en_digest en dtype k with
             | None => DnsExit
             | Some d =>
                 let flags :=
                   if (sshfp_alg (hk_type k) =? alg) && (zlen d =? zlen digest) then
                     Z.lor flags (if beqb d digest then 2 else 8)
                   else flags in
                 dns_records en k rest flags
             end
  end.
(** dns.c:196-300 verify_host_key_dns *)
Definition verify_host_key_dns (en : henv) (k : hkey) : dns_out :=
  if en_numeric en then DnsRet (-1) 0
  else match en_rrset en with
       | None => DnsRet (-1) 0
       | Some (validated, rs) =>
           let flags := if validated then 4 else 0 in
           let flags := if zlen rs =? 0 then flags else Z.lor flags 1 in
           match dns_records en k rs flags with
           | DnsRet r flags => if r =? 0 then DnsRet 0 (if negb (Z.land flags 8 =? 0) then Z.land flags (Z.lnot 2) else flags) else DnsRet r flags
           | DnsExit => DnsExit
           end
       end.

(** ** sshconnect.c:1469-1581 verify_host_key.  [prev] is previous_host_key. *)
Inductive vres := VRet (r : Z) (prev : option hkey) (w : hworld) | VEnd (r : hres).
Definition equal_opt (a : option hkey) (b : hkey) : bool := match a with Some k => sshkey_equal k b | None => false end.
(** The label out. *)
Definition verify_out (en : henv) (r : Z) (prev : option hkey) (k : hkey) (w : hworld) : vres :=
  if r =? 0 then VRet (en_copy en k) (if en_copy en k =? 0 then Some k else None) w else VRet r prev w.
Definition verify_host_key (cf : hconf) (en : henv) (hostname : list Z) (k : hkey) (prev : option hkey) (w : hworld) : vres :=
  match en_fp en k with
  | None => verify_out en (-1) prev k w
  | Some _ =>
      if equal_opt prev k then verify_out en 0 prev k w
      else if hc_revoked cf && negb (en_revfile en k =? 0) then verify_out en (-1) prev k w
      else
        let check w :=
          match check_host_key cf en hostname (hc_port cf) k RDRW w with
          | HAccept w => verify_out en 0 prev k w
          | HRefuse w => verify_out en (-1) prev k w
          | other => VEnd other
          end in
        if hc_dns cf =? 0 then check w
        else if negb (en_copy en k =? 0) then verify_out en (en_copy en k) prev k w
        else
          match (if sshkey_is_cert k then en_plain en k else Some k) with
          | None => VEnd (HExit w)
          | Some plain =>
              match verify_host_key_dns en plain with
              | DnsExit => VEnd (HExit w)
              | DnsRet r flags =>
                  if (r =? 0) && negb (Z.land flags 1 =? 0) && (hc_dns cf =? 1) && negb (Z.land flags 2 =? 0) && negb (Z.land flags 4 =? 0)
                  then verify_out en 0 prev k w
                  else check w
              end
          end
  end.

(** sshconnect2.c:93-105 verify_host_key_callback with kex.c:1184-1199
    kex_verify_host_key: the key exchange goes on exactly in the first case.
    [rsa_ok] is sshkey_check_rsa_length, [want] the negotiated type and curve. *)
Inductive kres := KGoOn (prev : option hkey) (w : hworld) | KMismatch | KEnd.
Definition kex_verify (cf : hconf) (en : henv) (hostname : list Z) (want : Z * Z) (rsa_ok : hkey -> bool) (k : hkey) (prev : option hkey) (w : hworld) : kres :=
  if negb (hk_type k =? fst want) || ((fst want =? KEY_ECDSA) && negb (hk_nid k =? snd want)) then KMismatch
  else if negb (rsa_ok k) then KEnd
  else match verify_host_key cf en hostname k prev w with
       | VRet r prev w => if negb (r =? 0) then KEnd else KGoOn prev w
       | VEnd _ => KEnd
       end.

(** The key exchanges of one connection: the surroundings, negotiated type and
    key of each. *)
Fixpoint kex_history (cf : hconf) (hostname : list Z) (rsa_ok : hkey -> bool) (xs : list (henv * (Z * Z) * hkey)) (prev : option hkey) (w : hworld) : kres :=
  match xs with
  | [] => KGoOn prev w
  | (en, want, k) :: r =>
      match kex_verify cf en hostname want rsa_ok k prev w with
      | KGoOn prev w => kex_history cf hostname rsa_ok r prev w
      | other => other
      end
  end.

(** ** authfile.c:375-433 sshkey_in_file with strict_type = 0, check_ca = 1.
    [read] is sshkey_read: a key, or an error. *)
Definition KEY_LENGTH_ERR : Z := -56.
Definition KEY_NOT_FOUND_ERR : Z := -46.
Definition KEY_REVOKED_ERR : Z := -51.
Definition BAD_MAGIC_ERR : Z := -50.
Definition SYSTEM_ERR : Z := -24.
Fixpoint in_file_lines (read : list Z -> hkey + Z) (k : hkey) (lines : list (list Z)) : Z :=
  match lines with
  | [] => KEY_NOT_FOUND_ERR
  | l :: r =>
      let cp := skip_blank l in
      if match cp with [] => true | c :: _ => (c =? 35) || (c =? 10) || (c =? 0) end then in_file_lines read k r
      else match read cp with
           | inr e => if e =? KEY_LENGTH_ERR then in_file_lines read k r else e
           | inl pub => if equal_public k pub || (sshkey_is_cert k && ca_is k pub) then 0 else in_file_lines read k r
           end
  end.
Definition sshkey_in_file (read : list Z -> hkey + Z) (k : hkey) (file : option (list (list Z))) : Z :=
  match file with None => SYSTEM_ERR | Some ls => in_file_lines read k ls end.
(** authfile.c:442-467 sshkey_check_revoked; [krl] is ssh_krl_file_contains_key. *)
Definition sshkey_check_revoked (krl : hkey -> Z) (read : list Z -> hkey + Z) (file : option (list (list Z))) (k : hkey) : Z :=
  if negb (krl k =? BAD_MAGIC_ERR) then krl k
  else let r := sshkey_in_file read k file in
       if r =? 0 then KEY_REVOKED_ERR else if r =? KEY_NOT_FOUND_ERR then 0 else r.
