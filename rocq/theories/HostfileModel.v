(** Executable model of the known-hosts file: hostfile.c (parsing, hashed names,
    looking keys up, adding and replacing entries) and sshkey_read / sshkey_write.

    The line buffer that getline keeps between lines is modelled as memory: a
    pointer into it is the list of bytes from there to the end of the
    allocation, and reading past the end is the distinct outcome "undefined"
    (None).  A fresh or enlarged buffer contains arbitrary bytes.

    Parameters ([hprims]): the key-type name table, the parser of a public key
    blob and HMAC-SHA1.
    Simplifications: allocation does not fail; only the mode in which keys are
    parsed (HKF_WANT_PARSE_KEY) is modelled; log messages are left out. *)
From Coq Require Import String.
From Verif Require Import Base Text SshbufModel MatchModel Base64Model.

(** A host key.  [hk_id] identifies the public part including the plain type
    (what sshkey_equal_public compares), [hk_cert] is the certificate: its blob
    and the identity of the CA key that signed it. *)
Record hkey := mkHK {
  hk_type : Z;
  hk_nid : Z;
  hk_name : list Z;             (* sshkey_ssh_name *)
  hk_blob : list Z;             (* sshkey_to_blob *)
  hk_id : list Z;
  hk_cert : option (list Z * list Z)
}.
Record hprims := mkHP {
  hp_type : list Z -> option (Z * Z);       (* peek_type_nid, sshkey.c *)
  hp_parse : list Z -> option hkey;         (* sshkey_fromb *)
  hp_hmac : list Z -> list Z -> list Z      (* HMAC-SHA1 keyed by the salt *)
}.
Definition is_some {A} (o : option A) : bool := match o with Some _ => true | None => false end.
(** sshkey_is_cert, sshkey_equal_public, sshkey_equal: sshkey.c 426-431, 810-862 *)
Definition sshkey_is_cert (k : hkey) : bool := is_some (hk_cert k).
Definition equal_public (a b : hkey) : bool := beqb (hk_id a) (hk_id b).
Definition sshkey_equal (a b : hkey) : bool :=
  (hk_type a =? hk_type b) &&
  (if sshkey_is_cert a then
     match hk_cert a, hk_cert b with
     | Some (x, _), Some (y, _) => beqb x y
     | None, None => true
     | _, _ => false
     end else true) && equal_public a b.
(** sshkey_equal_public(k->cert->signature_key, e) *)
Definition ca_is (k e : hkey) : bool :=
  match hk_cert k with Some (_, ca) => beqb ca (hk_id e) | None => false end.

(** ** Characters in memory *)
Definition wsp (c : Z) : bool := (c =? 32) || (c =? 9).
(** for (; *cp == ' ' || *cp == '\t'; cp++) ; *)
Fixpoint skip_ws (p : list Z) : option (list Z) :=
  match p with [] => None | c :: r => if wsp c then skip_ws r else Some p end.
(** for (cp2 = cp; *cp2 && *cp2 != ' ' && *cp2 != '\t'; cp2++): what was passed
    and the pointer *)
Fixpoint word (p : list Z) : option (list Z * list Z) :=
  match p with
  | [] => None
  | c :: r => if (c =? 0) || wsp c then Some ([], p) else
              match word r with Some (w, q) => Some (c :: w, q) | None => None end
  end.
(** The C string at a pointer *)
Fixpoint cstring (p : list Z) : option (list Z) :=
  match p with
  | [] => None
  | c :: r => if c =? 0 then Some [] else match cstring r with Some s => Some (c :: s) | None => None end
  end.
(** strcspn(s, " \t") as prefix and rest *)
Fixpoint till_ws (s : list Z) : list Z * list Z :=
  match s with
  | [] => ([], [])
  | c :: r => if wsp c then ([], s) else let '(a, b) := till_ws r in (c :: a, b)
  end.
Fixpoint drop_ws (s : list Z) : list Z :=
  match s with [] => [] | c :: r => if wsp c then drop_ws r else s end.

(** sshkey_read into an empty key, sshkey.c (the KEY_UNSPEC case); the text is the
    C string.  Only success matters to the callers here. *)
Definition sshkey_read (P : hprims) (s : list Z) : option hkey :=
  let '(name, r) := till_ws s in
  match r with
  | [] => None
  | _ =>
    match hp_type P name with
    | None => None
    | Some (type, nid) =>
        match drop_ws r with
        | [] => None
        | r1 =>
            let '(b64, _) := till_ws r1 in
            match sshbuf_b64tod [] b64 (fun _ => 0) with
            | BOk blob =>
                match hp_parse P blob with
                | None => None
                | Some k => if negb (hk_type k =? type) then None
                            else if negb (hk_nid k =? nid) then None else Some k
                end
            | _ => None
            end
        end
    end
  end.
(** sshkey_write / sshkey_format_text: name, space, base64 of the blob; None:
    an error is returned *)
Definition sshkey_write (k : hkey) : option (list Z) :=
  match sshbuf_dtob64 (hk_blob k) [] false with
  | BOk t => Some (hk_name k ++ 32 :: t)
  | _ => None
  end.

(** ** Hashed names *)
Definition HASH_MAGIC : list Z := bs "|1|".
Definition HASH_DELIM : Z := 124.
(** memchr(s, HASH_DELIM, l): what stands before it *)
Fixpoint before (c : Z) (s : list Z) : option (list Z) :=
  match s with [] => None | x :: r => if x =? c then Some [] else match before c r with Some a => Some (x :: a) | None => None end end.
(** extract_salt, hostfile.c 68-112: the target has 256 bytes *)
Definition extract_salt (s : list Z) (junk : list Z) : option (list Z) :=
  if zlen s <? 3 then None else
  if negb (beqb (ztake 3 s) HASH_MAGIC) then None else
  match before HASH_DELIM (zdrop 3 s) with
  | None => None
  | Some b64salt =>
      if (zlen b64salt =? 0) || (1024 <? zlen b64salt) then None else
      match b64_pton b64salt junk with
      | POk n t => if n =? 20 then Some (ztake n t) else None
      | _ => None
      end
  end.
(** host_hash with a given salt, hostfile.c 132-149 *)
Definition hash_with (P : hprims) (salt host : list Z) : option (list Z) :=
  match b64_ntop salt 512, b64_ntop (hp_hmac P salt host) 512 with
  | NOk a, NOk b => Some (HASH_MAGIC ++ a ++ HASH_DELIM :: b)
  | _, _ => None
  end.
(** host_hash of a name taken from a file *)
Definition host_hash (P : hprims) (host names : list Z) : option (list Z) :=
  match extract_salt names (repeat 0 256) with
  | None => None
  | Some salt => hash_with P salt host
  end.
(** match_maybe_hashed, hostfile.c 738-758: None is -1 *)
Definition match_maybe_hashed (P : hprims) (host names : list Z) : option bool :=
  match names with
  | c :: _ => if c =? HASH_DELIM then
                match host_hash P host names with
                | None => None
                | Some h => Some (beqb h names)
                end
              else match match_hostname host names with Some 1 => Some true | _ => Some false end
  | [] => match match_hostname host names with Some 1 => Some true | _ => Some false end
  end.

(** ** Lines *)
Inductive marker := MRK_ERROR | MRK_NONE | MRK_REVOKE | MRK_CA.
Definition marker_eqb (a b : marker) : bool :=
  match a, b with
  | MRK_ERROR, MRK_ERROR | MRK_NONE, MRK_NONE | MRK_REVOKE, MRK_REVOKE | MRK_CA, MRK_CA => true
  | _, _ => false
  end.
Definition CA_MARKER : list Z := bs "@cert-authority".
Definition REVOKE_MARKER : list Z := bs "@revoked".
(** strchr: the characters before it and the pointer to it; the outer None is a
    read past the allocation *)
Fixpoint strchr (c : Z) (p : list Z) : option (option (list Z * list Z)) :=
  match p with
  | [] => None
  | x :: r => if x =? c then Some (Some ([], p))
              else if x =? 0 then Some None
              else match strchr c r with
                   | None => None
                   | Some None => Some None
                   | Some (Some (a, q)) => Some (Some (x :: a, q))
                   end
  end.
(** One turn of the loop of check_markers, hostfile.c 179-204: Some None is
    MRK_ERROR *)
Definition one_marker (cp : list Z) : option (option (marker * list Z)) :=
  match strchr 32 cp with
  | None => None
  | Some sp =>
    match (match sp with Some _ => Some sp | None => strchr 9 cp end) with
    | None => None
    | Some None => Some None
    | Some (Some (m, q)) =>
        if (zlen m <=? 1) || (32 <=? zlen m) then Some None else
        let mk := if beqb m CA_MARKER then MRK_CA else if beqb m REVOKE_MARKER then MRK_REVOKE else MRK_ERROR in
        match mk with
        | MRK_ERROR => Some None
        | _ => match skip_ws q with None => None | Some cp' => Some (Some (mk, cp')) end
        end
    end
  end.
Definition at_sign (p : list Z) : bool := match p with c :: _ => c =? 64 | [] => false end.
(** check_markers, hostfile.c 173-210 *)
Definition check_markers (cp : list Z) : option (marker * list Z) :=
  if at_sign cp then
    match one_marker cp with
    | None => None
    | Some None => Some (MRK_ERROR, cp)
    | Some (Some (m, cp')) => if at_sign cp' then Some (MRK_ERROR, cp) else Some (m, cp')
    end
  else Some (MRK_NONE, cp).

Inductive lstatus := HKF_OK | HKF_INVALID | HKF_COMMENT | HKF_MATCHED.
(** struct hostkey_foreach_line as the callback sees it; the match bits for the
    host name and the address are booleans, the hashed bits are left out *)
Record line_info := mkLI {
  li_line : list Z;
  li_status : lstatus;
  li_host : bool;
  li_ip : bool;
  li_marker : marker;
  li_key : option hkey
}.
(** What one line does: nothing, a call of the callback, or undefined behaviour *)
Inductive lres := LSkip | LCall (i : line_info) | LUb.

(** line[strcspn(line, "\n")] = '\0' *)
Fixpoint cut_nl (m : list Z) : list Z :=
  match m with
  | [] => []
  | c :: r => if c =? 10 then 0 :: r else if c =? 0 then m else c :: cut_nl r
  end.
(** The state of the line buffer after *cp2 = '\0' *)
Definition poke (mem cp2 : list Z) : list Z :=
  ztake (zlen mem - zlen cp2) mem ++ match cp2 with [] => [] | _ :: r => 0 :: r end.

(** The body of the loop of hostkeys_foreach_file, hostfile.c 780-922; [mem] is the
    line buffer after the newline was removed; [ip] may be absent.  The result
    carries the buffer as it is left for the next line. *)
Definition foreach_line (P : hprims) (host : list Z) (ip : option (list Z)) (want_match : bool) (mem : list Z) : lres * list Z :=
  match cstring mem, skip_ws mem with
  | Some line, Some cp =>
      match cp with
      | [] => (LUb, mem)
      | c :: _ =>
        if (c =? 0) || (c =? 35) || (c =? 10) then
          ((if want_match then LSkip else LCall (mkLI line HKF_COMMENT false false MRK_NONE None)), mem)
        else
        match check_markers cp with
        | None => (LUb, mem)
        | Some (MRK_ERROR, _) =>
            ((if want_match then LSkip else LCall (mkLI line HKF_INVALID false false MRK_ERROR None)), mem)
        | Some (mk, cp1) =>
            match word cp1 with
            | None => (LUb, mem)
            | Some (hosts, cp2) =>
                let mem' := poke mem cp2 in
                match match_maybe_hashed P host hosts with
                | None => (LCall (mkLI line HKF_INVALID false false mk None), mem')
                | Some mh =>
                    match (match ip with None => Some false | Some a => match_maybe_hashed P a hosts end) with
                    | None => (LCall (mkLI line HKF_INVALID mh false mk None), mem')
                    | Some mi =>
                        let st := if mh || mi then HKF_MATCHED else HKF_OK in
                        if want_match && negb (mh || mi) then (LSkip, mem') else
                        (* the pointer is one past the NUL just written *)
                        match skip_ws (tl cp2) with
                        | None => (LUb, mem')
                        | Some q =>
                            match q with
                            | [] => (LUb, mem')
                            | d :: _ =>
                                if (d =? 0) || (d =? 35) then (LCall (mkLI line HKF_INVALID mh mi mk None), mem') else
                                match cstring q with
                                | None => (LUb, mem')
                                | Some text =>
                                    match sshkey_read P text with
                                    | None => (LCall (mkLI line HKF_INVALID mh mi mk None), mem')
                                    | Some k => (LCall (mkLI line st mh mi mk (Some k)), mem')
                                    end
                                end
                            end
                        end
                    end
                end
            end
        end
      end
  | _, _ => (LUb, mem)
  end.

(** The lines getline delivers, each with whether a newline ended it *)
Fixpoint getlines (f cur : list Z) : list (list Z * bool) :=
  match f with
  | [] => match cur with [] => [] | _ => [(rev cur, false)] end
  | c :: r => if c =? 10 then (rev cur, true) :: getlines r [] else getlines r (c :: cur)
  end.
(** The buffer after getline: the line, its NUL, what was there before and, if it
    was enlarged, arbitrary bytes *)
Definition getline_mem (l : list Z) (nl : bool) (mem junk : list Z) : list Z :=
  let s := l ++ (if nl then [10] else []) in s ++ 0 :: zdrop (zlen s + 1) mem ++ junk.

(** hostkeys_foreach_file, hostfile.c 760-929: the lines given to the callback;
    None: undefined behaviour.  [junk i] is what an enlargement at line i adds. *)
Fixpoint foreach_go (P : hprims) (host : list Z) (ip : option (list Z)) (wm : bool)
  (ls : list (list Z * bool)) (mem : list Z) (junk : list (list Z)) : option (list line_info) :=
  match ls with
  | [] => Some []
  | (l, nl) :: r =>
      let mem1 := cut_nl (getline_mem l nl mem (hd [] junk)) in
      match foreach_line P host ip wm mem1 with
      | (LUb, _) => None
      | (LSkip, mem2) => foreach_go P host ip wm r mem2 (tl junk)
      | (LCall i, mem2) =>
          match foreach_go P host ip wm r mem2 (tl junk) with None => None | Some is => Some (i :: is) end
      end
  end.
Definition hostkeys_foreach (P : hprims) (host : list Z) (ip : option (list Z)) (wm : bool) (f : list Z) (junk : list (list Z)) : option (list line_info) :=
  foreach_go P host ip wm (getlines f []) [] junk.

(** ** Loading: struct hostkey_entry, record_hostkey, load_hostkeys_file,
    hostfile.c 227-290.  The entry's note tells a file from KnownHostsCommand. *)
Record hentry := mkHE { he_key : hkey; he_marker : marker; he_note : Z }.
Definition record_hostkey (note : Z) (i : line_info) : list hentry :=
  match li_status i with
  | HKF_INVALID => []
  | _ => match li_key i with Some k => [mkHE k (li_marker i) note] | None => [] end
  end.
(** a file (contents, note, what the allocator leaves in the line buffer) *)
Definition kfile : Type := list Z * Z * list (list Z).
Definition load_hostkeys (P : hprims) (host : list Z) (m : option (list hentry)) (f : kfile) : option (list hentry) :=
  let '(c, note, junk) := f in
  match m, hostkeys_foreach P host None true c junk with
  | Some es, Some is => Some (es ++ flat_map (record_hostkey note) is)
  | _, _ => None
  end.
Definition load_all (P : hprims) (host : list Z) (fs : list kfile) : option (list hentry) :=
  fold_left (load_hostkeys P host) fs (Some []).

(** ** Looking keys up *)
Inductive hstatus := HOST_OK | HOST_NEW | HOST_CHANGED | HOST_REVOKED | HOST_FOUND.
(** check_key_not_revoked, hostfile.c 315-332: true is -1 *)
Definition key_revoked (es : list hentry) (k : hkey) : bool :=
  existsb (fun e => marker_eqb (he_marker e) MRK_REVOKE && (equal_public k (he_key e) || (sshkey_is_cert k && ca_is k (he_key e)))) es.
(** The loop of check_hostkeys_by_key_or_type when looking for a key,
    hostfile.c 363-400 *)
Fixpoint find_key (es : list hentry) (k : hkey) (want_cert : bool) (st : hstatus) (found : option hentry) : hstatus * option hentry :=
  match es with
  | [] => (st, found)
  | e :: r =>
      if negb (marker_eqb (he_marker e) (if want_cert then MRK_CA else MRK_NONE)) then find_key r k want_cert st found
      else if want_cert then
        if ca_is k (he_key e) then (HOST_OK, Some e) else find_key r k want_cert st found
      else if sshkey_equal k (he_key e) then (HOST_OK, Some e)
      else find_key r k want_cert HOST_CHANGED (Some e)
  end.
(** check_key_in_hostkeys, hostfile.c 409-416 with 401-407 *)
Definition check_key_in_hostkeys (es : list hentry) (k : hkey) : hstatus * option hentry :=
  let '(st, found) := find_key es k (sshkey_is_cert k) HOST_NEW None in
  if key_revoked es k then (HOST_REVOKED, None) else (st, found).
Definition KEY_ECDSA : Z := 2.
Definition KEY_ECDSA_CERT : Z := 6.
Definition plain_ecdsa (t : Z) : bool := (t =? KEY_ECDSA) || (t =? KEY_ECDSA_CERT).
(** The same when looking for a type: hostfile.c 366-377 *)
Fixpoint find_type (es : list hentry) (kt nid : Z) : option hentry :=
  match es with
  | [] => None
  | e :: r =>
      if negb (marker_eqb (he_marker e) MRK_NONE) then find_type r kt nid
      else if negb (hk_type (he_key e) =? kt) then find_type r kt nid
      else if negb (nid =? -1) && plain_ecdsa kt && negb (hk_nid (he_key e) =? nid) then find_type r kt nid
      else Some e
  end.
(** lookup_key_in_hostkeys_by_type, hostfile.c 418-424 *)
Definition lookup_by_type (es : list hentry) (kt nid : Z) : option hentry :=
  match find_type es kt nid with
  | None => None
  | Some e => if key_revoked es (he_key e) then None else Some e
  end.
(** lookup_marker_in_hostkeys, hostfile.c 426-436 *)
Definition lookup_marker (es : list hentry) (m : marker) : bool := existsb (fun e => marker_eqb (he_marker e) m) es.

(** ** Writing *)
(** write_host_entry, hostfile.c 438-473: the text written and success.  [salts]
    are the random salts drawn. *)
Definition write_one (P : hprims) (name : list Z) (k : hkey) (hash : option (list Z)) : list Z * bool :=
  match (match hash with
         | Some salt => hash_with P salt (map tolower name)
         | None => Some (map tolower name)
         end) with
  | None => ([], false)
  | Some n => match sshkey_write k with
              | Some t => (n ++ 32 :: t ++ [10], true)
              | None => (n ++ [32; 10], false)
              end
  end.
Definition write_host_entry (P : hprims) (host : list Z) (ip : option (list Z)) (k : hkey) (store_hash : bool) (salts : list (list Z)) : list Z * bool :=
  if store_hash then
    let '(t, ok) := write_one P host k (Some (hd [] salts)) in
    match ok, ip with
    | true, Some a => let '(t2, ok2) := write_one P a k (Some (hd [] (tl salts))) in (t ++ t2, ok2)
    | _, _ => (t, ok)
    end
  else
    match ip with
    | None => write_one P host k None
    | Some a => match sshkey_write k with
                | Some t => (map tolower host ++ 44 :: a ++ 32 :: t ++ [10], true)
                | None => (map tolower host ++ 44 :: a ++ [32; 10], false)
                end
    end.
(** add_host_to_hostfile, hostfile.c 515-539: what is appended to a file whose
    contents are [f] (the file can be opened and written) *)
Definition last_is_nl (f : list Z) : bool := match rev f with c :: _ => c =? 10 | [] => true end.
Definition add_host_to_hostfile (P : hprims) (f host : list Z) (k : hkey) (store_hash : bool) (salts : list (list Z)) : list Z * bool :=
  let '(t, ok) := write_host_entry P host None k store_hash salts in
  (f ++ (if last_is_nl f then [] else [10]) ++ t, ok).

(** host_delete, hostfile.c 551-596.  [masks] are the match bits per requested key
    (host name, address); a requested key may be null.  The result: what is
    written, the masks, and whether the file is modified. *)
Fixpoint mark_key (keys : list (option hkey)) (k : hkey) (mh mi : bool) (masks : list (bool * bool)) : option (list (bool * bool)) :=
  match keys, masks with
  | q :: keys', (a, b) :: masks' =>
      if match q with Some q => sshkey_equal q k | None => false end then Some ((a || mh, b || mi) :: masks')
      else match mark_key keys' k mh mi masks' with Some m => Some ((a, b) :: m) | None => None end
  | _, _ => None
  end.
Definition host_delete (keys : list (option hkey)) (st : list Z * list (bool * bool) * bool) (i : line_info) : list Z * list (bool * bool) * bool :=
  let '(out, masks, modified) := st in
  match li_status i, li_marker i, li_key i with
  | HKF_MATCHED, MRK_NONE, Some k =>
      match mark_key keys k (li_host i) (li_ip i) masks with
      | Some masks' => (out ++ li_line i ++ [10], masks', modified)
      | None => (out, masks, true)
      end
  | _, _, _ => (out ++ li_line i ++ [10], masks, modified)
  end.
(** The loop that adds the requested keys, hostfile.c 656-702; None: an error *)
Fixpoint add_keys (P : hprims) (host : list Z) (ip : option (list Z)) (hash : bool) (salt : nat -> list (list Z)) (i : nat)
  (keys : list (option hkey)) (masks : list (bool * bool)) (out : list Z) (modified : bool) : list Z * bool * bool :=
  match keys, masks with
  | q :: keys', (mh, mi) :: masks' =>
      match q with
      | None => add_keys P host ip hash salt (S i) keys' masks' out modified
      | Some k =>
          if mh && (mi || negb (is_some ip)) then add_keys P host ip hash salt (S i) keys' masks' out modified
          else
            let '(t, ok) :=
              if negb mh && negb mi then write_host_entry P host ip k hash (salt i)
              else if negb mh && (mi || negb (is_some ip)) then write_host_entry P host None k hash (salt i)
              else if mh && negb mi && is_some ip then
                match ip with Some a => write_host_entry P a None k hash (salt i) | None => ([], true) end
              else ([], true) in
            if ok then add_keys P host ip hash salt (S i) keys' masks' (out ++ t) true
            else (out ++ t, modified, false)
      end
  | _, _ => (out, modified, true)
  end.

(** The files involved: the known-hosts file, the temporary and the backup *)
Record fsys := mkFS { f_main : option (list Z); f_temp : option (list Z); f_back : option (list Z) }.
(** What the system does during one call: whether mkstemp, opening the file,
    unlink of the backup, link and rename succeed, how many bytes of the
    temporary file reach the disk (stdio's errors are not looked at), and the
    random salts *)
Record sysrun := mkSR {
  sr_mkstemp : bool; sr_open : bool; sr_unlink : bool; sr_link : bool; sr_rename : bool;
  sr_written : Z; sr_salt : nat -> list (list Z); sr_junk : list (list Z)
}.
(** hostfile_replace_entries, hostfile.c 598-736: the states the three files go
    through (a crash leaves one of them), newest last, and the result (true is
    0); None: undefined behaviour while reading the file. *)
Definition hostfile_replace_entries (P : hprims) (host : list Z) (ip : option (list Z)) (keys : list (option hkey)) (hash : bool) (s : sysrun) (fs : fsys)
  : option (list fsys * bool) :=
  if negb (sr_mkstemp s) then Some ([fs], false) else
  let fs1 := mkFS (f_main fs) (Some []) (f_back fs) in
  let failed l := l ++ [mkFS (f_main fs) None (f_back (last l fs))] in
  match (if sr_open s then f_main fs else None) with
  | None => Some (failed [fs; fs1], false)
  | Some content =>
      match hostkeys_foreach P host ip false content (sr_junk s) with
      | None => None
      | Some is =>
          let '(out, masks, modified) := fold_left (host_delete keys) is ([], map (fun _ => (false, false)) keys, false) in
          let '(out, modified, ok) := add_keys P host ip hash (sr_salt s) 0 keys masks out modified in
          let out := ztake (sr_written s) out in
          let fs2 := mkFS (f_main fs) (Some out) (f_back fs) in
          if negb ok then Some (failed [fs; fs1; fs2], false) else
          if modified then
            if negb (sr_unlink s) then Some (failed [fs; fs1; fs2], false) else
            let fs3 := mkFS (f_main fs) (Some out) None in
            if negb (sr_link s) then Some (failed [fs; fs1; fs2; fs3], false) else
            let fs4 := mkFS (f_main fs) (Some out) (f_main fs) in
            if negb (sr_rename s) then Some (failed [fs; fs1; fs2; fs3; fs4], false) else
            Some ([fs; fs1; fs2; fs3; fs4; mkFS (Some out) None (f_main fs)], true)
          else Some ([fs; fs1; fs2; mkFS (f_main fs) None (f_back fs)], true)
      end
  end.
