(** Host-based authentication: ssh-keysign.c, which signs on behalf of the client's
    user; sshconnect2.c userauth_hostbased, which builds what is signed;
    auth2-hostbased.c and auth-rhosts.c, which decide.

    Fatal errors are VFatal or None.  Logging is left out.  Parameters: whether a point
    of a curve and a certificate's signature are valid (as in KeyModel), innetgr,
    revocation (C31), certificate scope (C36), known-hosts lookup (C33), verification
    of the signature, the file system.  Files do not change during one decision. *)
From Coq Require Import String.
From Verif Require Import Base Text SshbufModel SshbufSpec WireSpec MiscNumModel AuthOptModel Dec MatchModel KeyModel.
Local Open Scope Z_scope.

(** ** ssh-keysign *)
Section Sign.
Variable point_ok : curve -> list Z -> bool.
Variable ver : kpub -> list Z -> list Z -> bool.

Inductive verdict := VFatal | VBad | VOk (k : key) (alg : list Z).
(** ssh-keysign.c:122-129, auth2-hostbased.c:84-103: the key, of the named type *)
Definition named_key (alg blob : list Z) : option key :=
  match type_from_name alg with
  | None => None
  | Some t => match from_blob point_ok ver blob with
              | None => None
              | Some k => if ktype_eqb (key_type k) t then Some k else None
              end
  end.
(** ssh-keysign.c:135-140; [p] is the string as sent, of [len] bytes.  A string that
    ends in NUL has NUL for its last byte. *)
Definition host_named (host p : list Z) : bool :=
  if negb (zlen host =? zlen p - 1) then false
  else if negb (nth (Z.to_nat (zlen p - 1)) p 0 =? 46) then false
  else strcaseeq host (ztake (zlen p - 1) p).
(** ssh-keysign.c:64-173 valid_request; [user] is pw->pw_name *)
Definition valid_request (user host data : list Z) : verdict :=
  if SSHBUF_SIZE_MAX <? zlen data then VFatal else
  match get_str data with None => VFatal | Some (sid, b) =>
  match get_int 1 b with None => VFatal | Some (ty, b) =>
  match get_str b with None => VFatal | Some (_, b) =>
  match get_cstr b with None => VFatal | Some (service, b) =>
  match get_cstr b with None => VFatal | Some (method, b) =>
  match get_cstr b with None => VFatal | Some (alg, b) =>
  match get_str b with None => VFatal | Some (blob, b) =>
  match dec_cstring b with RErr _ => VFatal | ROk (chost, b) =>
  match get_cstr b with None => VFatal | Some (luser, b) =>
  let len := zlen sid in
  if negb ((len =? 20) || (len =? 32) || (len =? 48) || (len =? 64)) then VBad
  else if negb (ty =? 50) then VBad
  else if negb (beqb service (bs "ssh-connection")) then VBad
  else if negb (beqb method (bs "hostbased")) then VBad
  else if negb (host_named host chost) then VBad
  else if negb (beqb user luser) then VBad
  else if negb (zlen b =? 0) then VBad
  else match named_key alg blob with None => VBad | Some k => VOk k alg end
  end end end end end end end end end.

(** sshkey.c:839-850 sshkey_equal_public and the equal function of each type *)
Definition pub_eqb (a b : kpub) : bool :=
  match a, b with
  | PEd x, PEd y => beqb x y
  | PEdSk x s, PEdSk y t => beqb x y && beqb s t
  | PEc c x, PEc d y => curve_eqb c d && beqb x y
  | PEcSk c x s, PEcSk d y t => curve_eqb c d && beqb x y && beqb s t
  | PRsa e n, PRsa f m => beqb e f && beqb n m
  | _, _ => false
  end.
(** ssh-keysign.c:282-289: the first host key that was read and is the one asked for *)
Definition find_hostkey (k : key) (keys : list (option key)) : option key :=
  match find (fun o => match o with Some h => pub_eqb (key_pub k) (key_pub h) | None => false end) keys with
  | Some o => o
  | None => None
  end.
(** The (int) of a u32 *)
Definition int_of (n : Z) : Z := if n <? 2147483648 then n else n - 4294967296.
(** ssh-keysign.c:223-311 main, from the message on: what is handed to sshkey_sign:
    the key, the data, the algorithm.  [enabled] is EnableSSHKeysign, [name_of_fd] is
    get_local_name. *)
Definition keysign (enabled : bool) (user : list Z) (keys : list (option key)) (name_of_fd : Z -> option (list Z))
    (msg : list Z) : option (key * list Z * list Z) :=
  if negb enabled then None else
  match get_int 1 msg with None => None | Some (v, b) =>
  if negb (v =? 2) then None else
  match get_int 4 b with None => None | Some (fd, b) =>
  if int_of fd <=? 2 then None else
  match name_of_fd (int_of fd) with None => None | Some host =>
  match get_str b with None => None | Some (data, _) =>
  match valid_request user host data with
  | VOk k alg => match find_hostkey k keys with Some h => Some (h, data, alg) | None => None end
  | _ => None
  end end end end end.

(** ** The client *)
(** sshconnect2.c:2200-2223; [lname] is get_local_name *)
Definition client_data (sid ruser service alg blob lname luser : list Z) : option (list Z) :=
  put_str luser (put_str (lname ++ [46]) (put_str blob (put_str alg (put_str (bs "hostbased") (put_str service (put_str ruser
    (AuthOptModel.put [50] (put_str sid (Some []))))))))).
(** sshconnect2.c:2057-2088 ssh_keysign: the message to ssh-keysign, as it arrives there;
    the connection is descriptor 3 of ssh-keysign *)
Definition keysign_msg (fd : Z) (data : list Z) : option (list Z) :=
  match put_str data (AuthOptModel.put (be_enc 4 fd) (Some [])) with Some b => Some (2 :: b) | None => None end.

(** ** rhosts files *)
Variable netgr : list Z -> option (list Z) -> option (list Z) -> bool.

(** fgets with a buffer of 1024 bytes: at most 1023, ending after a newline.  [room] is
    what the buffer still takes, [cur] what it holds. *)
Fixpoint pieces_of (room : Z) (cur f : list Z) : list (list Z) :=
  match f with
  | [] => if zlen cur =? 0 then [] else [cur]
  | c :: r => if (c =? 10) || (room =? 1) then (cur ++ [c]) :: pieces_of 1023 [] r
              else pieces_of (room - 1) (cur ++ [c]) r
  end.
(** The blanks skipped at auth-rhosts.c:91 *)
Fixpoint skip_blank (s : list Z) : list Z :=
  match s with c :: r => if (c =? 32) || (c =? 9) then skip_blank r else s | [] => [] end.
Fixpoint begins (p s : list Z) : bool :=
  match p, s with [], _ => true | a :: p, b :: s => (a =? b) && begins p s | _, [] => false end.
(** sscanf %s conversions: the words of a line; [cur] is the word being read *)
Fixpoint words_of (cur s : list Z) : list (list Z) :=
  match s with
  | [] => if zlen cur =? 0 then [] else [cur]
  | c :: r => if MiscNumModel.isspace c then (if zlen cur =? 0 then words_of [] r else cur :: words_of [] r)
              else words_of (cur ++ [c]) r
  end.
(** auth-rhosts.c:131-142 *)
Definition signed (w : list Z) : bool * list Z :=
  match w with c :: r => if c =? 45 then (true, r) else if c =? 43 then (false, r) else (false, w) | [] => (false, w) end.
(** auth-rhosts.c:86-177: a line decides (true: granted) or is passed over *)
Definition check_line (hostname ip cuser suser line : list Z) : option bool :=
  let s := MiscNumModel.cstr line in
  let cp := skip_blank s in
  if match cp with c :: _ => (c =? 35) || (c =? 10) | [] => true end then None
  else if begins (bs "NO_PLUS") cp then None
  else match match words_of [] s with
             | [h] => Some (h, ztake 1023 suser)
             | [h; u] => Some (h, u)
             | _ => None
             end with
       | None => None
       | Some (h, u) =>
           let (n1, h) := signed h in
           let (n2, u) := signed u in
           if (zlen h =? 0) || (zlen u =? 0) then None
           else if negb (if hd 0 h =? 64 then netgr (tl h) (Some hostname) None || netgr (tl h) (Some ip) None
                         else strcaseeq h hostname || beqb h ip) then None
           else if negb (if hd 0 u =? 64 then netgr (tl u) None (Some cuser) else beqb u cuser) then None
           else Some (negb (n1 || n2))
       end.
Fixpoint check_lines (hostname ip cuser suser : list Z) (ls : list (list Z)) : bool :=
  match ls with
  | [] => false
  | l :: r => match check_line hostname ip cuser suser l with Some b => b | None => check_lines hostname ip cuser suser r end
  end.
(** A file as stat and open see it; [n_text] is None if it cannot be opened or is not
    a regular file *)
Record node := mkNode { n_uid : Z; n_mode : Z; n_text : option (list Z) }.
(** auth-rhosts.c:56-183 check_rhosts_file *)
Definition check_file (f : option node) (hostname ip cuser suser : list Z) : bool :=
  match f with
  | Some n => match n_text n with Some t => check_lines hostname ip cuser suser (pieces_of 1023 [] t) | None => false end
  | None => false
  end.

(** IgnoreRhosts: no, yes, shosts-only *)
Inductive ignore := IgNo | IgYes | IgShosts.
(** The files: hosts.equiv, shosts.equiv, the home directory, .shosts and .rhosts in
    it.  None: stat fails. *)
Record rfs := mkFs { fs_equiv : option node; fs_sequiv : option node; fs_home : option node;
                     fs_shosts : option node; fs_rhosts : option node }.
Record acct := mkAcct { ac_name : list Z; ac_uid : Z }.
(** auth-rhosts.c:267-269, 297-299 *)
Definition bad_modes (strict : bool) (a : acct) (n : node) : bool :=
  strict && ((negb (n_uid n =? 0) && negb (n_uid n =? ac_uid a)) || negb (Z.land (n_mode n) 18 =? 0)).
(** auth-rhosts.c:285-331: one of the two files in the home directory *)
Definition home_file (strict : bool) (ig : ignore) (is_shosts : bool) (a : acct) (hostname ip cuser : list Z) (f : option node) : bool :=
  match f with
  | None => false
  | Some n =>
      if bad_modes strict a n then false
      else if match ig with IgYes => true | IgShosts => negb is_shosts | IgNo => false end then false
      else check_file f hostname ip cuser (ac_name a)
  end.
(** auth-rhosts.c:190-337 auth_rhosts2 *)
Definition rhosts2 (strict : bool) (ig : ignore) (fs : rfs) (a : acct) (cuser hostname ip : list Z) : bool :=
  match fs_shosts fs, fs_rhosts fs, fs_equiv fs, fs_sequiv fs with
  | None, None, None, None => false
  | _, _, _, _ =>
      if negb (ac_uid a =? 0) && (check_file (fs_equiv fs) hostname ip cuser (ac_name a) || check_file (fs_sequiv fs) hostname ip cuser (ac_name a)) then true
      else match fs_home fs with
           | None => false
           | Some h =>
               if bad_modes strict a h then false
               else home_file strict ig true a hostname ip cuser (fs_shosts fs) || home_file strict ig false a hostname ip cuser (fs_rhosts fs)
           end
  end.

(** ** The server *)
Variable revoked_key : key -> bool.
Variable in_scope_now : key -> list Z -> bool.       (* certificate authority check for a host name *)
Inductive hstat := HOk | HNew | HOther.
Variable host_status : bool -> key -> list Z -> hstat. (* known hosts; true: the second set of files *)
Variable ca_alg_ok : key -> bool.                     (* sshkey_check_cert_sigtype *)
Variable rsa_size_ok : key -> bool.                   (* sshkey_check_rsa_length *)
Variable verify : key -> list Z -> list Z -> list Z -> bool. (* key, signature, data, algorithm *)

(** HostbasedUsesNameFromPacketOnly, StrictModes, IgnoreRhosts,
    HostbasedAcceptedAlgorithms *)
Record hopts := mkOpts { o_packet_name : bool; o_strict : bool; o_ignore : ignore; o_algs : list Z }.
(** The peer: resolved name and address *)
Record peer := mkPeer { pe_name : list Z; pe_ip : list Z }.
(** auth2-hostbased.c:187-190 *)
Definition strip_dot (h : list Z) : list Z :=
  if (0 <? zlen h) && (nth (Z.to_nat (zlen h - 1)) h 0 =? 46) then ztake (zlen h - 1) h else h.
(** auth2-hostbased.c:168-253 hostbased_key_allowed *)
Definition key_allowed (o : hopts) (fs : rfs) (p : peer) (a : acct) (cuser chost : list Z) (k : key) : bool :=
  if revoked_key k then false else
  let chost := strip_dot chost in
  let name := if o_packet_name o then chost else pe_name p in
  let addr := if o_packet_name o then chost else pe_ip p in
  if negb (rhosts2 (o_strict o) (o_ignore o) fs a cuser name addr) then false
  else if match key_cert k with Some _ => negb (in_scope_now k name) | None => false end then false
  else match match host_status false k name with HNew => host_status true k name | s => s end with
       | HOk => true
       | _ => false
       end.
(** auth2-hostbased.c:59-166 userauth_hostbased: None is fatal.  [user] and [service]
    are authctxt's; [a] is None if the user is not valid. *)
Definition userauth_hostbased (o : hopts) (fs : rfs) (p : peer) (a : option acct) (sid user service pkt : list Z) : option bool :=
  match dec_cstring pkt with RErr _ => None | ROk (rawalg, b) =>
  match get_str b with None => None | Some (blob, b) =>
  match get_cstr b with None => None | Some (chost, b) =>
  match get_cstr b with None => None | Some (cuser, b) =>
  match get_str b with None => None | Some (sig, b) =>
  let alg := SshbufModel.cstr rawalg in
  match named_key alg blob with None => Some false | Some k =>
  if negb (match match_pattern_list alg (o_algs o) false with Some v => v =? 1 | None => false end) then Some false
  else if negb (ca_alg_ok k) then Some false
  else if negb (rsa_size_ok k) then Some false
  else match a with
       | None => Some false
       | Some ac =>
           match put_str cuser (put_str chost (put_str blob (put_str rawalg (put_str (bs "hostbased") (put_str service (put_str user
                   (AuthOptModel.put [50] (put_str sid (Some []))))))))) with
           | None => None
           | Some data => Some (key_allowed o fs p ac cuser chost k && verify k sig data alg)
           end
       end
  end end end end end end.
End Sign.
