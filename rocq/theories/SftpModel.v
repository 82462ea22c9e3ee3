(** The SFTP server: sftp-server.c with the attribute codec of sftp-common.c.

    The operating system is an arbitrary list of results, one for each system or
    library call the server makes, in order; when the list ends the call in
    progress has not returned ([HBlocked]).  Every call made is recorded with its
    result.  Replies are recorded as values; [reply_bytes] is their encoding.

    Not modelled: logging, allocation failure, umask and start-directory options,
    the contents of statvfs replies (the result of the call is passed through),
    and the text produced by ls_file (a parameter).  errno and open(2) flag values
    are those of Linux; HAVE_FCHMOD, HAVE_FUTIMES, HAVE_FCHOWN and EXDEV are
    defined and LINK_OPNOTSUPP_ERRNO is not.  atomicio() inside copy-data is one
    call with its result (see AtomicioModel for the function). *)
From Coq Require Import String.
From Verif Require Import Base SshbufModel SshbufSpec WireSpec Dec.
From Verif Require Import MatchModel.

(** sftp.h:32-96, sftp-common.h:29, sftp-server.c:63 and 1611 (buf). *)
Definition FXP_INIT := 1. Definition FXP_OPEN := 3. Definition FXP_CLOSE := 4. Definition FXP_READ := 5.
Definition FXP_WRITE := 6. Definition FXP_LSTAT := 7. Definition FXP_FSTAT := 8. Definition FXP_SETSTAT := 9.
Definition FXP_FSETSTAT := 10. Definition FXP_OPENDIR := 11. Definition FXP_READDIR := 12. Definition FXP_REMOVE := 13.
Definition FXP_MKDIR := 14. Definition FXP_RMDIR := 15. Definition FXP_REALPATH := 16. Definition FXP_STAT := 17.
Definition FXP_RENAME := 18. Definition FXP_READLINK := 19. Definition FXP_SYMLINK := 20. Definition FXP_VERSION := 2.
Definition FXP_STATUS := 101. Definition FXP_HANDLE := 102. Definition FXP_DATA := 103. Definition FXP_NAME := 104.
Definition FXP_ATTRS := 105. Definition FXP_EXTENDED := 200. Definition FXP_EXTENDED_REPLY := 201.
Definition ATTR_SIZE := 1. Definition ATTR_UIDGID := 2. Definition ATTR_PERMISSIONS := 4. Definition ATTR_ACMODTIME := 8.
Definition ATTR_EXTENDED := 2147483648.
Definition FXF_READ := 1. Definition FXF_WRITE := 2. Definition FXF_APPEND := 4. Definition FXF_CREAT := 8.
Definition FXF_TRUNC := 16. Definition FXF_EXCL := 32.
Definition FX_OK := 0. Definition FX_EOF := 1. Definition FX_NO_SUCH_FILE := 2. Definition FX_PERMISSION_DENIED := 3.
Definition FX_FAILURE := 4. Definition FX_BAD_MESSAGE := 5. Definition FX_OP_UNSUPPORTED := 8. Definition FX_MAX := 8.
Definition MAX_MSG : Z := 262144.
Definition MAX_READ : Z := 261120.
Definition COPY_BUF : Z := 65536.

(** fcntl.h (Linux). *)
Definition O_RDONLY := 0. Definition O_WRONLY := 1. Definition O_RDWR := 2. Definition O_ACCMODE := 3.
Definition O_CREAT := 64. Definition O_EXCL := 128. Definition O_TRUNC := 512. Definition O_APPEND := 1024.

Definition has (flags bit : Z) : bool := negb (Z.land flags bit =? 0).

(** struct stat: the fields the server uses. *)
Record stat := mkStat { st_mode : Z; st_size : Z; st_uid : Z; st_gid : Z; st_atime : Z; st_mtime : Z }.
Definition stat0 : stat := mkStat 0 0 0 0 0 0.
(** S_ISREG. *)
Definition s_isreg (m : Z) : bool := Z.land m 61440 =? 32768.

(** sftp-common.h Attrib. *)
Record attrib := mkAttrib { a_flags : Z; a_size : Z; a_uid : Z; a_gid : Z; a_perm : Z; a_atime : Z; a_mtime : Z }.
(** sftp-common.c:54-64 attrib_clear. *)
Definition attrib_clear : attrib := mkAttrib 0 0 0 0 0 0 0.
(** sftp-common.c:66-82 stat_to_attrib: sizes and times are cast to the unsigned
    fields. *)
Definition stat_to_attrib (s : stat) : attrib :=
  mkAttrib 15 (u64 (st_size s)) (u32 (st_uid s)) (u32 (st_gid s)) (u32 (st_mode s)) (u32 (st_atime s)) (u32 (st_mtime s)).

(** sftp-common.c:104-152 decode_attrib.  The loop over extensions is bounded by
    the input: each one takes at least eight bytes, so running out of [fuel] only
    happens where the C code fails as well. *)
Fixpoint dec_exts (fuel : nat) (count : Z) (l : list Z) : option (list Z) :=
  if count <=? 0 then Some l else
  match fuel with
  | O => None
  | S f =>
    match get_cstr l with
    | None => None
    | Some (_, l1) => match get_str l1 with None => None | Some (_, l2) => dec_exts f (count - 1) l2 end
    end
  end.
Definition opt_int (on : bool) (w : nat) (l : list Z) : option (Z * list Z) := if on then get_int w l else Some (0, l).
Definition decode_attrib (l : list Z) : option (attrib * list Z) :=
  match get_int 4 l with None => None | Some (flags, l0) =>
  match opt_int (has flags ATTR_SIZE) 8 l0 with None => None | Some (size, l1) =>
  match opt_int (has flags ATTR_UIDGID) 4 l1 with None => None | Some (uid, l2) =>
  match opt_int (has flags ATTR_UIDGID) 4 l2 with None => None | Some (gid, l3) =>
  match opt_int (has flags ATTR_PERMISSIONS) 4 l3 with None => None | Some (perm, l4) =>
  match opt_int (has flags ATTR_ACMODTIME) 4 l4 with None => None | Some (atime, l5) =>
  match opt_int (has flags ATTR_ACMODTIME) 4 l5 with None => None | Some (mtime, l6) =>
  let a := mkAttrib flags size uid gid perm atime mtime in
  if has flags ATTR_EXTENDED then
    match get_int 4 l6 with None => None | Some (count, l7) =>
    if count >? 1048576 then None else
    match dec_exts (S (length l7)) count l7 with None => None | Some l8 => Some (a, l8) end end
  else Some (a, l6)
  end end end end end end end.

(** sftp-common.c:155-185 encode_attrib. *)
Definition encode_attrib (a : attrib) : list Z :=
  be_enc 4 (a_flags a) ++
  (if has (a_flags a) ATTR_SIZE then be_enc 8 (a_size a) else []) ++
  (if has (a_flags a) ATTR_UIDGID then be_enc 4 (a_uid a) ++ be_enc 4 (a_gid a) else []) ++
  (if has (a_flags a) ATTR_PERMISSIONS then be_enc 4 (a_perm a) else []) ++
  (if has (a_flags a) ATTR_ACMODTIME then be_enc 4 (a_atime a) ++ be_enc 4 (a_mtime a) else []).

(** The calls the server makes.  File descriptors and directory streams are
    numbers. *)
Inductive call :=
| COpen (name : list Z) (flags mode : Z) | CClose (fd : Z) | COpendir (name : list Z) | CClosedir (d : Z) | CReaddir (d : Z)
| CLseek (fd off : Z) | CRead (fd len : Z) | CWrite (fd : Z) (data : list Z)
| CStat (name : list Z) | CLstat (name : list Z) | CFstat (fd : Z)
| CTruncate (name : list Z) (size : Z) | CFtruncate (fd size : Z)
| CChmod (name : list Z) (mode : Z) | CFchmod (fd mode : Z) | CFchmodat (name : list Z) (mode : Z)
| CUtimes (name : list Z) (atime mtime : Z) | CFutimes (fd atime mtime : Z) | CUtimensat (name : list Z) (atime mtime : Z)
| CChown (name : list Z) (uid gid : Z) | CFchown (fd uid gid : Z) | CFchownat (name : list Z) (uid gid : Z)
| CUnlink (name : list Z) | CMkdir (name : list Z) (mode : Z) | CRmdir (name : list Z)
| CRealpath (name : list Z) | CLink (old new : list Z) | CRename (old new : list Z) | CReadlink (name : list Z) | CSymlink (old new : list Z)
| CStatvfs (name : list Z) | CFstatvfs (fd : Z) | CFsync (fd : Z)
| CGetcwd | CTilde (path : list Z) | CGetpwnam (name : list Z) | CGetpwuid (n : Z) | CGetgrgid (n : Z) | CGetrlimit
| CReadFull (fd len : Z) | CWriteFull (fd : Z) (data : list Z).

(** The result of a call: the return value (-1 also stands for a NULL pointer),
    errno, the bytes or name it produced, and the stat structure it filled in. *)
Record sysres := mkRes { rs_ret : Z; rs_errno : Z; rs_data : list Z; rs_st : stat }.

(** sftp-server.c:309-328 struct Handle and its uses. *)
Inductive use := HUnused | HDir | HFile.
Definition use_eqb (a b : use) : bool :=
  match a, b with HUnused, HUnused | HDir, HDir | HFile, HFile => true | _, _ => false end.
Record handle := mkHandle { h_use : use; h_dirp : Z; h_fd : Z; h_flags : Z; h_name : list Z; h_rd : Z; h_wr : Z; h_next : Z }.

(** Replies (sftp-server.c:520-683). *)
Inductive reply :=
| RVersion (exts : list (list Z * list Z))
| RStatus (id status : Z) (msg : list Z)
| RHandle (id : Z) (h : list Z)
| RData (id : Z) (data : list Z)
| RNames (id : Z) (names : list (list Z * list Z * attrib))
| RAttrs (id : Z) (a : attrib)
| RExt (id : Z) (payload : list Z).

(** Server configuration: -R, -P, -p; ls_file; the home directory. *)
Record config := mkConfig { c_readonly : bool; c_deny : option (list Z); c_allow : option (list Z);
  c_ls : list Z -> stat -> list Z; c_home : list Z }.

Record state := mkState {
  s_handles : list handle;          (* handles, num_handles *)
  s_first : Z;                      (* first_unused_handle *)
  s_in : list Z;                    (* iqueue *)
  s_out : list reply;               (* everything queued so far, in order *)
  s_calls : list (call * option sysres);   (* every call made, in order *)
  s_env : list sysres;              (* results still to come *)
  s_version : Z;
  s_init : bool }.

Inductive halt := HFatal | HExit (code : Z) | HBlocked | HUB.
Inductive res (A : Type) := Go (a : A) (st : state) | Halt (h : halt) (st : state).
Arguments Go {A} a st. Arguments Halt {A} h st.
Definition M (A : Type) := state -> res A.
Definition ret {A} (a : A) : M A := fun st => Go a st.
Definition bind {A B} (m : M A) (f : A -> M B) : M B := fun st => match m st with Go a st' => f a st' | Halt h st' => Halt h st' end.
Definition stop {A} (h : halt) : M A := fun st => Halt h st.
Notation "'do' x <- m ; f" := (bind m (fun x => f)) (at level 200, x name, m at level 100, f at level 200).
Notation "'run' m ; f" := (bind m (fun _ => f)) (at level 200, m at level 100, f at level 200).

Definition set_handles (h : list handle) (first : Z) (st : state) : state :=
  mkState h first (s_in st) (s_out st) (s_calls st) (s_env st) (s_version st) (s_init st).
Definition set_in (i : list Z) (st : state) : state :=
  mkState (s_handles st) (s_first st) i (s_out st) (s_calls st) (s_env st) (s_version st) (s_init st).
Definition add_out (r : reply) (st : state) : state :=
  mkState (s_handles st) (s_first st) (s_in st) (s_out st ++ [r]) (s_calls st) (s_env st) (s_version st) (s_init st).
Definition add_calls (cs : list (call * option sysres)) (env : list sysres) (st : state) : state :=
  mkState (s_handles st) (s_first st) (s_in st) (s_out st) (s_calls st ++ cs) env (s_version st) (s_init st).
Definition set_version (v : Z) (st : state) : state :=
  mkState (s_handles st) (s_first st) (s_in st) (s_out st) (s_calls st) (s_env st) v (s_init st).
Definition set_init (st : state) : state :=
  mkState (s_handles st) (s_first st) (s_in st) (s_out st) (s_calls st) (s_env st) (s_version st) true.

(** One system call. *)
Definition sys (c : call) : M sysres := fun st =>
  match s_env st with
  | [] => Halt HBlocked (add_calls [(c, None)] [] st)
  | r :: env => Go r (add_calls [(c, Some r)] env st)
  end.
(** A parsing step of the input queue; failure is fatal. *)
Definition parse {A} (f : list Z -> option (A * list Z)) : M A := fun st =>
  match f (s_in st) with Some (a, l) => Go a (set_in l st) | None => Halt HFatal st end.
(** send_msg. *)
Definition send (r : reply) : M unit := fun st => Go tt (add_out r st).

(** sftp-server.c:220-252 errno_to_portable. *)
Definition errno_to_portable (e : Z) : Z :=
  if e =? 0 then FX_OK
  else if (e =? 2) || (e =? 20) || (e =? 9) || (e =? 40) then FX_NO_SUCH_FILE
  else if (e =? 1) || (e =? 13) || (e =? 14) then FX_PERMISSION_DENIED
  else if (e =? 36) || (e =? 22) then FX_BAD_MESSAGE
  else if e =? 38 then FX_OP_UNSUPPORTED
  else FX_FAILURE.

(** sftp-server.c:254-276 flags_from_portable. *)
Definition flags_from_portable (p : Z) : Z :=
  let f0 := if has p FXF_READ && has p FXF_WRITE then O_RDWR
            else if has p FXF_READ then O_RDONLY
            else if has p FXF_WRITE then O_WRONLY else 0 in
  let f1 := if has p FXF_APPEND then Z.lor f0 O_APPEND else f0 in
  let f2 := if has p FXF_CREAT then Z.lor f1 O_CREAT else f1 in
  let f3 := if has p FXF_TRUNC then Z.lor f2 O_TRUNC else f2 in
  if has p FXF_EXCL then Z.lor f3 O_EXCL else f3.

(** Reading and writing the handle array. *)
Definition hget (hs : list handle) (i : Z) : option handle := if i <? 0 then None else nth_error hs (Z.to_nat i).
Fixpoint upd {A} (l : list A) (n : nat) (x : A) : list A :=
  match l, n with [], _ => [] | _ :: t, O => x :: t | a :: t, S k => a :: upd t k x end.
(** The conversion of an unsigned value to int. *)
Definition i32 (v : Z) : Z := let w := u32 v in if w <? 2147483648 then w else w - 4294967296.

(** sftp-server.c:330-335 handle_unused. *)
Definition handle_unused (i : Z) : M unit := fun st =>
  match hget (s_handles st) i with
  | None => Halt HUB st
  | Some h => Go tt (set_handles (upd (s_handles st) (Z.to_nat i)
      (mkHandle HUnused (h_dirp h) (h_fd h) (h_flags h) (h_name h) (h_rd h) (h_wr h) (s_first st))) i st)
  end.

(** sftp-server.c:337-361 handle_new.  A new array slot is uninitialised memory
    until handle_unused and the assignments below fill it in. *)
Definition handle_new (u : use) (name : list Z) (fd flags dirp : Z) : M Z := fun st =>
  let grown :=
    if s_first st =? -1 then
      let n := zlen (s_handles st) in
      if u32 (n + 1) <=? n then Go false st
      else match handle_unused (i32 n) (set_handles (s_handles st ++ [mkHandle HUnused 0 0 0 [] 0 0 0]) (s_first st) st) with
           | Go _ st' => Go true st' | Halt h st' => Halt h st' end
    else Go true st in
  match grown with
  | Halt h st' => Halt h st'
  | Go false st' => Go (-1) st'
  | Go true st' =>
    let i := s_first st' in
    match hget (s_handles st') i with
    | None => Halt HUB st'
    | Some h => Go i (set_handles (upd (s_handles st') (Z.to_nat i) (mkHandle u dirp fd flags name 0 0 (h_next h))) (h_next h) st')
    end
  end.

(** sftp-server.c:363-367 handle_is_ok. *)
Definition handle_is_ok (i : Z) (t : use) (st : state) : bool :=
  (0 <=? i) && (i <? zlen (s_handles st)) && match hget (s_handles st) i with Some h => use_eqb (h_use h) t | None => false end.

(** sftp-server.c:369-378 handle_to_string. *)
Definition handle_to_string (i : Z) : list Z := be_enc 4 (u32 i).

(** sftp-server.c:380-392 handle_from_string. *)
Definition handle_from_string (s : list Z) (st : state) : Z :=
  if negb (zlen s =? 4) then -1 else
  let val := i32 (be_dec s) in
  if handle_is_ok val HFile st || handle_is_ok val HDir st then val else -1.

(** sftp-server.c:394-425 handle_to_name, handle_to_dir, handle_to_fd,
    handle_to_flags.  None is the NULL pointer. *)
Definition handle_to_name (i : Z) (st : state) : option (list Z) :=
  if handle_is_ok i HDir st || handle_is_ok i HFile st then option_map h_name (hget (s_handles st) i) else None.
Definition handle_to_dir (i : Z) (st : state) : option Z :=
  if handle_is_ok i HDir st then option_map h_dirp (hget (s_handles st) i) else None.
Definition handle_to_fd (i : Z) (st : state) : Z :=
  if handle_is_ok i HFile st then match hget (s_handles st) i with Some h => h_fd h | None => -1 end else -1.
Definition handle_to_flags (i : Z) (st : state) : Z :=
  if handle_is_ok i HFile st then match hget (s_handles st) i with Some h => h_flags h | None => 0 end else 0.

(** sftp-server.c:427-439 handle_update_read and handle_update_write. *)
Definition handle_update (wr : bool) (i n : Z) : M unit := fun st =>
  if handle_is_ok i HFile st && (0 <? n) then
    match hget (s_handles st) i with
    | None => Halt HUB st
    | Some h => Go tt (set_handles (upd (s_handles st) (Z.to_nat i)
        (if wr then mkHandle (h_use h) (h_dirp h) (h_fd h) (h_flags h) (h_name h) (h_rd h) (u64 (h_wr h + n)) (h_next h)
         else mkHandle (h_use h) (h_dirp h) (h_fd h) (h_flags h) (h_name h) (u64 (h_rd h + n)) (h_wr h) (h_next h))) (s_first st) st)
    end
  else Go tt st.

(** sftp-server.c:457-474 handle_close; the result is (ret, errno). *)
Definition handle_close (i : Z) : M (Z * Z) := fun st =>
  if handle_is_ok i HFile st then
    (do r <- sys (CClose (handle_to_fd i st)); run handle_unused i; ret (rs_ret r, rs_errno r)) st
  else if handle_is_ok i HDir st then
    (do r <- sys (CClosedir (match handle_to_dir i st with Some d => d | None => 0 end)); run handle_unused i; ret (rs_ret r, rs_errno r)) st
  else Go (-1, 2) st.

(** sftp-server.c:502-516 get_handle. *)
Definition get_handle : M Z := fun st =>
  match get_str (s_in st) with
  | None => Halt HFatal st
  | Some (s, l) => Go (if zlen s <? 256 then handle_from_string s st else -1) (set_in l st)
  end.

(** A value read off the state. *)
Definition look {A} (f : state -> A) : M A := fun st => Go (f st) st.

(** sftp-server.c:530-546 status_to_message. *)
Definition status_to_message (s : Z) : list Z :=
  nth (Z.to_nat (Z.min s FX_MAX))
    [bs "Success"; bs "End of file"; bs "No such file"; bs "Permission denied"; bs "Failure"; bs "Bad message";
     bs "No connection"; bs "Connection lost"; bs "Operation unsupported"] (bs "Operation unsupported").

(** sftp-server.c:548-578 send_status_errmsg, send_status. *)
Definition send_status_errmsg (id status : Z) (msg : list Z) : M unit := send (RStatus id status msg).
Definition send_status (id status : Z) : M unit := send_status_errmsg id status (status_to_message status).
(** Most handlers end like this. *)
Definition send_unless_ok (id status : Z) : M unit := if status =? FX_OK then ret tt else send_status id status.
Definition send_result (id : Z) (r : sysres) : M unit :=
  send_status id (if rs_ret r =? -1 then errno_to_portable (rs_errno r) else FX_OK).

(** sftp-server.c:741-781 process_open. *)
Definition process_open (cf : config) (id : Z) : M unit :=
  do name <- parse get_cstr; do pflags <- parse (get_int 4); do a <- parse decode_attrib;
  let flags := flags_from_portable pflags in
  let mode := if has (a_flags a) ATTR_PERMISSIONS then i32 (a_perm a) else 438 in
  if c_readonly cf && (negb (Z.land flags O_ACCMODE =? O_RDONLY) || negb (Z.land flags (Z.lor O_CREAT O_TRUNC) =? 0))
  then send_unless_ok id FX_PERMISSION_DENIED
  else
    do r <- sys (COpen name flags mode);
    if rs_ret r =? -1 then send_unless_ok id (errno_to_portable (rs_errno r))
    else
      do h <- handle_new HFile name (rs_ret r) flags 0;
      if h <? 0 then (run sys (CClose (rs_ret r)); send_unless_ok id FX_FAILURE)
      else send (RHandle id (handle_to_string h)).

(** sftp-server.c:783-796 process_close. *)
Definition process_close (id : Z) : M unit :=
  do h <- get_handle; do r <- handle_close h;
  send_status id (if fst r =? -1 then errno_to_portable (snd r) else FX_OK).

(** sftp-server.c:798-851 process_read. *)
Definition process_read (id : Z) : M unit :=
  do h <- get_handle; do off <- parse (get_int 8); do len0 <- parse (get_int 4);
  do fd <- look (handle_to_fd h);
  if fd =? -1 then send_unless_ok id FX_FAILURE else
  let len := if len0 >? MAX_READ then MAX_READ else len0 in
  do s <- sys (CLseek fd off);
  if rs_ret s =? -1 then send_unless_ok id (errno_to_portable (rs_errno s)) else
  if len =? 0 then send (RData id []) else
  do r <- sys (CRead fd len);
  if rs_ret r =? -1 then send_unless_ok id (errno_to_portable (rs_errno r))
  else if rs_ret r =? 0 then send_unless_ok id FX_EOF
  else (run send (RData id (ztake (rs_ret r) (rs_data r))); handle_update false h (rs_ret r)).

(** sftp-server.c:853-896 process_write. *)
Definition process_write (id : Z) : M unit :=
  do h <- get_handle; do off <- parse (get_int 8); do data <- parse get_str;
  do fd <- look (handle_to_fd h);
  if fd <? 0 then send_status id FX_FAILURE else
  do flags <- look (handle_to_flags h);
  do s <- (if has flags O_APPEND then ret (mkRes 0 0 [] stat0) else sys (CLseek fd off));
  if rs_ret s =? -1 then send_status id (errno_to_portable (rs_errno s)) else
  do r <- sys (CWrite fd data);
  if rs_ret r =? -1 then send_status id (errno_to_portable (rs_errno r))
  else if rs_ret r =? zlen data then (run handle_update true h (rs_ret r); send_status id FX_OK)
  else send_status id FX_FAILURE.

(** sftp-server.c:898-934 process_do_stat, process_stat, process_lstat. *)
Definition process_do_stat (id : Z) (do_lstat : bool) : M unit :=
  do name <- parse get_cstr;
  do r <- sys (if do_lstat then CLstat name else CStat name);
  if rs_ret r =? -1 then send_unless_ok id (errno_to_portable (rs_errno r))
  else send (RAttrs id (stat_to_attrib (rs_st r))).

(** sftp-server.c:936-960 process_fstat. *)
Definition process_fstat (id : Z) : M unit :=
  do h <- get_handle; do fd <- look (handle_to_fd h);
  if fd >=? 0 then
    do r <- sys (CFstat fd);
    if rs_ret r =? -1 then send_unless_ok id (errno_to_portable (rs_errno r))
    else send (RAttrs id (stat_to_attrib (rs_st r)))
  else send_unless_ok id FX_FAILURE.

(** One attribute of a setstat request: the call is made when the flag is set and
    a failure replaces the status. *)
Definition attr_call (on : bool) (c : call) (status : Z) : M Z :=
  if on then (do r <- sys c; ret (if rs_ret r =? -1 then errno_to_portable (rs_errno r) else status)) else ret status.

(** sftp-server.c:986-1031 process_setstat. *)
Definition process_setstat (id : Z) : M unit :=
  do name <- parse get_cstr; do a <- parse decode_attrib;
  do s1 <- attr_call (has (a_flags a) ATTR_SIZE) (CTruncate name (a_size a)) FX_OK;
  do s2 <- attr_call (has (a_flags a) ATTR_PERMISSIONS) (CChmod name (Z.land (a_perm a) 4095)) s1;
  do s3 <- attr_call (has (a_flags a) ATTR_ACMODTIME) (CUtimes name (a_atime a) (a_mtime a)) s2;
  do s4 <- attr_call (has (a_flags a) ATTR_UIDGID) (CChown name (a_uid a) (a_gid a)) s3;
  send_status id s4.

(** sftp-server.c:1033-1096 process_fsetstat. *)
Definition process_fsetstat (id : Z) : M unit :=
  do h <- get_handle; do a <- parse decode_attrib;
  do fd <- look (handle_to_fd h);
  if fd <? 0 then send_status id FX_FAILURE else
  do s1 <- attr_call (has (a_flags a) ATTR_SIZE) (CFtruncate fd (a_size a)) FX_OK;
  do s2 <- attr_call (has (a_flags a) ATTR_PERMISSIONS) (CFchmod fd (Z.land (a_perm a) 4095)) s1;
  do s3 <- attr_call (has (a_flags a) ATTR_ACMODTIME) (CFutimes fd (a_atime a) (a_mtime a)) s2;
  do s4 <- attr_call (has (a_flags a) ATTR_UIDGID) (CFchown fd (a_uid a) (a_gid a)) s3;
  send_status id s4.

(** sftp-server.c:1098-1126 process_opendir. *)
Definition process_opendir (id : Z) : M unit :=
  do path <- parse get_cstr;
  do r <- sys (COpendir path);
  if rs_ret r =? -1 then send_unless_ok id (errno_to_portable (rs_errno r))
  else
    do h <- handle_new HDir path 0 0 (rs_ret r);
    if h <? 0 then (run sys (CClosedir (rs_ret r)); send_unless_ok id FX_FAILURE)
    else send (RHandle id (handle_to_string h)).

(** sftp-server.c:1128-1183 process_readdir: the loop over directory entries, up
    to 100 of them.  The result is the entries found and the calls made; [None]
    when a call has not returned.  snprintf's truncation of the path at PATH_MAX
    is not modelled. *)
Fixpoint readdir_loop (cf : config) (d : Z) (path : list Z) (count : Z) (env : list sysres)
    (names : list (list Z * list Z * attrib)) (calls : list (call * option sysres))
    : option (list (list Z * list Z * attrib)) * list (call * option sysres) * list sysres :=
  match env with
  | [] => (None, calls ++ [(CReaddir d, None)], [])
  | r1 :: env1 =>
    let calls1 := calls ++ [(CReaddir d, Some r1)] in
    if rs_ret r1 =? -1 then (Some names, calls1, env1) else
    let p := path ++ (if beqb path (bs "/") then [] else bs "/") ++ rs_data r1 in
    match env1 with
    | [] => (None, calls1 ++ [(CLstat p, None)], [])
    | r2 :: env2 =>
      let calls2 := calls1 ++ [(CLstat p, Some r2)] in
      if rs_ret r2 =? -1 then readdir_loop cf d path count env2 names calls2 else
      let names' := names ++ [(rs_data r1, c_ls cf (rs_data r1) (rs_st r2), stat_to_attrib (rs_st r2))] in
      if count + 1 =? 100 then (Some names', calls2, env2)
      else readdir_loop cf d path (count + 1) env2 names' calls2
    end
  end.
Definition process_readdir (cf : config) (id : Z) : M unit :=
  do h <- get_handle;
  do d <- look (handle_to_dir h); do p <- look (handle_to_name h);
  match d, p with
  | Some dirp, Some path => fun st =>
      match readdir_loop cf dirp path 0 (s_env st) [] [] with
      | (None, calls, env) => Halt HBlocked (add_calls calls env st)
      | (Some names, calls, env) =>
          (if zlen names >? 0 then send (RNames id names) else send_status id FX_EOF) (add_calls calls env st)
      end
  | _, _ => send_status id FX_FAILURE
  end.

(** sftp-server.c:1185-1238 process_remove, process_mkdir, process_rmdir. *)
Definition process_remove (id : Z) : M unit :=
  do name <- parse get_cstr; do r <- sys (CUnlink name); send_result id r.
Definition process_mkdir (id : Z) : M unit :=
  do name <- parse get_cstr; do a <- parse decode_attrib;
  let mode := if has (a_flags a) ATTR_PERMISSIONS then Z.land (a_perm a) 4095 else 511 in
  do r <- sys (CMkdir name mode); send_result id r.
Definition process_rmdir (id : Z) : M unit :=
  do name <- parse get_cstr; do r <- sys (CRmdir name); send_result id r.

(** sftp-server.c:1240-1265 process_realpath; sftp_realpath is one call. *)
Definition send_name1 (id : Z) (n : list Z) : M unit := send (RNames id [(n, n, attrib_clear)]).
Definition realpath_reply (id : Z) (path : list Z) : M unit :=
  do r <- sys (CRealpath path);
  if rs_ret r =? -1 then send_status id (errno_to_portable (rs_errno r)) else send_name1 id (rs_data r).
Definition process_realpath (id : Z) : M unit :=
  do path <- parse get_cstr;
  realpath_reply id (match path with [] => bs "." | _ => path end).

(** sftp-server.c:1267-1325 process_rename.  EOPNOTSUPP is 95, ENOSYS 38, EXDEV
    18. *)
Definition process_rename (id : Z) : M unit :=
  do old <- parse get_cstr; do new <- parse get_cstr;
  let by_rename := do r <- sys (CRename old new); send_result id r in
  do s <- sys (CLstat old);
  if rs_ret s =? -1 then send_status id (errno_to_portable (rs_errno s))
  else if s_isreg (st_mode (rs_st s)) then
    do l <- sys (CLink old new);
    if rs_ret l =? -1 then
      if (rs_errno l =? 95) || (rs_errno l =? 38) || (rs_errno l =? 18) then
        do t <- sys (CStat new);
        if rs_ret t =? -1 then by_rename else send_status id FX_FAILURE
      else send_status id (errno_to_portable (rs_errno l))
    else
      do u <- sys (CUnlink old);
      if rs_ret u =? -1 then (run sys (CUnlink new); send_status id (errno_to_portable (rs_errno u)))
      else send_status id FX_OK
  else
    do t <- sys (CStat new);
    if rs_ret t =? -1 then by_rename else send_status id FX_FAILURE.

(** sftp-server.c:1327-1370 process_readlink, process_symlink. *)
Definition process_readlink (id : Z) : M unit :=
  do path <- parse get_cstr;
  do r <- sys (CReadlink path);
  if rs_ret r =? -1 then send_status id (errno_to_portable (rs_errno r)) else send_name1 id (cstr (rs_data r)).
Definition process_symlink (id : Z) : M unit :=
  do old <- parse get_cstr; do new <- parse get_cstr; do r <- sys (CSymlink old new); send_result id r.

(** sftp-server.c:1372-1389 process_extended_posix_rename. *)
Definition process_posix_rename (id : Z) : M unit :=
  do old <- parse get_cstr; do new <- parse get_cstr; do r <- sys (CRename old new); send_result id r.

(** sftp-server.c:1391-1428 process_extended_statvfs, process_extended_fstatvfs. *)
Definition send_statvfs (id : Z) (r : sysres) : M unit :=
  if negb (rs_ret r =? 0) then send_status id (errno_to_portable (rs_errno r)) else send (RExt id (rs_data r)).
Definition process_statvfs (id : Z) : M unit :=
  do path <- parse get_cstr; do r <- sys (CStatvfs path); send_statvfs id r.
Definition process_fstatvfs (id : Z) : M unit :=
  do h <- get_handle; do fd <- look (handle_to_fd h);
  if fd <? 0 then send_status id FX_FAILURE else
  do r <- sys (CFstatvfs fd); send_statvfs id r.

(** sftp-server.c:1430-1447 process_extended_hardlink. *)
Definition process_hardlink (id : Z) : M unit :=
  do old <- parse get_cstr; do new <- parse get_cstr; do r <- sys (CLink old new); send_result id r.

(** sftp-server.c:1449-1465 process_extended_fsync. *)
Definition process_fsync (id : Z) : M unit :=
  do h <- get_handle; do fd <- look (handle_to_fd h);
  if fd <? 0 then send_status id FX_NO_SUCH_FILE else
  do ok <- look (handle_is_ok h HFile);
  if ok then (do r <- sys (CFsync fd); send_result id r) else send_status id FX_OP_UNSUPPORTED.

(** sftp-server.c:1467-1514 process_extended_lsetstat. *)
Definition process_lsetstat (id : Z) : M unit :=
  do name <- parse get_cstr; do a <- parse decode_attrib;
  if has (a_flags a) ATTR_SIZE then send_status id FX_BAD_MESSAGE else
  do s2 <- attr_call (has (a_flags a) ATTR_PERMISSIONS) (CFchmodat name (Z.land (a_perm a) 4095)) FX_OK;
  do s3 <- attr_call (has (a_flags a) ATTR_ACMODTIME) (CUtimensat name (a_atime a) (a_mtime a)) s2;
  do s4 <- attr_call (has (a_flags a) ATTR_UIDGID) (CFchownat name (a_uid a) (a_gid a)) s3;
  send_status id s4.

(** sftp-server.c:1516-1548 process_extended_limits; [rs_ret] is rlim_cur, or -1. *)
Definition process_limits (id : Z) : M unit :=
  do r <- sys CGetrlimit;
  let nfiles := if negb (rs_ret r =? -1) && (rs_ret r >? 5) then rs_ret r - 5 else 0 in
  send (RExt id (be_enc 8 MAX_MSG ++ be_enc 8 MAX_READ ++ be_enc 8 (MAX_MSG - 1024) ++ be_enc 8 nfiles)).

(** sftp-server.c:1550-1607 process_extended_expand; tilde_expand is one call. *)
Definition process_expand (id : Z) : M unit :=
  do path <- parse get_cstr;
  do w <- sys CGetcwd;
  if rs_ret w =? -1 then send_status id (errno_to_portable (rs_errno w)) else
  let cwd := rs_data w in
  match path with
  | [] => realpath_reply id (bs ".")
  | c :: r =>
    if c =? 126 then
      match r with
      | [] => realpath_reply id cwd
      | c2 :: r2 =>
        if c2 =? 47 then realpath_reply id (cwd ++ bs "/" ++ r2)
        else
          do t <- sys (CTilde path);
          if negb (rs_ret t =? 0) then send_status_errmsg id (errno_to_portable 2) (bs "no such user")
          else realpath_reply id (rs_data t)
      end
    else if c =? 47 then realpath_reply id path
    else realpath_reply id (cwd ++ bs "/" ++ path)
  end.

(** sftp-server.c:1663-1691, the loop of copy-data: what is left to read, the
    status so far and the calls made; [None] when a call has not returned.  With
    nothing left to read and copying to the end of file, atomicio is asked for no
    bytes: it makes no call and returns 0 with errno as it was; the status this
    gives is replaced right after the loop. *)
Fixpoint copy_loop (rfd wfd : Z) (eof : bool) (todo : Z) (status : Z) (env : list sysres) (rd wr : Z) (calls : list (call * option sysres))
    : option (Z * Z) * Z * Z * list (call * option sysres) * list sysres :=
  if (todo >? 0) || eof then
    let len := Z.min COPY_BUF todo in
    let todo' := todo - len in
    if len =? 0 then (Some (todo', status), rd, wr, calls, env) else
    match env with
    | [] => (None, rd, wr, calls ++ [(CReadFull rfd len, None)], [])
    | r :: env1 =>
      let calls1 := calls ++ [(CReadFull rfd len, Some r)] in
      if (rs_ret r =? 0) && (rs_errno r =? 32) then (Some (todo', if eof then FX_OK else FX_EOF), rd, wr, calls1, env1)
      else if rs_ret r =? 0 then (Some (todo', errno_to_portable (rs_errno r)), rd, wr, calls1, env1)
      else
        let data := ztake (rs_ret r) (rs_data r) in
        match env1 with
        | [] => (None, rd + rs_ret r, wr, calls1 ++ [(CWriteFull wfd data, None)], [])
        | w :: env2 =>
          let calls2 := calls1 ++ [(CWriteFull wfd data, Some w)] in
          if negb (rs_ret w =? rs_ret r) then (Some (todo', errno_to_portable (rs_errno w)), rd + rs_ret r, wr, calls2, env2)
          else copy_loop rfd wfd eof todo' status env2 (rd + rs_ret r) (wr + rs_ret r) calls2
        end
    end
  else (Some (todo, status), rd, wr, calls, env).

(** sftp-server.c:1609-1695 process_extended_copy_data. *)
Definition process_copy_data (id : Z) : M unit :=
  do rh <- get_handle; do roff <- parse (get_int 8); do rlen0 <- parse (get_int 8);
  do wh <- get_handle; do woff <- parse (get_int 8);
  let eof := rlen0 =? 0 in
  let rlen := if eof then u64 (U64 - 1 - roff) else rlen0 in
  do rfd <- look (handle_to_fd rh); do wfd <- look (handle_to_fd wh);
  do rn <- look (handle_to_name rh); do wn <- look (handle_to_name wh);
  if (rh =? wh) || (rfd <? 0) || (wfd <? 0) ||
     match rn, wn with Some a, Some b => beqb a b | _, _ => true end
  then send_status id FX_FAILURE else
  do s <- sys (CLseek rfd roff);
  if rs_ret s <? 0 then send_status id (errno_to_portable (rs_errno s)) else
  do wflags <- look (handle_to_flags wh);
  do t <- (if has wflags O_APPEND then ret (mkRes 0 0 [] stat0) else sys (CLseek wfd woff));
  if rs_ret t <? 0 then send_status id (errno_to_portable (rs_errno t)) else
  fun st =>
    match copy_loop rfd wfd eof rlen FX_OP_UNSUPPORTED (s_env st) 0 0 [] with
    | (None, rd, wr, calls, env) => Halt HBlocked (add_calls calls env st)
    | (Some (todo, status), rd, wr, calls, env) =>
        (run handle_update false rh rd; run handle_update true wh wr;
         send_status id (if todo =? 0 then FX_OK else status)) (add_calls calls env st)
    end.

(** sftp-server.c:1697-1722 process_extended_home_directory. *)
Definition process_home (cf : config) (id : Z) : M unit :=
  do user <- parse get_cstr;
  match user with
  | [] => send_name1 id (c_home cf)
  | _ => do r <- sys (CGetpwnam user);
         if rs_ret r =? -1 then send_status id FX_FAILURE else send_name1 id (rs_data r)
  end.

(** sftp-server.c:1724-1777 process_extended_get_users_groups_by_id. *)
Fixpoint names_of (mk : Z -> call) (ids : list Z) (acc : list Z) : M (list Z) :=
  match ids with
  | [] => ret acc
  | a :: b :: c :: d :: r =>
      do x <- sys (mk (be_dec [a; b; c; d]));
      names_of mk r (acc ++ enc_string (if rs_ret x =? -1 then [] else rs_data x))
  | _ => stop HFatal
  end.
Definition process_users_groups (id : Z) : M unit :=
  do uids <- parse get_str; do gids <- parse get_str;
  do us <- names_of CGetpwuid uids []; do gs <- names_of CGetgrgid gids [];
  send (RExt id (enc_string us ++ enc_string gs)).

(** sftp-server.c:137-178, the two handler tables: name for -P and -p, message
    type or extension name, whether it is banned in read-only mode. *)
Record handler := mkHandler { k_name : list Z; k_type : Z; k_ext : list Z; k_writes : bool; k_run : config -> Z -> M unit }.
Definition handlers : list handler :=
  let h n t w f := mkHandler (bs n) t [] w f in
  [ h "open"%string FXP_OPEN false process_open; h "close"%string FXP_CLOSE false (fun _ => process_close);
    h "read"%string FXP_READ false (fun _ => process_read); h "write"%string FXP_WRITE true (fun _ => process_write);
    h "lstat"%string FXP_LSTAT false (fun _ id => process_do_stat id true); h "fstat"%string FXP_FSTAT false (fun _ => process_fstat);
    h "setstat"%string FXP_SETSTAT true (fun _ => process_setstat); h "fsetstat"%string FXP_FSETSTAT true (fun _ => process_fsetstat);
    h "opendir"%string FXP_OPENDIR false (fun _ => process_opendir); h "readdir"%string FXP_READDIR false process_readdir;
    h "remove"%string FXP_REMOVE true (fun _ => process_remove); h "mkdir"%string FXP_MKDIR true (fun _ => process_mkdir);
    h "rmdir"%string FXP_RMDIR true (fun _ => process_rmdir); h "realpath"%string FXP_REALPATH false (fun _ => process_realpath);
    h "stat"%string FXP_STAT false (fun _ id => process_do_stat id false); h "rename"%string FXP_RENAME true (fun _ => process_rename);
    h "readlink"%string FXP_READLINK false (fun _ => process_readlink); h "symlink"%string FXP_SYMLINK true (fun _ => process_symlink) ].
Definition extended_handlers : list handler :=
  let h n e w f := mkHandler (bs n) 0 (bs e) w f in
  [ h "posix-rename" "posix-rename@openssh.com" true (fun _ => process_posix_rename);
    h "statvfs" "statvfs@openssh.com" false (fun _ => process_statvfs);
    h "fstatvfs" "fstatvfs@openssh.com" false (fun _ => process_fstatvfs);
    h "hardlink" "hardlink@openssh.com" true (fun _ => process_hardlink);
    h "fsync" "fsync@openssh.com" true (fun _ => process_fsync);
    h "lsetstat" "lsetstat@openssh.com" true (fun _ => process_lsetstat);
    h "limits" "limits@openssh.com" false (fun _ => process_limits);
    h "expand-path" "expand-path@openssh.com" false (fun _ => process_expand);
    h "copy-data" "copy-data" true (fun _ => process_copy_data);
    h "home-directory" "home-directory" false process_home;
    h "users-groups-by-id" "users-groups-by-id@openssh.com" false (fun _ => process_users_groups) ]%string.

(** sftp-server.c:180-190 extended_handler_byname and the type loop of process. *)
Definition extended_handler_byname (n : list Z) : option handler := find (fun k => beqb n (k_ext k)) extended_handlers.
Definition handler_bytype (t : Z) : option handler := find (fun k => t =? k_type k) handlers.

(** sftp-server.c:192-218 request_permitted. *)
Definition listed (n : list Z) (l : list Z) : bool := match match_list n l with Some _ => true | None => false end.
Definition request_permitted (cf : config) (k : handler) : bool :=
  if c_readonly cf && k_writes k then false
  else if match c_deny cf with Some l => listed (k_name k) l | None => false end then false
  else match c_allow cf with Some l => listed (k_name k) l | None => true end.

(** sftp-server.c:689-739 process_init with compose_extension. *)
Definition advertised : list (list Z * list Z) :=
  map (fun p => (bs (fst p), bs (snd p)))
  [("posix-rename@openssh.com", "1"); ("statvfs@openssh.com", "2"); ("fstatvfs@openssh.com", "2");
   ("hardlink@openssh.com", "1"); ("fsync@openssh.com", "1"); ("lsetstat@openssh.com", "1");
   ("limits@openssh.com", "1"); ("expand-path@openssh.com", "1"); ("copy-data", "1");
   ("home-directory", "1"); ("users-groups-by-id@openssh.com", "1")]%string.
Definition compose_extension (cf : config) (e : list Z * list Z) : bool :=
  match extended_handler_byname (fst e) with Some k => request_permitted cf k | None => false end.
Definition process_init (cf : config) : M unit :=
  do v <- parse (get_int 4);
  run (fun st => Go tt (set_version v st));
  send (RVersion (filter (compose_extension cf) advertised)).

(** sftp-server.c:1779-1798 process_extended. *)
Definition process_extended (cf : config) (id : Z) : M unit :=
  do request <- parse get_cstr;
  match extended_handler_byname request with
  | None => send_status id FX_OP_UNSUPPORTED
  | Some k => if request_permitted cf k then k_run k cf id else send_status id FX_PERMISSION_DENIED
  end.

(** sftp-server.c:1831-1864, the switch of process. *)
Definition dispatch (cf : config) (type : Z) : M unit :=
  if type =? FXP_INIT then (run process_init cf; fun st => Go tt (set_init st))
  else fun st =>
    if negb (s_init st) then Halt HFatal st
    else (do id <- parse (get_int 4);
          if type =? FXP_EXTENDED then process_extended cf id
          else match handler_bytype type with
               | None => ret tt
               | Some k => if request_permitted cf k then k_run k cf id else send_status id FX_PERMISSION_DENIED
               end) st.

(** sftp-server.c:1802-1875 process; the result says whether a message was taken
    off the queue.  sftp_server_cleanup_exit ends the process. *)
Definition process (cf : config) : M bool := fun st =>
  let buf_len := zlen (s_in st) in
  if buf_len <? 5 then Go false st else
  let msg_len := be_dec (ztake 4 (s_in st)) in
  if msg_len >? MAX_MSG then Halt (HExit 11) st else
  if buf_len <? msg_len + 4 then Go false st else
  let body := zdrop 4 (s_in st) in
  match body with
  | [] => Halt HFatal st
  | type :: rest =>
    match dispatch cf type (set_in rest st) with
    | Halt h st' => Halt h st'
    | Go _ st' =>
      let consumed := buf_len - 4 - zlen (s_in st') in
      if msg_len <? consumed then Halt (HExit 255) st'
      else Go true (set_in (zdrop (msg_len - consumed) (s_in st')) st')
    end
  end.

(** The server at its start: sftp-server.c:326-328. *)
Definition start (env : list sysres) : state := mkState [] (-1) [] [] [] env 0 false.

(** The main loop, sftp-server.c:2036-2109, as far as requests go: each round
    appends what was read (possibly nothing) to the input queue and calls
    process once.  Writing the output queue to
    the client, and its limit on reading, are not modelled. *)
Fixpoint serve (cf : config) (chunks : list (list Z)) (st : state) : res unit :=
  match chunks with
  | [] => Go tt st
  | c :: chunks' =>
    match process cf (set_in (s_in st ++ c) st) with
    | Go _ st' => serve cf chunks' st'
    | Halt h st' => Halt h st'
    end
  end.
Definition final {A} (r : res A) : state := match r with Go _ st => st | Halt _ st => st end.

(** The encoding of replies, sftp-server.c:548-653 (send_status_errmsg,
    send_data_or_handle, send_names, send_attrib) and 709-739; the client version
    is the one given in its INIT message. *)
Definition reply_body (version : Z) (r : reply) : list Z :=
  match r with
  | RVersion exts => [FXP_VERSION] ++ be_enc 4 3 ++ flat_map (fun e => enc_string (fst e) ++ enc_string (snd e)) exts
  | RStatus id st msg => [FXP_STATUS] ++ be_enc 4 id ++ be_enc 4 st ++ (if version >=? 3 then enc_string msg ++ enc_string [] else [])
  | RHandle id h => [FXP_HANDLE] ++ be_enc 4 id ++ enc_string h
  | RData id d => [FXP_DATA] ++ be_enc 4 id ++ enc_string d
  | RNames id ns => [FXP_NAME] ++ be_enc 4 id ++ be_enc 4 (zlen ns) ++
      flat_map (fun n => enc_string (fst (fst n)) ++ enc_string (snd (fst n)) ++ encode_attrib (snd n)) ns
  | RAttrs id a => [FXP_ATTRS] ++ be_enc 4 id ++ encode_attrib a
  | RExt id p => [FXP_EXTENDED_REPLY] ++ be_enc 4 id ++ p
  end.
(** send_msg: sftp-server.c:520-528. *)
Definition reply_bytes (version : Z) (r : reply) : list Z := enc_string (reply_body version r).
