(** What users rely on from the SFTP server, in terms of request messages, the
    calls made to the operating system and the replies sent. *)
From Coq Require Import String.
From Verif Require Import Base SshbufModel SshbufSpec WireSpec Dec Text MatchSpec.
From Verif Require Import SftpModel.

(** A call that can change the file system: opening for writing, creating or
    truncating; writing; changing size, mode, times or owner; creating, removing
    or renaming names; and flushing. *)
Definition modifying (c : call) : Prop :=
  match c with
  | COpen _ flags _ => Z.land flags O_ACCMODE <> O_RDONLY \/ Z.land flags O_CREAT <> 0 \/ Z.land flags O_TRUNC <> 0
  | CWrite _ _ | CWriteFull _ _ | CTruncate _ _ | CFtruncate _ _ | CChmod _ _ | CFchmod _ _ | CFchmodat _ _
  | CUtimes _ _ _ | CFutimes _ _ _ | CUtimensat _ _ _ | CChown _ _ _ | CFchown _ _ _ | CFchownat _ _ _
  | CUnlink _ | CMkdir _ _ | CRmdir _ | CLink _ _ | CRename _ _ | CSymlink _ _ | CFsync _ => True
  | CClose _ | COpendir _ | CClosedir _ | CReaddir _ | CLseek _ _ | CRead _ _ | CReadFull _ _ | CStat _ | CLstat _ | CFstat _
  | CRealpath _ | CReadlink _ | CStatvfs _ | CFstatvfs _ | CGetcwd | CTilde _ | CGetpwnam _ | CGetpwuid _ | CGetgrgid _ | CGetrlimit => False
  end.

(** Messages.  The first complete message of an input queue, without its length. *)
Definition message (inq : list Z) : list Z := ztake (be_dec (ztake 4 inq)) (zdrop 4 inq).
(** Its type, its request identifier, and what follows. *)
Definition m_type (m : list Z) : option Z := match m with t :: _ => Some t | [] => None end.
Definition m_id (m : list Z) : option Z := option_map fst (get_int 4 (zdrop 1 m)).
Definition m_args (m : list Z) : list Z := zdrop 5 m.
(** The name of an extended request and its arguments. *)
Definition m_ext (m : list Z) : option (list Z) := option_map fst (get_cstr (m_args m)).
Definition m_ext_args (m : list Z) : list Z := match get_cstr (m_args m) with Some (_, r) => r | None => [] end.

(** The names under which requests are allowed or denied (sftp-server(8), -P and
    -p). *)
Definition type_names : list (Z * list Z) :=
  map (fun p => (fst p, bs (snd p)))
  [(3, "open"); (4, "close"); (5, "read"); (6, "write"); (7, "lstat"); (8, "fstat"); (9, "setstat"); (10, "fsetstat");
   (11, "opendir"); (12, "readdir"); (13, "remove"); (14, "mkdir"); (15, "rmdir"); (16, "realpath"); (17, "stat");
   (18, "rename"); (19, "readlink"); (20, "symlink")]%string.
Definition ext_names : list (list Z * list Z) :=
  map (fun p => (bs (fst p), bs (snd p)))
  [("posix-rename@openssh.com", "posix-rename"); ("statvfs@openssh.com", "statvfs"); ("fstatvfs@openssh.com", "fstatvfs");
   ("hardlink@openssh.com", "hardlink"); ("fsync@openssh.com", "fsync"); ("lsetstat@openssh.com", "lsetstat");
   ("limits@openssh.com", "limits"); ("expand-path@openssh.com", "expand-path"); ("copy-data", "copy-data");
   ("home-directory", "home-directory"); ("users-groups-by-id@openssh.com", "users-groups-by-id")]%string.
Definition request_named (m n : list Z) : Prop :=
  (exists t, m_type m = Some t /\ In (t, n) type_names) \/
  (m_type m = Some 200 /\ exists e, m_ext m = Some e /\ In (e, n) ext_names).

(** The configured lists refuse a request name. *)
Definition refused_by_lists (cf : config) (n : list Z) : Prop :=
  (exists l, c_deny cf = Some l /\ In n (split 44 l)) \/ (exists l, c_allow cf = Some l /\ ~ In n (split 44 l)).

(** Lists the server reads in full: see [C65_long_list_refuted] and
    [C65_empty_entry_refuted]. *)
Definition list_ok (l : list Z) : Prop := (length (split 44 l) <= 40)%nat /\ ~ In [] (split 44 l).
Definition lists_ok (cf : config) : Prop := (forall l, c_deny cf = Some l -> list_ok l) /\ (forall l, c_allow cf = Some l -> list_ok l).

(** Requests that would change the file system, by name; "open" does so depending
    on its flags. *)
Definition write_names : list (list Z) :=
  map bs ["write"; "setstat"; "fsetstat"; "remove"; "mkdir"; "rmdir"; "rename"; "symlink"; "posix-rename"; "hardlink";
          "fsync"; "lsetstat"; "copy-data"]%string.

(** Handles.  A live handle names an open file or an open directory. *)
Inductive obj := OFile (fd flags : Z) (name : list Z) | ODir (d : Z) (name : list Z).
Definition table := list Z -> option obj.
Definition empty : table := fun _ => None.
Definition add (T : table) (h : list Z) (o : obj) : table := fun x => if beqb x h then Some o else T x.
Definition remove (T : table) (h : list Z) : table := fun x => if beqb x h then None else T x.
Definition same_table (A B : table) : Prop := forall x, is_bytes x -> A x = B x.

(** Which kind of object a request wants its handle to name. *)
Inductive want := WAny | WFile | WDir.
Definition fits_want (w : want) (o : obj) : Prop := match w, o with WFile, ODir _ _ | WDir, OFile _ _ _ => False | _, _ => True end.

(** The handles a request message carries. *)
Definition first_string (l : list Z) : list (list Z) := match get_str l with Some (h, _) => [h] | None => [] end.
Definition uses (m : list Z) : list (list Z * want) :=
  match m_type m with
  | None => []
  | Some t =>
    if t =? 4 then map (fun h => (h, WAny)) (first_string (m_args m))
    else if (t =? 5) || (t =? 6) || (t =? 8) || (t =? 10) then map (fun h => (h, WFile)) (first_string (m_args m))
    else if t =? 12 then map (fun h => (h, WDir)) (first_string (m_args m))
    else if t =? 200 then
      match m_ext m with
      | None => []
      | Some e =>
        if beqb e (bs "fstatvfs@openssh.com") || beqb e (bs "fsync@openssh.com") then map (fun h => (h, WFile)) (first_string (m_ext_args m))
        else if beqb e (bs "copy-data") then
          match get_str (m_ext_args m) with
          | None => []
          | Some (h1, r) => map (fun h => (h, WFile)) (h1 :: first_string (zdrop 16 r))
          end
        else []
      end
    else []
  end.

(** The descriptor or directory stream a call works on. *)
Definition call_obj (c : call) : option (Z + Z) :=
  match c with
  | CClose fd | CLseek fd _ | CRead fd _ | CWrite fd _ | CFstat fd | CFtruncate fd _ | CFchmod fd _ | CFutimes fd _ _ | CFchown fd _ _
  | CFstatvfs fd | CFsync fd | CReadFull fd _ | CWriteFull fd _ => Some (inl fd)
  | CClosedir d | CReaddir d => Some (inr d)
  | _ => None
  end.
Definition obj_key (o : obj) : Z + Z := match o with OFile fd _ _ => inl fd | ODir d _ => inr d end.
(** What a successful open creates. *)
Definition opened (c : call) (r : sysres) : option obj :=
  match c with
  | COpen n f _ => if rs_ret r =? -1 then None else Some (OFile (rs_ret r) f n)
  | COpendir n => if rs_ret r =? -1 then None else Some (ODir (rs_ret r) n)
  | _ => None
  end.

Definition reply_id (r : reply) : option Z :=
  match r with RVersion _ => None | RStatus id _ _ | RHandle id _ | RData id _ | RNames id _ | RAttrs id _ | RExt id _ => Some id end.
(** A reply that reports failure. *)
Definition refusal (id : Z) (r : reply) : Prop := exists s t, r = RStatus id s t /\ s <> FX_OK.

(** One request [m], handled with the live handles [T]: the calls made, the
    replies sent and the live handles afterwards. *)
Record handled (m : list Z) (T : table) (calls : list (call * option sysres)) (replies : list reply) (T' : table) : Prop := {
  (* calls on descriptors and streams only concern objects the request named by a live handle of the right kind *)
  ok_calls : forall c r x, In (c, r) calls -> call_obj c = Some x ->
    exists h w o, In (h, w) (uses m) /\ T h = Some o /\ fits_want w o /\ obj_key o = x;
  (* a request naming anything else is refused and does nothing *)
  ok_refuse : forall h w, In (h, w) (uses m) -> (forall o, T h = Some o -> ~ fits_want w o) ->
    calls = [] /\ exists id r, m_id m = Some id /\ replies = [r] /\ refusal id r;
  (* a successful open is answered with a handle that was not live, which then names what was opened *)
  ok_open : forall c r o, In (c, Some r) calls -> opened c r = Some o ->
    exists id h, m_id m = Some id /\ replies = [RHandle id h] /\ T h = None /\ same_table T' (add T h o);
  (* handles are issued for nothing else *)
  ok_issue : forall id h, In (RHandle id h) replies -> exists c r o, In (c, Some r) calls /\ opened c r = Some o;
  (* closing a live handle closes its object and the handle is not live afterwards *)
  ok_close : forall h o, m_type m = Some 4 -> In (h, WAny) (uses m) -> T h = Some o -> calls <> [] ->
    (exists r, calls = [(match o with OFile fd _ _ => CClose fd | ODir d _ => CClosedir d end, Some r)]) /\ same_table T' (remove T h);
  (* nothing else changes which handles are live *)
  ok_keep : m_type m <> Some 4 \/ calls = [] -> (forall c r o, In (c, Some r) calls -> opened c r <> Some o) -> same_table T' T
}.

(** A call's result is plausible: failures are -1 and set errno. *)
Definition res_ok (r : sysres) : Prop := -1 <= rs_ret r /\ (rs_ret r = -1 -> rs_errno r <> 0).

(** What happened in a session: for each message taken off the queue, the message,
    the calls made and the replies sent while it was handled.  A message during
    which the server stops is not an entry. *)
Definition entry := (list Z * list (call * option sysres) * list reply)%type.
Fixpoint session (cf : config) (chunks : list (list Z)) (st : state) : list entry :=
  match chunks with
  | [] => []
  | c :: chunks' =>
    let st0 := set_in (s_in st ++ c) st in
    match process cf st0 with
    | Go took st' =>
        (if took then [(message (s_in st0), skipn (length (s_calls st0)) (s_calls st'), skipn (length (s_out st0)) (s_out st'))] else [])
        ++ session cf chunks' st'
    | Halt _ _ => []
    end
  end.
(** A relation holds of every entry, with the live handles passed from one entry
    to the next. *)
Fixpoint chain (R : list Z -> table -> list (call * option sysres) -> list reply -> table -> Prop) (T : table) (l : list entry) : Prop :=
  match l with
  | [] => True
  | (m, calls, replies) :: l' => exists T', R m T calls replies T' /\ chain R T' l'
  end.
(** Handles issued and closed by one entry, and the bound on live handles: their
    numbers are C ints. *)
Definition issues (e : entry) : Z := zlen (filter (fun r => match r with RHandle _ _ => true | _ => false end) (snd e)).
Definition closes (e : entry) : Z :=
  match m_type (fst (fst e)), snd (fst e) with Some t, _ :: _ => if t =? 4 then 1 else 0 | _, _ => 0 end.
Fixpoint live (l : list entry) : Z := match l with [] => 0 | e :: l' => issues e - closes e + live l' end.
Definition few_live (l : list entry) : Prop := forall p q, l = p ++ q -> live p < 2147483648.

(** Reading and writing (C67).  The arguments of a READ and of a WRITE request. *)
Definition read_args (m : list Z) (h : list Z) (off len : Z) : Prop :=
  exists rest, m_args m = enc_string h ++ be_enc 8 off ++ be_enc 4 len ++ rest /\ 0 <= off < U64 /\ 0 <= len < U32.
Definition write_args (m : list Z) (h : list Z) (off : Z) (data : list Z) : Prop :=
  exists rest, m_args m = enc_string h ++ be_enc 8 off ++ enc_string data ++ rest /\ 0 <= off < U64.
(** A positioning call: made unless the file was opened for appending. *)
Definition positioned (fd fl off : Z) (pre : list (call * option sysres)) : Prop :=
  if Z.land fl O_APPEND =? 0 then exists s, pre = [(CLseek fd off, Some s)] /\ rs_ret s <> -1 else pre = [].
Record transferred (m : list Z) (T : table) (calls : list (call * option sysres)) (replies : list reply) : Prop := {
  (* data in a reply to READ is what was read from that file at that offset *)
  tr_read : forall id d, m_type m = Some 5 -> replies = [RData id d] ->
    exists h off len fd fl n s, read_args m h off len /\ T h = Some (OFile fd fl n) /\ rs_ret s <> -1 /\
      ((len = 0 /\ d = [] /\ calls = [(CLseek fd off, Some s)]) \/
       exists r, calls = [(CLseek fd off, Some s); (CRead fd (Z.min len MAX_READ), Some r)] /\ 0 < rs_ret r /\ d = ztake (rs_ret r) (rs_data r));
  (* success is reported for a WRITE exactly when all its data went to that file at that offset *)
  tr_write : forall id st t, m_type m = Some 6 -> replies = [RStatus id st t] ->
    (st = FX_OK <-> exists h off data fd fl n pre r, write_args m h off data /\ T h = Some (OFile fd fl n) /\
        calls = pre ++ [(CWrite fd data, Some r)] /\ positioned fd fl off pre /\ rs_ret r = zlen data)
}.

(** Renaming (C68): the target is only replaced after it was found not to exist,
    and a name is only removed once the other one is in place. *)
Record renamed (m : list Z) (calls : list (call * option sysres)) (replies : list reply) : Prop := {
  rn_new : forall pre a b r post, m_type m = Some 18 -> calls = pre ++ (CRename a b, r) :: post ->
    exists r', In (CStat b, Some r') pre /\ rs_ret r' = -1;
  rn_old : forall pre a r post, m_type m = Some 18 -> calls = pre ++ (CUnlink a, r) :: post ->
    exists x y r', In (CLink x y, Some r') pre /\ rs_ret r' <> -1 /\
      (a = x \/ (a = y /\ exists r'', In (CUnlink x, Some r'') pre /\ rs_ret r'' = -1));
  rn_done : forall id t, m_type m = Some 18 -> replies = [RStatus id FX_OK t] ->
    exists old new rest, m_args m = enc_string old ++ enc_string new ++ rest /\
    ((exists l u, In (CLink (cstr old) (cstr new), Some l) calls /\ In (CUnlink (cstr old), Some u) calls /\ rs_ret l <> -1 /\ rs_ret u <> -1) \/
     (exists r, In (CRename (cstr old) (cstr new), Some r) calls /\ rs_ret r <> -1))
}.

(** Replies (C66): INIT is answered with VERSION, every other known request with
    one reply carrying its identifier, an unknown one with nothing. *)
Definition answered (m : list Z) (replies : list reply) : Prop :=
  match m_type m with
  | None => False
  | Some t =>
    if t =? 1 then exists exts, replies = [RVersion exts]
    else if (t =? 200) || existsb (fun p => fst p =? t) type_names then exists r, replies = [r] /\ reply_id r = m_id m
    else replies = []
  end.

(** Copying between handles (C69).  The arguments of copy-data. *)
Definition copy_args (m : list Z) (rh : list Z) (roff len : Z) (wh : list Z) (woff : Z) : Prop :=
  exists rest, m_ext_args m = enc_string rh ++ be_enc 8 roff ++ be_enc 8 len ++ enc_string wh ++ be_enc 8 woff ++ rest /\
    0 <= roff < U64 /\ 0 <= len < U64 /\ 0 <= woff < U64.
(** Whole chunks copied: the number of bytes asked for, and the bytes, each read
    followed by a complete write of what was read. *)
Inductive copying (rfd wfd : Z) : Z -> list Z -> list (call * option sysres) -> Prop :=
| copying_done : copying rfd wfd 0 [] []
| copying_chunk : forall n r w total d cs, 0 < n -> rs_ret r <> 0 -> rs_ret w = rs_ret r -> copying rfd wfd total d cs ->
    copying rfd wfd (n + total) (ztake (rs_ret r) (rs_data r) ++ d)
      ((CReadFull rfd n, Some r) :: (CWriteFull wfd (ztake (rs_ret r) (rs_data r)), Some w) :: cs).
(** How a copy ends: nothing more to do, a read that gives nothing, or a write
    that is not complete. *)
Inductive ending (rfd wfd : Z) : Z -> list (call * option sysres) -> Prop :=
| ending_none : ending rfd wfd 0 []
| ending_read : forall n r, 0 < n -> rs_ret r = 0 -> ending rfd wfd n [(CReadFull rfd n, Some r)]
| ending_write : forall n r w, 0 < n -> rs_ret r <> 0 -> rs_ret w <> rs_ret r ->
    ending rfd wfd n [(CReadFull rfd n, Some r); (CWriteFull wfd (ztake (rs_ret r) (rs_data r)), Some w)].
Definition copied (m : list Z) (T : table) (calls : list (call * option sysres)) (replies : list reply) : Prop :=
  m_type m = Some 200 -> m_ext m = Some (bs "copy-data") ->
  (exists c data r, In (CWriteFull c data, r) calls) \/ (exists id t, replies = [RStatus id FX_OK t]) ->
  exists rh roff len wh woff rfd rfl rn wfd wfl wn s pre total last d cs e, copy_args m rh roff len wh woff /\
    T rh = Some (OFile rfd rfl rn) /\ T wh = Some (OFile wfd wfl wn) /\ rh <> wh /\ rn <> wn /\
    calls = (CLseek rfd roff, Some s) :: pre ++ cs ++ e /\ 0 <= rs_ret s /\ positioned wfd wfl woff pre /\
    copying rfd wfd total d cs /\ ending rfd wfd last e /\ (len <> 0 -> total + last <= len) /\
    (* success is reported when the amount asked for was gone through, when the end
       of the source was reached and no amount was given, or when a failing call
       left errno at 0 *)
    (forall id t, replies = [RStatus id FX_OK t] ->
       (total + last = if len =? 0 then U64 - 1 - roff else len) \/
       (len = 0 /\ exists n r', e = [(CReadFull rfd n, Some r')]) \/
       (exists c r', In (c, Some r') e /\ rs_errno r' = 0)).

(** A request that names one live handle of the right kind gets through to the
    operating system, unless there was nothing to do (C46). *)
Definition served (m : list Z) (T : table) (calls : list (call * option sysres)) (replies : list reply) : Prop :=
  forall h w o, uses m = [(h, w)] -> T h = Some o -> fits_want w o -> (forall fd fl n, o = OFile fd fl n -> 0 <= fd) ->
  calls <> [] \/ exists id t, replies = [RStatus id FX_OK t].
(** No restrictions configured. *)
Definition unrestricted (cf : config) : Prop := c_readonly cf = false /\ c_deny cf = None /\ c_allow cf = None.
