(** auth-options.c and the option helpers of misc.c: the restrictions that a key
    line or a certificate puts on a login.

    C strings are lists of non-zero bytes; [None] is a null pointer.  Allocation
    failure is not modelled.  Flags are the C integers; the code writes 0 or 1,
    but the value read from the monitor may be any byte. *)
From Coq Require Import String.
From Verif Require Import Base Text SshbufModel SshbufSpec WireSpec MatchModel MiscNumModel AddrModel PermitModel Dec.

(** auth-options.h:27-79 (struct sshauthopt); the counts are the list lengths *)
Record aopt := mkA {
  a_port : Z; a_agent : Z; a_x11 : Z; a_pty : Z; a_rc : Z;    (* permit_..._flag *)
  a_restricted : Z;
  a_expiry : Z;                                              (* valid_before; 0: none *)
  a_ca : Z; a_princ : option (list Z);                       (* cert_authority, cert_principals *)
  a_tun : Z; a_cmd : option (list Z);                        (* force_tun_device, force_command *)
  a_env : list (list Z); a_open : list (list Z); a_listen : list (list Z);
  a_from_cert : option (list Z); a_from_keys : option (list Z);
  a_notouch : Z; a_verify : Z;                               (* no_require_user_presence, require_verify *)
}.
Definition w_port v o := let 'mkA a b c d e f g h i j k l m n p q r s := o in mkA v b c d e f g h i j k l m n p q r s.
Definition w_agent v o := let 'mkA a b c d e f g h i j k l m n p q r s := o in mkA a v c d e f g h i j k l m n p q r s.
Definition w_x11 v o := let 'mkA a b c d e f g h i j k l m n p q r s := o in mkA a b v d e f g h i j k l m n p q r s.
Definition w_pty v o := let 'mkA a b c d e f g h i j k l m n p q r s := o in mkA a b c v e f g h i j k l m n p q r s.
Definition w_rc v o := let 'mkA a b c d e f g h i j k l m n p q r s := o in mkA a b c d v f g h i j k l m n p q r s.
Definition w_restricted v o := let 'mkA a b c d e f g h i j k l m n p q r s := o in mkA a b c d e v g h i j k l m n p q r s.
Definition w_expiry v o := let 'mkA a b c d e f g h i j k l m n p q r s := o in mkA a b c d e f v h i j k l m n p q r s.
Definition w_ca v o := let 'mkA a b c d e f g h i j k l m n p q r s := o in mkA a b c d e f g v i j k l m n p q r s.
Definition w_princ v o := let 'mkA a b c d e f g h i j k l m n p q r s := o in mkA a b c d e f g h v j k l m n p q r s.
Definition w_tun v o := let 'mkA a b c d e f g h i j k l m n p q r s := o in mkA a b c d e f g h i v k l m n p q r s.
Definition w_cmd v o := let 'mkA a b c d e f g h i j k l m n p q r s := o in mkA a b c d e f g h i j v l m n p q r s.
Definition w_env v o := let 'mkA a b c d e f g h i j k l m n p q r s := o in mkA a b c d e f g h i j k v m n p q r s.
Definition w_open v o := let 'mkA a b c d e f g h i j k l m n p q r s := o in mkA a b c d e f g h i j k l v n p q r s.
Definition w_listen v o := let 'mkA a b c d e f g h i j k l m n p q r s := o in mkA a b c d e f g h i j k l m v p q r s.
Definition w_from_cert v o := let 'mkA a b c d e f g h i j k l m n p q r s := o in mkA a b c d e f g h i j k l m n v q r s.
Definition w_from_keys v o := let 'mkA a b c d e f g h i j k l m n p q r s := o in mkA a b c d e f g h i j k l m n p v r s.
Definition w_notouch v o := let 'mkA a b c d e f g h i j k l m n p q r s := o in mkA a b c d e f g h i j k l m n p q v s.
Definition w_verify v o := let 'mkA a b c d e f g h i j k l m n p q r s := o in mkA a b c d e f g h i j k l m n p q r v.

(** auth-options.c:194-203 (sshauthopt_new) *)
Definition sshauthopt_new : aopt := mkA 0 0 0 0 0 0 0 0 None (-1) None [] [] [] None None 0 0.
(** auth-options.c:233-248 (sshauthopt_new_with_keys_defaults) *)
Definition sshauthopt_new_with_keys_defaults : aopt :=
  w_port 1 (w_agent 1 (w_x11 1 (w_pty 1 (w_rc 1 sshauthopt_new)))).

(** ** Merging: auth-options.c:533-655 *)
Definition zb (b : bool) : Z := if b then 1 else 0.
Definition optflag_and (x : aopt -> Z) (p a : aopt) : Z := zb ((x p =? 1) && (x a =? 1)).
Definition optflag_or (x : aopt -> Z) (p a : aopt) : Z := zb ((x p =? 1) || (x a =? 1)).
Definition or_else (p a : option (list Z)) : option (list Z) := match p with Some _ => p | None => a end.
Definition list_else (p a : list (list Z)) : list (list Z) := match p with _ :: _ => p | [] => a end.
(** 611-616 *)
Definition merge_expiry (p a : aopt) : Z :=
  let r := if a_expiry p =? 0 then 0 else a_expiry p in
  if negb (a_expiry a =? 0) && (a_expiry a <? r) then a_expiry a else r.
(** 618-641; [None]: "forced command options do not match" *)
Definition merge_cmd (p a : aopt) : option (option (list Z)) :=
  match a_cmd p, a_cmd a with
  | Some x, Some y => if beqb x y then Some (Some x) else None
  | Some x, None => Some (Some x)
  | None, y => Some y
  end.
Definition sshauthopt_merge (p a : aopt) : option aopt :=
  match merge_cmd p a with
  | None => None
  | Some cmd =>
    Some (mkA (optflag_and a_port p a) (optflag_and a_agent p a) (optflag_and a_x11 p a) (optflag_and a_pty p a)
              (optflag_and a_rc p a) 0 (merge_expiry p a) 0 None
              (if a_tun p =? -1 then a_tun a else a_tun p) cmd
              (list_else (a_env p) (a_env a)) (list_else (a_open p) (a_open a)) (list_else (a_listen p) (a_listen a))
              (or_else (a_from_cert p) (a_from_cert a)) (or_else (a_from_keys p) (a_from_keys a))
              (optflag_and a_notouch p a) (optflag_or a_verify p a))
  end.
(** auth-options.c:660-705 (sshauthopt_copy) *)
Definition sshauthopt_copy (o : aopt) : aopt :=
  mkA (a_port o) (a_agent o) (a_x11 o) (a_pty o) (a_rc o) (a_restricted o) (a_expiry o) (a_ca o) (a_princ o)
      (a_tun o) (a_cmd o) (a_env o) (a_open o) (a_listen o) (a_from_cert o) (a_from_keys o) (a_notouch o) (a_verify o).
(** auth.c:750-762 (auth_activate_options): the new value of auth_opts; [None]:
    the request fails.  The session starts with the defaults for keys
    (sshd-session.c:1287, sshd-auth.c:771). *)
Definition auth_activate_options (old opts : aopt) : option aopt := sshauthopt_merge old opts.
(** auth.c:765-780 (auth_restrict_session); [None]: fatal *)
Definition auth_restrict_session (old : aopt) : option aopt :=
  auth_activate_options old (w_restricted 1 (w_pty 1 sshauthopt_new)).

(** ** Serialising: auth-options.c:705-912.
    The buffer holds at most SSHBUF_SIZE_MAX bytes; [None]: an error is returned. *)
Definition put (x : list Z) (m : option (list Z)) : option (list Z) :=
  match m with
  | Some b => if SSHBUF_SIZE_MAX <? zlen b + zlen x then None else Some (b ++ x)
  | None => None
  end.
(** sshbuf_put_string refuses more than SSHBUF_SIZE_MAX - 4 bytes first *)
Definition put_str (x : list Z) (m : option (list Z)) : option (list Z) :=
  if SSHBUF_SIZE_MAX - 4 <? zlen x then None else put (enc_string x) m.
Definition put_u8 (v : Z) := put (be_enc 1 (u8 v)).
Definition put_u32 (v : Z) := put (be_enc 4 (u32 v)).
Definition put_u64 (v : Z) := put (be_enc 8 (u64 v)).
(** 705-730 *)
Fixpoint put_all (l : list (list Z)) (m : option (list Z)) : option (list Z) :=
  match l with [] => m | x :: r => put_all r (put_str x m) end.
Definition serialise_array (l : list (list Z)) (m : option (list Z)) : option (list Z) :=
  if INT_MAX <? zlen l then None
  else match put_all l (Some []) with
       | None => None
       | Some b => put_str b (put_u32 (zlen l) m)
       end.
(** 773-782 *)
Definition serialise_nullable (s : option (list Z)) (m : option (list Z)) : option (list Z) :=
  put_str (match s with Some x => x | None => [] end) (put_u8 (match s with None => 1 | Some _ => 0 end) m).
(** 797-847 *)
Definition sshauthopt_serialise (o : aopt) (untrusted : bool) (m0 : list Z) : option (list Z) :=
  let m := Some m0 in
  let m := put_u8 (a_port o) m in let m := put_u8 (a_agent o) m in let m := put_u8 (a_x11 o) m in
  let m := put_u8 (a_pty o) m in let m := put_u8 (a_rc o) m in let m := put_u8 (a_restricted o) m in
  let m := put_u8 (a_ca o) m in let m := put_u8 (a_notouch o) m in let m := put_u8 (a_verify o) m in
  let m := put_u64 (a_expiry o) m in
  let m := put_u8 (zb (a_tun o =? -1)) m in
  let m := put_u32 (if a_tun o <? 0 then 0 else a_tun o) m in
  let m := serialise_nullable (if untrusted then Some (bs "yes") else a_princ o) m in
  let m := serialise_nullable (if untrusted then Some (bs "true") else a_cmd o) m in
  let m := serialise_nullable (if untrusted then None else a_from_cert o) m in
  let m := serialise_nullable (if untrusted then None else a_from_keys o) m in
  let m := serialise_array (if untrusted then [] else a_env o) m in
  let m := serialise_array (if untrusted then [] else a_open o) m in
  serialise_array (if untrusted then [] else a_listen o) m.

(** 732-771; trailing bytes of the inner buffer are ignored.  Each string takes at
    least 4 bytes of it, so a count above its length is reported as an error
    whatever the allocation of the array does. *)
Fixpoint get_cstrs (n : nat) (l : list Z) : option (list (list Z)) :=
  match n with
  | O => Some []
  | S n => match get_cstr l with
           | None => None
           | Some (v, r) => match get_cstrs n r with None => None | Some vs => Some (v :: vs) end
           end
  end.
Definition deserialise_array (l : list Z) : option (list (list Z) * list Z) :=
  match get_int 4 l with
  | None => None
  | Some (n, r) =>
    match get_str r with
    | None => None
    | Some (b, r) =>
      if INT_MAX <? n then None
      else if zlen b <? n then None
      else match get_cstrs (Z.to_nat n) b with None => None | Some a => Some (a, r) end
    end
  end.
(** 784-795 *)
Definition deserialise_nullable (l : list Z) : option (option (list Z) * list Z) :=
  match get_int 1 l with
  | None => None
  | Some (f, r) => match get_cstr r with
                   | None => None
                   | Some (v, r) => Some (if f =? 0 then Some v else None, r)
                   end
  end.
Definition bind {A B} (x : option (A * list Z)) (f : A -> list Z -> option B) : option B :=
  match x with Some (a, r) => f a r | None => None end.
(** (int)tmp of a u_int *)
Definition to_int (v : Z) : Z := if 2147483648 <=? v then v - 4294967296 else v.
(** 849-912; what is left of the message is returned *)
Definition sshauthopt_deserialise (l : list Z) : option (aopt * list Z) :=
  bind (get_int 1 l) (fun port l => bind (get_int 1 l) (fun agent l => bind (get_int 1 l) (fun x11 l =>
  bind (get_int 1 l) (fun pty l => bind (get_int 1 l) (fun rc l => bind (get_int 1 l) (fun restricted l =>
  bind (get_int 1 l) (fun ca l => bind (get_int 1 l) (fun notouch l => bind (get_int 1 l) (fun verify l =>
  bind (get_int 8 l) (fun expiry l => bind (get_int 1 l) (fun f l => bind (get_int 4 l) (fun tun l =>
  bind (deserialise_nullable l) (fun princ l => bind (deserialise_nullable l) (fun cmd l =>
  bind (deserialise_nullable l) (fun fc l => bind (deserialise_nullable l) (fun fk l =>
  bind (deserialise_array l) (fun env l => bind (deserialise_array l) (fun open l => bind (deserialise_array l) (fun listen l =>
  Some (mkA port agent x11 pty rc restricted expiry ca princ (if f =? 0 then to_int tun else -1) cmd env open listen fc fk
            notouch verify, l)))))))))))))))))))).

(** ** Options of a certificate: auth-options.c:74-192 *)
Section Cert.
Variable pton : list Z -> option xaddr.
Inductive found := FNo | FYes (o : aopt) (rest : list Z) | FBad.
(** 100-123 *)
Definition ext_option (o : aopt) (name data : list Z) : found :=
  if beqb name (bs "no-touch-required") then FYes (w_notouch 1 o) data
  else if beqb name (bs "permit-X11-forwarding") then FYes (w_x11 1 o) data
  else if beqb name (bs "permit-agent-forwarding") then FYes (w_agent 1 o) data
  else if beqb name (bs "permit-port-forwarding") then FYes (w_port 1 o) data
  else if beqb name (bs "permit-pty") then FYes (w_pty 1 o) data
  else if beqb name (bs "permit-user-rc") then FYes (w_rc 1 o) data
  else FNo.
(** 124-166 *)
Definition crit_option (o : aopt) (name data : list Z) : found :=
  if beqb name (bs "verify-required") then FYes (w_verify 1 o) data
  else if beqb name (bs "force-command") then
    match get_cstr data with
    | None => FBad
    | Some (c, r) => match a_cmd o with Some _ => FBad | None => FYes (w_cmd (Some c) o) r end
    end
  else if beqb name (bs "source-address") then
    match get_cstr data with
    | None => FBad
    | Some (c, r) => match a_from_cert o with
                     | Some _ => FBad
                     | None => if addr_match_cidr_list pton None c =? -1 then FBad
                               else FYes (w_from_cert (Some c) o) r
                     end
    end
  else FNo.
(** 85-192.  [which]: true for OPTIONS_CRITICAL with crit 1, false for
    OPTIONS_EXTENSIONS with crit 0, the two ways it is called (514-523).  The fuel
    is the length of the blob; [cert_option_list] never exhausts it
    (CertProof.cert_list_fuel). *)
Fixpoint cert_list (fuel : nat) (which : bool) (o : aopt) (c : list Z) : option (option aopt) :=
  match fuel with
  | O => None
  | S fuel =>
    if is_nil c then Some (Some o)
    else match get_cstr c with
         | None => Some None
         | Some (name, c) =>
           match get_str c with
           | None => Some None
           | Some (data, c) =>
             match (if which then crit_option o name data else ext_option o name data) with
             | FBad => Some None
             | FNo => if which then Some None else cert_list fuel which o c
             | FYes o rest => if is_nil rest then cert_list fuel which o c else Some None
             end
           end
         end
  end.
Definition cert_option_list (which : bool) (o : aopt) (c : list Z) : option aopt :=
  match cert_list (S (length c)) which o c with Some r => r | None => None end.
(** ssh2.h:179-180 *)
Definition SSH2_CERT_TYPE_USER : Z := 1.
Definition SSH2_CERT_TYPE_HOST : Z := 2.
(** sshkey.h:114-126 (struct sshkey_cert); [c_ca] identifies the signing key *)
Record cert := mkCert {
  c_type : Z; c_principals : list (list Z); c_after : Z; c_before : Z;
  c_critical : list Z; c_extensions : list Z; c_ca : list Z; c_sigtype : list Z;
}.
(** A public key: what identifies it, and its certificate part if it is one. *)
Record skey := mkK { k_pub : list Z; k_cert : option cert }.
(** 502-528 *)
Definition sshauthopt_from_cert (k : skey) : option aopt :=
  match k_cert k with
  | None => None
  | Some c =>
    if negb (c_type c =? SSH2_CERT_TYPE_USER) then None
    else match cert_option_list true sshauthopt_new (c_critical c) with
         | None => None
         | Some o => cert_option_list false o (c_extensions c)
         end
  end.
End Cert.

(** ** Option strings of authorized_keys: misc.c:2606-2665, auth-options.c:252-500 *)
(** strncasecmp(s, w, strlen(w)) == 0: the rest of s *)
Fixpoint skip_word (w s : list Z) : option (list Z) :=
  match w, s with
  | [], _ => Some s
  | _, [] => None
  | a :: w, c :: s => if tolower a =? tolower c then skip_word w s else None
  end.
(** misc.c:2606-2621 (opt_flag); [None]: -1 *)
Definition opt_flag (w : list Z) (allow_negate : bool) (s : list Z) : option (bool * list Z) :=
  let '(neg, s) := if allow_negate then match skip_word (bs "no-") s with Some r => (true, r) | None => (false, s) end
                   else (false, s) in
  match skip_word w s with Some r => Some (negb neg, r) | None => None end.
(** misc.c:2624-2654 (opt_dequote) *)
Fixpoint dequote_body (s : list Z) : option (list Z * list Z) :=
  match s with
  | [] => None
  | c :: r =>
    if c =? 34 then Some ([], r)
    else match r with
         | d :: r' => if (c =? 92) && (d =? 34) then
                        match dequote_body r' with Some (v, t) => Some (34 :: v, t) | None => None end
                      else match dequote_body r with Some (v, t) => Some (c :: v, t) | None => None end
         | [] => None
         end
  end.
Definition opt_dequote (s : list Z) : option (list Z * list Z) :=
  match s with c :: r => if c =? 34 then dequote_body r else None | [] => None end.
(** misc.c:2657-2665 (opt_match) *)
Definition opt_match (w s : list Z) : option (list Z) :=
  match skip_word w s with
  | Some (c :: r) => if c =? 61 then Some r else None
  | _ => None
  end.
(** misc.c:2449-2460 (valid_env_name) *)
Definition isalnum (c : Z) : bool := isdigit c || isupper c || ((97 <=? c) && (c <=? 122)).
Definition valid_env_name (s : list Z) : bool := negb (is_nil s) && forallb (fun c => isalnum c || (c =? 95)) s.

Section Parse.
(** getservbyname, and parse_absolute_time (misc.c:2474-2530; strptime and mktime
    are not modelled): the time, or [None] on error *)
Variable serv : list Z -> option Z.
Variable ptime : list Z -> option Z.
Definition SSH_AUTHOPT_PERMIT_MAX : Z := 4096.
Definition SSH_AUTHOPT_ENV_MAX : Z := 1024.
Definition NI_MAXHOST : Z := 1025.
(** auth-options.c:254-321 (handle_permit) *)
Definition handle_permit (bare : bool) (permits : list (list Z)) (s : list Z) : option (list (list Z) * list Z) :=
  if SSH_AUTHOPT_PERMIT_MAX <? zlen permits then None
  else match opt_dequote s with
       | None => None
       | Some (opt, s) =>
         let opt := if bare && negb (existsb (Z.eqb 58) opt) then bs "*:" ++ opt else opt in
         match hpdelim2 opt with
         | None => None
         | Some (host, cp, _) =>
           if NI_MAXHOST <=? zlen host then None
           else match cp with
                | None => None
                | Some cp => if negb (beqb cp (bs "*")) && (a2port serv cp <=? 0) then None
                             else Some (permits ++ [opt], s)
                end
         end
       end.
(** 404-452 (environment).  strncmp(env[i], name, l) == 0 && env[i][l] == '=' *)
Definition env_has (name : list Z) (e : list Z) : bool := beqb (ztake (zlen name + 1) e) (name ++ [61]).
Definition handle_env (env : list (list Z)) (s : list Z) : option (list (list Z) * list Z) :=
  if SSH_AUTHOPT_ENV_MAX <? zlen env then None
  else match opt_dequote s with
       | None => None
       | Some (opt, s) =>
         match strchr_cut 61 opt with
         | None => None
         | Some (name, _) =>
           if negb (valid_env_name name) then None
           else Some (if existsb (env_has name) env then env else env ++ [opt], s)
         end
       end.
(** One option at the front of s: the options and the rest; [None]: failure.  A text
    that is no option is left for the caller (344-470). *)
Definition once (old : option (list Z)) (set : option (list Z) -> aopt -> aopt) (o : aopt) (s : list Z) : option (aopt * list Z) :=
  match old with
  | Some _ => None
  | None => match opt_dequote s with Some (v, s) => Some (set (Some v) o, s) | None => None end
  end.
Definition one_option (o : aopt) (s : list Z) : option (aopt * list Z) :=
  match opt_flag (bs "restrict") false s with
  | Some (_, s) => Some (w_restricted 1 (w_port 0 (w_agent 0 (w_x11 0 (w_pty 0 (w_rc 0 o))))), s) | None =>
  match opt_flag (bs "cert-authority") false s with
  | Some (r, s) => Some (w_ca (zb r) o, s) | None =>
  match opt_flag (bs "port-forwarding") true s with
  | Some (r, s) => Some (w_port (zb r) o, s) | None =>
  match opt_flag (bs "agent-forwarding") true s with
  | Some (r, s) => Some (w_agent (zb r) o, s) | None =>
  match opt_flag (bs "x11-forwarding") true s with
  | Some (r, s) => Some (w_x11 (zb r) o, s) | None =>
  match opt_flag (bs "touch-required") true s with
  | Some (r, s) => Some (w_notouch (zb (negb r)) o, s) | None =>
  match opt_flag (bs "verify-required") true s with
  | Some (r, s) => Some (w_verify (zb r) o, s) | None =>
  match opt_flag (bs "pty") true s with
  | Some (r, s) => Some (w_pty (zb r) o, s) | None =>
  match opt_flag (bs "user-rc") true s with
  | Some (r, s) => Some (w_rc (zb r) o, s) | None =>
  match opt_match (bs "command") s with
  | Some s => once (a_cmd o) w_cmd o s | None =>
  match opt_match (bs "principals") s with
  | Some s => once (a_princ o) w_princ o s | None =>
  match opt_match (bs "from") s with
  | Some s => once (a_from_keys o) w_from_keys o s | None =>
  match opt_match (bs "expiry-time") s with
  | Some s => match opt_dequote s with
              | None => None
              | Some (v, s) => match ptime v with
                               | None => None
                               | Some t => if t =? 0 then None
                                           else Some (if (a_expiry o =? 0) || (t <? a_expiry o) then w_expiry t o else o, s)
                               end
              end | None =>
  match opt_match (bs "environment") s with
  | Some s => match handle_env (a_env o) s with Some (e, s) => Some (w_env e o, s) | None => None end | None =>
  match opt_match (bs "permitopen") s with
  | Some s => match handle_permit false (a_open o) s with Some (e, s) => Some (w_open e o, s) | None => None end | None =>
  match opt_match (bs "permitlisten") s with
  | Some s => match handle_permit true (a_listen o) s with Some (e, s) => Some (w_listen e o, s) | None => None end | None =>
  match opt_match (bs "tunnel") s with
  | Some s => match opt_dequote s with
              | None => None
              | Some (v, s) => let t := a2tun1 v in if t =? SSH_TUNID_ERR then None else Some (w_tun t o, s)
              end
  | None => Some (o, s)
  end end end end end end end end end end end end end end end end end.
Definition at_end (s : list Z) : bool := match s with [] => true | c :: _ => (c =? 32) || (c =? 9) end.
(** The loop, 342-484; each turn consumes at least the comma.  [None]: out of fuel
    (excluded by AuthOptProof3.parse_fuel), [Some None]: the line is rejected. *)
Fixpoint parse_loop (fuel : nat) (o : aopt) (s : list Z) : option (option aopt) :=
  match fuel with
  | O => None
  | S fuel =>
    if at_end s then Some (Some o)
    else match one_option o s with
         | None => Some None
         | Some (o, s) =>
           if at_end s then Some (Some o)
           else match s with
                | c :: s => if negb (c =? 44) then Some None
                            else if is_nil s then Some None
                            else parse_loop fuel o s
                | [] => Some None
                end
         end
  end.
(** auth-options.c:323-500 (sshauthopt_parse) *)
Definition sshauthopt_parse (s : option (list Z)) : option aopt :=
  match s with
  | None => Some sshauthopt_new_with_keys_defaults
  | Some s => match parse_loop (S (length s)) sshauthopt_new_with_keys_defaults s with Some r => r | None => None end
  end.
End Parse.

(** authfile.c:474-489 (sshkey_advance_past_options): what follows the options;
    [None]: unterminated quote *)
Fixpoint advance (quoted : bool) (s : list Z) : option (list Z) :=
  match s with
  | [] => if quoted then None else Some []
  | c :: r =>
    if negb quoted && ((c =? 32) || (c =? 9)) then Some s
    else match r with
         | d :: r' => if (c =? 92) && (d =? 34) then advance quoted r'
                      else advance (if c =? 34 then negb quoted else quoted) r
         | [] => if xorb quoted (c =? 34) then None else Some []
         end
  end.
Definition sshkey_advance_past_options (s : list Z) : option (list Z) := advance false s.
