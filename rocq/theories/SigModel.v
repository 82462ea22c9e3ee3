(** Signatures of files: sshsig.c, and ssh-keygen.c:2700-3000 (ssh-keygen -Y sign,
    verify, find-principals, match-principals, check-novalidate).

    Keys, digests and times of day are parameters: parsing a public key from its
    blob (sshkey_froms; the code verifies the certificate's own signature there) or
    from text (sshkey_read), sshkey_verify, the digests, parse_absolute_time, the
    check against the revoked keys.  Files are the lists of their lines as getline
    returns them; the outcome of read(2) is a parameter.  Error codes and messages
    are left out, as is allocation failure. *)
From Coq Require Import String.
From Verif Require Import Base Text SshbufModel SshbufSpec WireSpec MatchModel MiscNumModel AddrModel AuthOptModel Dec CertModel Base64Model.
Local Open Scope Z_scope.

(** sshsig.c:38-46 *)
Definition SIG_VERSION : Z := 1.
Definition MAGIC_PREAMBLE : list Z := bs "SSHSIG".
Definition BEGIN_SIGNATURE : list Z := bs "-----BEGIN SSH SIGNATURE-----".
Definition END_SIGNATURE : list Z := bs "-----END SSH SIGNATURE-----".
Definition RSA_SIGN_ALG : list Z := bs "rsa-sha2-512".
Definition RSA_SIGN_ALLOWED : list Z := bs "rsa-sha2-512,rsa-sha2-256".
Definition HASHALG_DEFAULT : list Z := bs "sha512".
Definition HASHALG_ALLOWED : list Z := bs "sha256,sha512".

(** sshbuf_cmp at offset 0 followed by sshbuf_consume: the rest. *)
Fixpoint strip (a l : list Z) : option (list Z) :=
  match a, l with
  | [], _ => Some l
  | x :: a, y :: l => if x =? y then strip a l else None
  | _ :: _, [] => None
  end.
(** sshbuf_find (memmem): what stands before the first occurrence. *)
Fixpoint find_sub (a l : list Z) : option (list Z) :=
  match strip a l with
  | Some _ => Some []
  | None => match l with
            | [] => None
            | c :: r => match find_sub a r with Some x => Some (c :: x) | None => None end
            end
  end.
(** sshbuf-misc.c sshbuf_dup_string: a NUL is accepted as the last byte only. *)
Definition dup_string (l : list Z) : option (list Z) :=
  match strchr_cut 0 l with
  | Some (a, b) => if is_nil b then Some a else None
  | None => Some l
  end.

(** sshsig.c:48-87 sshsig_armor *)
Definition sshsig_armor (blob : list Z) : option (list Z) :=
  match put (BEGIN_SIGNATURE ++ [10]) (Some []) with
  | None => None
  | Some b0 => match sshbuf_dtob64 blob b0 true with
               | BOk b => put [10] (put END_SIGNATURE (Some b))
               | _ => None
               end
  end.
(** sshsig.c:89-158 sshsig_dearmor; [junk] as in [sshbuf_b64tod]. *)
Definition sshsig_dearmor (junk : Z -> Z) (sig : list Z) : option (list Z) :=
  match strip BEGIN_SIGNATURE sig with
  | None => None
  | Some s =>
    match (match strip [13; 10] s with Some r => Some r | None => strip [10] s end) with
    | None => None
    | Some s =>
      match find_sub (10 :: END_SIGNATURE) s with
      | None => None
      | Some t => match dup_string t with
                  | None => None
                  | Some b64 => match sshbuf_b64tod [] b64 junk with BOk b => Some b | _ => None end
                  end
      end
    end
  end.

(** A public key; [pk_blob] is its certblob when it is a certificate. *)
Record pkey := mkPk { pk_key : skey; pk_blob : list Z }.
Definition is_cert (k : pkey) : bool := match k_cert (pk_key k) with Some _ => true | None => false end.
(** sshkey.c sshkey_equal, cert_compare *)
Definition key_equal (a b : pkey) : bool :=
  if is_cert a then is_cert b && beqb (pk_blob a) (pk_blob b) && beqb (k_pub (pk_key a)) (k_pub (pk_key b))
  else negb (is_cert b) && beqb (k_pub (pk_key a)) (k_pub (pk_key b)).

(** The results of read(2) on the message. *)
Inductive got := GData (d : list Z) | GAgain | GError.
(** sshsig.c:535-552: what is hashed; the end of the list is the end of the file. *)
Fixpoint slurp (l : list got) : option (list Z) :=
  match l with
  | [] => Some []
  | GData d :: r => match slurp r with Some m => Some (d ++ m) | None => None end
  | GAgain :: r => slurp r
  | GError :: _ => None
  end.
(** sshsig.c:248-256 sshsig_check_hashalg *)
Definition check_hashalg (alg : list Z) : bool :=
  match match_pattern_list alg HASHALG_ALLOWED false with Some v => v =? 1 | None => false end.
(** What is signed: sshsig.c:181-188, 321-329 *)
Definition tosign (ns alg h : list Z) : option (list Z) :=
  put_str h (put_str alg (put_str [] (put_str ns (put MAGIC_PREAMBLE (Some []))))).

(** sshsig.c:225-246 sshsig_parse_preamble: the rest *)
Definition parse_preamble (l : list Z) : option (list Z) :=
  match strip MAGIC_PREAMBLE l with
  | None => None
  | Some r => match get_int 4 r with
              | None => None
              | Some (v, r) => if SIG_VERSION <? v then None else Some r
              end
  end.
(** sshsig.c:258-291 sshsig_peek_hashalg *)
Definition peek_hashalg (l : list Z) : option (list Z) :=
  match parse_preamble l with
  | None => None
  | Some l =>
    bind (get_str l) (fun _ l => bind (get_str l) (fun _ l => bind (get_str l) (fun _ l =>
    bind (get_cstr l) (fun alg l => bind (get_str l) (fun _ _ => Some alg)))))
  end.

Section Sig.
Variable from_blob : list Z -> option pkey.
(** sshkey_type_plain is KEY_RSA *)
Variable rsa : pkey -> bool.
Variable ver : pkey -> list Z -> list Z -> bool.
Variable dig : list Z -> list Z -> list Z.

(** sshsig.c:511-575 hash_file *)
Definition hash_file (reads : list got) (alg : list Z) : option (list Z) :=
  if negb (check_hashalg alg) then None
  else match slurp reads with Some m => Some (dig alg m) | None => None end.

(** sshsig.c:293-398 sshsig_wrap_verify *)
Definition sig_alg_ok (sg : list Z) : bool :=
  match get_cstr sg with
  | None => false
  | Some (t, _) => match match_pattern_list t RSA_SIGN_ALLOWED false with Some v => v =? 1 | None => false end
  end.
Definition wrap_verify (sig alg h ns : list Z) : option pkey :=
  match tosign ns alg h with
  | None => None
  | Some data =>
    match parse_preamble sig with
    | None => None
    | Some l =>
      bind (get_str l) (fun kb l =>
      match from_blob kb with
      | None => None
      | Some k =>
        bind (get_cstr l) (fun got_ns l => bind (get_str l) (fun _ l => bind (get_cstr l) (fun sig_alg l => bind (get_str l) (fun sg l =>
        if negb (is_nil l) then None
        else if negb (beqb ns got_ns) then None
        else if negb (beqb alg sig_alg) then None
        else if rsa k && negb (sig_alg_ok sg) then None
        else if ver k sg data then Some k else None))))
      end)
    end
  end.
(** sshsig.c:605-635 sshsig_verify_fd *)
Definition verify_fd (sig : list Z) (reads : list got) (ns : list Z) : option pkey :=
  match peek_hashalg sig with
  | None => None
  | Some alg => match hash_file reads alg with
                | None => None
                | Some h => wrap_verify sig alg h ns
                end
  end.
(** sshsig.c:160-222 sshsig_wrap_sign, 577-603 sshsig_sign_fd; [kblob] is the
    public key, [is_rsa] its type, [sgn] sshkey_sign or the agent. *)
Definition sign_alg_of (is_rsa : bool) (alg : list Z) : option (list Z) :=
  if is_rsa then
    Some (if beqb alg (bs "sha256") then bs "rsa-sha2-256" else if beqb alg (bs "sha512") then bs "rsa-sha2-512" else RSA_SIGN_ALG)
  else None.
Definition sign_fd (kblob : list Z) (is_rsa : bool) (sgn : option (list Z) -> list Z -> option (list Z))
    (hashalg : option (list Z)) (reads : list got) (ns : list Z) : option (list Z) :=
  let alg := match hashalg with Some a => a | None => HASHALG_DEFAULT end in
  match hash_file reads alg with
  | None => None
  | Some h =>
    match tosign ns alg h with
    | None => None
    | Some data =>
      match sgn (sign_alg_of is_rsa alg) data with
      | None => None
      | Some sg => put_str sg (put_str alg (put_str [] (put_str ns (put_str kblob (put_u32 SIG_VERSION (put MAGIC_PREAMBLE (Some [])))))))
      end
    end
  end.

(** ** The allowed signers: sshsig.c:637-1000 *)
(** sshsig.c:637-641 *)
Record sopt := mkSo { so_ca : bool; so_ns : option (list Z); so_after : Z; so_before : Z }.
Definition so_new : sopt := mkSo false None 0 0.
Section Signers.
Variable ptime : list Z -> option Z.
Variable rd : list Z -> option pkey.

(** A time of a clause: sshsig.c:676-684 *)
Definition opt_time (s : list Z) : option (Z * list Z) :=
  match opt_dequote s with
  | None => None
  | Some (v, r) => match ptime v with
                   | None => None
                   | Some t => if t =? 0 then None else Some (t, r)
                   end
  end.
(** sshsig.c:659-700: one option, or nothing *)
Definition sig_option (o : sopt) (s : list Z) : option (sopt * list Z) :=
  match opt_flag (bs "cert-authority") false s with
  | Some (_, r) => Some (mkSo true (so_ns o) (so_after o) (so_before o), r)
  | None =>
    match opt_match (bs "namespaces") s with
    | Some r => match so_ns o with
                | Some _ => None
                | None => match opt_dequote r with
                          | None => None
                          | Some (v, r) => Some (mkSo (so_ca o) (Some v) (so_after o) (so_before o), r)
                          end
                end
    | None =>
      match opt_match (bs "valid-after") s with
      | Some r => if negb (so_after o =? 0) then None
                  else match opt_time r with
                       | None => None
                       | Some (t, r) => Some (mkSo (so_ca o) (so_ns o) t (so_before o), r)
                       end
      | None =>
        match opt_match (bs "valid-before") s with
        | Some r => if negb (so_before o =? 0) then None
                    else match opt_time r with
                         | None => None
                         | Some (t, r) => Some (mkSo (so_ca o) (so_ns o) (so_after o) t, r)
                         end
        | None => Some (o, s)
        end
      end
    end
  end.
(** sshsig.c:657-718; [None]: out of fuel, [Some None]: refused. *)
Fixpoint sig_loop (fuel : nat) (o : sopt) (s : list Z) : option (option sopt) :=
  match fuel with
  | O => None
  | S fuel =>
    if at_end s then Some (Some o)
    else match sig_option o s with
         | None => Some None
         | Some (o, s) =>
           if at_end s then Some (Some o)
           else match s with
                | c :: s => if negb (c =? 44) then Some None
                            else if is_nil s then Some None
                            else sig_loop fuel o s
                | [] => Some None
                end
         end
  end.
(** sshsig.c:643-735 sshsigopt_parse *)
Definition sshsigopt_parse (opts : option (list Z)) : option sopt :=
  match opts with
  | None => Some so_new
  | Some s =>
    if is_nil s then Some so_new
    else match sig_loop (S (length s)) so_new s with
         | Some (Some o) =>
             if negb (so_after o =? 0) && negb (so_before o =? 0) && (so_before o <=? so_after o) then None else Some o
         | _ => None
         end
  end.

(** misc.c:440-502 strdelimw: white space is blank, tab, CR, LF.  [None]: NULL;
    else the word and the new position ([None]: NULL). *)
Definition is_ws (c : Z) : bool := (c =? 32) || (c =? 9) || (c =? 13) || (c =? 10).
Fixpoint drop_ws (l : list Z) : list Z := match l with c :: r => if is_ws c then drop_ws r else l | [] => [] end.
Fixpoint span (p : Z -> bool) (l : list Z) : list Z * list Z :=
  match l with
  | [] => ([], [])
  | c :: r => if p c then let '(a, b) := span p r in (c :: a, b) else ([], l)
  end.
Definition strdelimw (s : list Z) : option (list Z * option (list Z)) :=
  match span (fun c => negb (is_ws c || (c =? 34))) s with
  | (t, []) => Some (t, None)
  | (t, c :: r) =>
      if c =? 34 then
        match span (fun c => negb (c =? 34)) r with
        | (_, []) => None
        | (q, _ :: r) => Some (t ++ q, Some (drop_ws r))
        end
      else Some (t, Some (drop_ws r))
  end.

(** sshsig.c:746-850 parse_principals_key_and_options *)
Record entry := mkE { e_who : list Z; e_key : pkey; e_opt : sopt }.
Inductive lres := LNotFound | LInvalid | LEntry (e : entry).
Definition parse_line (line : list Z) (required : option (list Z)) : lres :=
  let cp := drop_ws (cstr line) in
  if is_nil cp || (hd 0 cp =? 35) then LNotFound
  else match strdelimw cp with
       | Some (who, Some cp) =>
           if match required with
              | Some p => negb (match match_pattern_list p who false with Some v => v =? 1 | None => false end)
              | None => false
              end then LNotFound
           else
           let key_and_options :=
             match rd cp with
             | Some k => Some (k, None)
             | None =>
               match sshkey_advance_past_options cp with
               | None => None
               | Some [] => None
               | Some (c :: r) =>
                 match rd (skip_blanks r) with
                 | Some k => Some (k, Some (ztake (zlen cp - zlen (c :: r)) cp))
                 | None => None
                 end
               end
             end in
           match key_and_options with
           | None => LInvalid
           | Some (k, opts) =>
             match sshsigopt_parse opts with
             | None => LInvalid
             | Some o => LEntry (mkE who k o)
             end
           end
       | _ => LInvalid
       end.

(** sshsig.c:852-905 cert_filter_principals *)
Definition add_name (acc p : list Z) : list Z := acc ++ (if is_nil acc then [] else [44]) ++ p.
Definition filter_principals (who : list Z) (k : skey) (t : Z) : option (list Z) :=
  match k_cert k with
  | None => None
  | Some c =>
    let out := fold_left (fun acc pat =>
                 if check_authority k false true false t None then
                   fold_left (fun acc p => if match_pattern p pat then add_name acc p else acc) (c_principals c) acc
                 else acc) (until_empty (split 44 who)) [] in
    if is_nil out then None else Some out
  end.

(** sshsig.c:907-1000 check_allowed_keys_line: the principals, or not found *)
Definition check_line (line : list Z) (k : pkey) (principal ns : option (list Z)) (t : Z) : option (list Z) :=
  match parse_line line principal with
  | LEntry e =>
    let o := e_opt e in
    let who :=
      if negb (so_ca o) && key_equal (e_key e) k then Some (e_who e)
      else if so_ca o && is_cert k && match k_cert (pk_key k) with
                                      | Some c => beqb (c_ca c) (k_pub (pk_key (e_key e)))
                                      | None => false
                                      end then
        match principal with
        | Some p => if check_authority (pk_key k) false true false t (Some p) then Some (e_who e) else None
        | None => filter_principals (e_who e) (pk_key k) t
        end
      else None in
    match who with
    | None => None
    | Some w =>
      if match so_ns o, ns with
         | Some l, Some n => negb (match match_pattern_list n l false with Some v => v =? 1 | None => false end)
         | _, _ => false
         end then None
      else if negb (so_after o =? 0) && (t <? so_after o) then None
      else if negb (so_before o =? 0) && (so_before o <? t) then None
      else Some w
    end
  | _ => None
  end.
(** sshsig.c:1002-1043 sshsig_check_allowed_keys; 1045-1092 sshsig_find_principals *)
Fixpoint check_lines (lines : list (list Z)) (k : pkey) (principal ns : option (list Z)) (t : Z) : option (list Z) :=
  match lines with
  | [] => None
  | l :: r => match check_line l k principal ns t with Some w => Some w | None => check_lines r k principal ns t end
  end.
Definition check_allowed_keys (lines : list (list Z)) (k : pkey) (principal ns : list Z) (t : Z) : bool :=
  match check_lines lines k (Some principal) (Some ns) t with Some _ => true | None => false end.
Definition find_principals (lines : list (list Z)) (k : pkey) (t : Z) : option (list Z) := check_lines lines k None None t.
(** sshsig.c:1094-1153 sshsig_match_principals; [None]: an error *)
Fixpoint match_principals (lines : list (list Z)) (principal : list Z) : option (list (list Z)) :=
  match lines with
  | [] => Some []
  | l :: r => match parse_line l (Some principal) with
              | LNotFound => match_principals r principal
              | LInvalid => None
              | LEntry e => match match_principals r principal with Some x => Some (e_who e :: x) | None => None end
              end
  end.

(** ** The commands *)
(** ssh-keygen.c:2827-2917 sig_verify: -Y verify; true: Good signature.  [revoked]:
    the answer of sshkey_check_revoked, when a file of revoked keys was given. *)
Definition cmd_verify (junk : Z -> Z) (sigfile : list Z) (reads : list got) (ns principal : list Z) (lines : list (list Z))
    (revoked : option (pkey -> bool)) (t : Z) : bool :=
  match sshsig_dearmor junk sigfile with
  | None => false
  | Some sig => match verify_fd sig reads ns with
                | None => false
                | Some k => negb (match revoked with Some f => f k | None => false end) && check_allowed_keys lines k principal ns t
                end
  end.
(** -Y check-novalidate: the same without the files. *)
Definition cmd_check (junk : Z -> Z) (sigfile : list Z) (reads : list got) (ns : list Z) : bool :=
  match sshsig_dearmor junk sigfile with
  | None => false
  | Some sig => match verify_fd sig reads ns with None => false | Some _ => true end
  end.
(** ssh-keygen.c:2919-2965 sig_find_principals: the lines printed; sshsig.c:1155-1172
    sshsig_get_pubkey. *)
Definition cmd_find (junk : Z -> Z) (sigfile : list Z) (lines : list (list Z)) (t : Z) : option (list (list Z)) :=
  match sshsig_dearmor junk sigfile with
  | None => None
  | Some sig =>
    match parse_preamble sig with
    | None => None
    | Some l => bind (get_str l) (fun kb _ =>
                match from_blob kb with
                | None => None
                | Some k => match find_principals lines k t with Some w => Some (until_empty (split 44 w)) | None => None end
                end)
    end
  end.
(** ssh-keygen.c:2746-2825, 2640-2700: -Y sign of one file *)
Definition cmd_sign (kblob : list Z) (is_rsa : bool) (sgn : option (list Z) -> list Z -> option (list Z))
    (hashalg : option (list Z)) (reads : list got) (ns : list Z) : option (list Z) :=
  match sign_fd kblob is_rsa sgn hashalg reads ns with Some b => sshsig_armor b | None => None end.
End Signers.
End Sig.
