(** Public keys and certificates as bytes and as text: sshkey.c (sshkey_from_blob,
    cert_parse, sshkey_to_blob, sshkey_certify_custom, sshkey_read,
    sshkey_format_text) and the (de)serialisation of each key type (ssh-ed25519.c,
    ssh-ed25519-sk.c, ssh-ecdsa.c, ssh-ecdsa-sk.c, ssh-rsa.c).

    Big integers are their magnitude without leading zeros; a point of a curve is its
    uncompressed encoding.  Parameters: whether libcrypto and
    sshkey_ec_validate_public accept a point ([point_ok]), sshkey_verify ([ver]), the
    signer.  Built with OpenSSL, elliptic curves and security keys, without DSA and
    XMSS.  Error codes are left out, as is allocation failure. *)
From Coq Require Import String.
From Verif Require Import Base Text SshbufModel SshbufSpec WireSpec AddrModel MiscNumModel AuthOptModel Dec CertModel Base64Model.
Local Open Scope Z_scope.

(** sshkey.h enum sshkey_types; a type here is a family and whether it is the
    certified one.  ecdsa_nid is NID_X9_62_prime256v1, NID_secp384r1 or
    NID_secp521r1. *)
Inductive family := FEd | FEdSk | FEc | FEcSk | FRsa.
Inductive curve := P256 | P384 | P521.
Definition ktype : Type := family * bool.
Definition family_eqb (a b : family) : bool :=
  match a, b with FEd, FEd => true | FEdSk, FEdSk => true | FEc, FEc => true | FEcSk, FEcSk => true | FRsa, FRsa => true | _, _ => false end.
Definition ktype_eqb (a b : ktype) : bool := family_eqb (fst a) (fst b) && Bool.eqb (snd a) (snd b).
Definition curve_eqb (a b : curve) : bool := match a, b with P256, P256 => true | P384, P384 => true | P521, P521 => true | _, _ => false end.

(** struct sshkey_impl: name, type, nid (None: 0) *)
Record impl := mkI { i_name : list Z; i_type : ktype; i_nid : option curve }.
(** sshkey.c:131-172 keyimpls, and the tables at the end of ssh-*.c *)
Definition keyimpls : list impl :=
  [ mkI (bs "ssh-ed25519") (FEd, false) None;
    mkI (bs "ssh-ed25519-cert-v01@openssh.com") (FEd, true) None;
    mkI (bs "sk-ssh-ed25519@openssh.com") (FEdSk, false) None;
    mkI (bs "sk-ssh-ed25519-cert-v01@openssh.com") (FEdSk, true) None;
    mkI (bs "ecdsa-sha2-nistp256") (FEc, false) (Some P256);
    mkI (bs "ecdsa-sha2-nistp256-cert-v01@openssh.com") (FEc, true) (Some P256);
    mkI (bs "ecdsa-sha2-nistp384") (FEc, false) (Some P384);
    mkI (bs "ecdsa-sha2-nistp384-cert-v01@openssh.com") (FEc, true) (Some P384);
    mkI (bs "ecdsa-sha2-nistp521") (FEc, false) (Some P521);
    mkI (bs "ecdsa-sha2-nistp521-cert-v01@openssh.com") (FEc, true) (Some P521);
    mkI (bs "sk-ecdsa-sha2-nistp256@openssh.com") (FEcSk, false) (Some P256);
    mkI (bs "sk-ecdsa-sha2-nistp256-cert-v01@openssh.com") (FEcSk, true) (Some P256);
    mkI (bs "webauthn-sk-ecdsa-sha2-nistp256@openssh.com") (FEcSk, false) (Some P256);
    mkI (bs "ssh-rsa") (FRsa, false) None;
    mkI (bs "ssh-rsa-cert-v01@openssh.com") (FRsa, true) None;
    mkI (bs "rsa-sha2-256") (FRsa, false) None;
    mkI (bs "rsa-sha2-256-cert-v01@openssh.com") (FRsa, true) None;
    mkI (bs "rsa-sha2-512") (FRsa, false) None;
    mkI (bs "rsa-sha2-512-cert-v01@openssh.com") (FRsa, true) None ].

(** sshkey.c:249-272 sshkey_type_from_name; None: KEY_UNSPEC *)
Definition type_from_name (name : list Z) : option ktype :=
  match find (fun i => beqb name (i_name i)) keyimpls with Some i => Some (i_type i) | None => None end.
(** sshkey.c:279-290 key_type_is_ecdsa_variant *)
Definition is_ecdsa (t : ktype) : bool := family_eqb (fst t) FEc || family_eqb (fst t) FEcSk.
(** sshkey.c:292-305 sshkey_ecdsa_nid_from_name; None: -1 *)
Definition nid_from_name (name : list Z) : option curve :=
  match find (fun i => is_ecdsa (i_type i) && beqb name (i_name i)) keyimpls with Some i => i_nid i | None => None end.
(** sshkey.c:590-602 sshkey_curve_name_to_nid; None: -1 *)
Definition curve_name_to_nid (name : list Z) : option curve :=
  if beqb name (bs "nistp256") then Some P256
  else if beqb name (bs "nistp384") then Some P384
  else if beqb name (bs "nistp521") then Some P521
  else None.
(** sshkey.c:624-640 sshkey_curve_nid_to_name *)
Definition curve_nid_to_name (c : curve) : list Z :=
  match c with P256 => bs "nistp256" | P384 => bs "nistp384" | P521 => bs "nistp521" end.
(** sshkey.c:186-223 sshkey_ssh_name_from_type_nid: the first entry of the type whose
    nid is 0 or the key's *)
Definition name_of (t : ktype) (nid : option curve) : list Z :=
  match find (fun i => ktype_eqb (i_type i) t &&
                       match i_nid i with
                       | None => true
                       | Some c => match nid with Some d => curve_eqb c d | None => false end
                       end) keyimpls with
  | Some i => i_name i
  | None => bs "ssh-unknown"
  end.

(** struct sshkey, the public part *)
Inductive kpub :=
| PEd (pk : list Z)
| PEdSk (pk app : list Z)
| PEc (c : curve) (pt : list Z)
| PEcSk (c : curve) (pt app : list Z)
| PRsa (e n : list Z).
Definition family_of (p : kpub) : family :=
  match p with PEd _ => FEd | PEdSk _ _ => FEdSk | PEc _ _ => FEc | PEcSk _ _ _ => FEcSk | PRsa _ _ => FRsa end.
Definition nid_of (p : kpub) : option curve :=
  match p with PEc c _ => Some c | PEcSk c _ _ => Some c | _ => None end.
(** struct sshkey_cert: what is signed, then signature_key, signature_type and
    certblob *)
Record tbs := mkT { t_serial : Z; t_type : Z; t_id : list Z; t_principals : list (list Z);
                    t_after : Z; t_before : Z; t_crit : list Z; t_ext : list Z }.
Record kcert := mkKC { kc_body : tbs; kc_ca : kpub; kc_sigtype : list Z; kc_blob : list Z }.
Record key := mkKey { key_pub : kpub; key_cert : option kcert }.

(** ED25519_PK_SZ; SSHBUF_MAX_ECPOINT; SSH_RSA_MINIMUM_MODULUS_SIZE;
    SSHKEY_CERT_MAX_PRINCIPALS; SSH2_CERT_TYPE_USER, SSH2_CERT_TYPE_HOST *)
Definition ED25519_PK_SZ : Z := 32.
Definition MAX_ECPOINT : Z := 133.
Definition RSA_MINIMUM_MODULUS_SIZE : Z := 1024.
Definition MAX_PRINCIPALS : Z := 256.
Definition CERT_TYPE_USER : Z := 1.
Definition CERT_TYPE_HOST : Z := 2.

(** sshbuf-getput-crypto.c:30-57 sshbuf_get_bignum2 *)
Definition get_mpint (l : list Z) : option (list Z * list Z) :=
  match dec_mpint l with ROk p => Some p | RErr _ => None end.
(** BN_num_bits *)
Definition num_bits (v : list Z) : Z := let z := be_dec v in if z =? 0 then 0 else Z.log2 z + 1.

Section Key.
Variable point_ok : curve -> list Z -> bool.
Variable ver : kpub -> list Z -> list Z -> bool.

(** sshbuf-getput-crypto.c:59-128 get_ec, sshbuf_get_eckey; sshkey.c:2693-2758
    sshkey_ec_validate_public *)
Definition get_point (c : curve) (l : list Z) : option (list Z * list Z) :=
  match get_str l with
  | None => None
  | Some (d, r) =>
      if (zlen d =? 0) || (MAX_ECPOINT <? zlen d) then None
      else if negb (hd 0 d =? 4) then None
      else if point_ok c d then Some (d, r) else None
  end.
(** ssh-ed25519.c:107-122 *)
Definition de_ed25519 (b : list Z) : option (list Z * list Z) :=
  match get_str b with
  | None => None
  | Some (pk, b) => if negb (zlen pk =? ED25519_PK_SZ) then None else Some (pk, b)
  end.
(** ssh-ecdsa.c:230-281 *)
Definition de_ecdsa (name b : list Z) : option (curve * list Z * list Z) :=
  match nid_from_name name with
  | None => None
  | Some nid =>
      match get_cstr b with
      | None => None
      | Some (cn, b) =>
          match curve_name_to_nid cn with
          | None => None
          | Some c => if curve_eqb nid c then match get_point nid b with Some (pt, b) => Some (nid, pt, b) | None => None end else None
          end
      end
  end.
(** impl->funcs->deserialize_public: ssh-ed25519.c:107, ssh-ed25519-sk.c:71-85,
    ssh-ecdsa.c:230, ssh-ecdsa-sk.c:125-137, ssh-rsa.c:194-231; sshkey.c:1992-1999
    sshkey_deserialize_sk *)
Definition deserialize_public (f : family) (name b : list Z) : option (kpub * list Z) :=
  match f with
  | FEd => match de_ed25519 b with Some (pk, b) => Some (PEd pk, b) | None => None end
  | FEdSk =>
      match de_ed25519 b with
      | Some (pk, b) => match get_cstr b with Some (app, b) => Some (PEdSk pk app, b) | None => None end
      | None => None
      end
  | FEc => match de_ecdsa name b with Some (c, pt, b) => Some (PEc c pt, b) | None => None end
  | FEcSk =>
      match de_ecdsa name b with
      | Some (c, pt, b) => match get_cstr b with Some (app, b) => Some (PEcSk c pt app, b) | None => None end
      | None => None
      end
  | FRsa =>
      match get_mpint b with
      | None => None
      | Some (e, b) =>
          match get_mpint b with
          | None => None
          | Some (n, b) => if num_bits n <? RSA_MINIMUM_MODULUS_SIZE then None else Some (PRsa e n, b)
          end
      end
  end.

(** sshkey.c:1909-1932: the principals section; every string takes at least four
    bytes, so [fuel] is never used up *)
Fixpoint parse_principals (fuel : nat) (n : Z) (b : list Z) : option (list (list Z)) :=
  match b with
  | [] => Some []
  | _ :: _ =>
      match fuel with
      | O => None
      | Datatypes.S fuel =>
          if MAX_PRINCIPALS <=? n then None
          else match get_cstr b with
               | None => None
               | Some (p, b) => match parse_principals fuel (n + 1) b with Some l => Some (p :: l) | None => None end
               end
      end
  end.
(** sshkey.c:1946-1962: critical options and extensions are pairs of strings *)
Fixpoint pairs_ok (fuel : nat) (b : list Z) : bool :=
  match b with
  | [] => true
  | _ :: _ =>
      match fuel with
      | O => false
      | Datatypes.S fuel =>
          match get_str b with
          | None => false
          | Some (_, b) => match get_str b with None => false | Some (_, b) => pairs_ok fuel b end
          end
      end
  end.
(** sshkey.c:2101-2123 sshkey_get_sigtype *)
Definition get_sigtype (sig : list Z) : option (list Z) :=
  if SSHBUF_SIZE_MAX <? zlen sig then None
  else match get_cstr sig with Some (t, _) => Some t | None => None end.

(** sshkey.c:1866-1990 cert_parse: [certblob] is the whole blob, [b] what follows the
    public key.  [ca_of] is sshkey_from_blob_internal with allow_cert 0. *)
Definition cert_parse (ca_of : list Z -> option key) (b certblob : list Z) : option (kcert * list Z) :=
  match get_int 8 b with None => None | Some (serial, b) =>
  match get_int 4 b with None => None | Some (type, b) =>
  match get_cstr b with None => None | Some (kid, b) =>
  match get_str b with None => None | Some (principals, b) =>
  match get_int 8 b with None => None | Some (after, b) =>
  match get_int 8 b with None => None | Some (before, b) =>
  match get_str b with None => None | Some (crit, b) =>
  match get_str b with None => None | Some (exts, b) =>
  match get_str b with None => None | Some (_, b) =>
  match get_str b with None => None | Some (ca, b) =>
  let signed_len := zlen certblob - zlen b in
  match get_str b with None => None | Some (sig, b) =>
  if negb (type =? CERT_TYPE_USER) && negb (type =? CERT_TYPE_HOST) then None else
  match parse_principals (length principals) 0 principals with None => None | Some ps =>
  if negb (pairs_ok (length crit) crit) then None else
  if negb (pairs_ok (length exts) exts) then None else
  match ca_of ca with None => None | Some cak =>
  match key_cert cak with Some _ => None | None =>
  if negb (ver (key_pub cak) sig (ztake signed_len certblob)) then None else
  match get_sigtype sig with None => None | Some st =>
  Some (mkKC (mkT serial type kid ps after before crit exts) (key_pub cak) st certblob, b)
  end end end end end end end end end end end end end end end.

(** sshkey.c:2001-2067 sshkey_from_blob_internal.  With allow_cert 0 it does not come
    to cert_parse, so the recursion through [ca_of] is one deep. *)
Definition from_blob_internal (ca_of : list Z -> option key) (allow_cert : bool) (b : list Z) : option key :=
  match get_cstr b with
  | None => None
  | Some (name, r) =>
      match type_from_name name with
      | None => None
      | Some (f, cert) =>
          if negb allow_cert && cert then None
          else match (if cert then match get_str r with Some (_, r) => Some r | None => None end else Some r) with
               | None => None
               | Some r =>
                   match deserialize_public f name r with
                   | None => None
                   | Some (p, r) =>
                       if cert then match cert_parse ca_of r b with
                                    | None => None
                                    | Some (c, r) => if negb (zlen r =? 0) then None else Some (mkKey p (Some c))
                                    end
                       else if negb (zlen r =? 0) then None else Some (mkKey p None)
                   end
               end
      end
  end.
Definition ca_from_blob : list Z -> option key := from_blob_internal (fun _ => None) false.
(** sshkey.c:2069-2083 sshkey_from_blob (sshkey_fromb without the limit, which a
    buffer meets) *)
Definition from_blob (b : list Z) : option key :=
  if SSHBUF_SIZE_MAX <? zlen b then None else from_blob_internal ca_from_blob true b.

(** sshbuf-getput-crypto.c:130-152 sshbuf_put_bignum2 *)
Definition put_mpint (v : list Z) (m : option (list Z)) : option (list Z) :=
  if SSHBUF_MAX_BIGNUM <? zlen v then None else put_str (mpint_body v) m.
(** sshbuf-getput-crypto.c:155-180 sshbuf_put_ec *)
Definition put_point (pt : list Z) (m : option (list Z)) : option (list Z) :=
  if MAX_ECPOINT <? zlen pt then None else put_str pt m.
(** impl->funcs->serialize_public: ssh-ed25519.c:53-64, ssh-ed25519-sk.c:48-60,
    ssh-ecdsa.c:153-169, ssh-ecdsa-sk.c:84-95, ssh-rsa.c:70-89 *)
Definition serialize_public (p : kpub) (m : option (list Z)) : option (list Z) :=
  match p with
  | PEd pk => put_str pk m
  | PEdSk pk app => put_str app (put_str pk m)
  | PEc c pt => put_point pt (put_str (curve_nid_to_name c) m)
  | PEcSk c pt app => put_str app (put_point pt (put_str (curve_nid_to_name c) m))
  | PRsa e n => put_mpint n (put_mpint e m)
  end.
(** sshkey.c:877-908 to_blob_buf into an empty buffer *)
Definition to_blob (force_plain : bool) (k : key) : option (list Z) :=
  match (if force_plain then None else key_cert k) with
  | Some c => if zlen (kc_blob c) =? 0 then None else put (kc_blob c) (Some [])
  | None => serialize_public (key_pub k) (put_str (name_of (family_of (key_pub k), false) (nid_of (key_pub k))) (Some []))
  end.
(** sshkey.c:235-239 sshkey_ssh_name *)
Definition ssh_name (k : key) : list Z :=
  name_of (family_of (key_pub k), match key_cert k with Some _ => true | None => false end) (nid_of (key_pub k)).
(** sshkey.c:1387-1428 sshkey_to_base64, sshkey_format_text into an empty buffer *)
Definition format_text (k : key) : option (list Z) :=
  match to_blob false k with
  | None => None
  | Some b => match sshbuf_dtob64 b [] false with
              | BOk t => put (ssh_name k ++ 32 :: t) (Some [])
              | _ => None
              end
  end.

(** strcspn(cp, " \t"): the word and what follows *)
Fixpoint word (l : list Z) : list Z * list Z :=
  match l with
  | [] => ([], [])
  | c :: r => if (c =? 32) || (c =? 9) then ([], l) else let (w, t) := word r in (c :: w, t)
  end.
Fixpoint skip_blank (l : list Z) : list Z :=
  match l with
  | c :: r => if (c =? 32) || (c =? 9) then skip_blank r else l
  | [] => []
  end.
(** sshkey.c:1289-1307 peek_type_nid *)
Definition peek_type_nid (w : list Z) : option (ktype * option curve) :=
  match find (fun i => beqb w (i_name i)) keyimpls with
  | Some i => Some (i_type i, if is_ecdsa (i_type i) then i_nid i else None)
  | None => None
  end.
Definition key_type (k : key) : ktype := (family_of (key_pub k), match key_cert k with Some _ => true | None => false end).
(** sshkey.c:1310-1384 sshkey_read on a line without NUL: the key and the comment.
    [want] is the type of the structure passed in, None for KEY_UNSPEC; [junk] as in
    sshbuf_b64tod. *)
Definition sshkey_read (junk : Z -> Z) (want : option ktype) (line : list Z) : option (key * list Z) :=
  let (w, r) := word line in
  if is_nil r then None else
  match peek_type_nid w with
  | None => None
  | Some (ty, nid) =>
      let r := skip_blank r in
      if is_nil r then None else
      if match want with Some t => negb (ktype_eqb t ty) | None => false end then None else
      let (b64, r) := word r in
      match sshbuf_b64tod [] b64 junk with
      | BOk blob =>
          match from_blob blob with
          | None => None
          | Some k =>
              let r := skip_blank r in
              if negb (ktype_eqb (key_type k) ty) then None
              else if is_ecdsa ty && negb (match nid, nid_of (key_pub k) with Some a, Some b => curve_eqb a b | _, _ => false end) then None
              else Some (k, r)
          end
      | _ => None
      end
  end.

(** sshkey.c:2276-2378 sshkey_certify_custom: [sigtype] is the certificate's
    signature_type so far, [nonce] the random bytes, [signer] what the signer makes of
    the data and algorithm; the result is the new blob and signature type.  The
    certificate's type is not looked at here. *)
Definition certify (signer : list Z -> option (list Z) -> option (list Z)) (nonce : list Z)
    (p : kpub) (t : tbs) (sigtype : option (list Z)) (ca : kpub) (alg : option (list Z)) : option (list Z * list Z) :=
  match (match alg with
         | None => Some sigtype
         | Some a => match sigtype with Some s => if beqb a s then Some alg else None | None => Some alg end
         end) with
  | None => None
  | Some alg =>
      let alg := match alg with
                 | None => match family_of ca with FRsa => Some (bs "rsa-sha2-512") | _ => None end
                 | Some _ => alg
                 end in
      match to_blob false (mkKey ca None) with
      | None => None
      | Some ca_blob =>
          let m := put_str (name_of (family_of p, true) (nid_of p)) (Some []) in
          let m := put_str nonce m in
          let m := serialize_public p m in
          let m := put (be_enc 8 (t_serial t)) m in
          let m := put (be_enc 4 (t_type t)) m in
          let m := put_str (t_id t) m in
          match fold_left (fun m p => put_str p m) (t_principals t) (Some []) with
          | None => None
          | Some ps =>
              let m := put_str ps m in
              let m := put (be_enc 8 (t_after t)) m in
              let m := put (be_enc 8 (t_before t)) m in
              let m := put_str (t_crit t) m in
              let m := put_str (t_ext t) m in
              let m := put_str [] m in
              let m := put_str ca_blob m in
              match m with
              | None => None
              | Some cert =>
                  match signer cert alg with
                  | None => None
                  | Some sig =>
                      match get_sigtype sig with
                      | None => None
                      | Some st =>
                          if match alg with Some a => negb (beqb a st) | None => false end then None
                          else match put_str sig (Some cert) with
                               | None => None
                               | Some blob => Some (blob, match sigtype with Some s => s | None => st end)
                               end
                      end
                  end
              end
          end
      end
  end.
End Key.
