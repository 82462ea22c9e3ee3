(** What a known-hosts file says, independent of the code. *)
From Coq Require Import String.
From Verif Require Import Base Text MatchSpec Base64Spec HostfileModel.

(** A text file: lines without newline or NUL, each ended by a newline. *)
Definition text_line (l : list Z) : Prop := ~ In 10 l /\ ~ In 0 l /\ zlen l < 100000000.
Definition text (ls : list (list Z)) : list Z := flat_map (fun l => l ++ [10]) ls.

Definition blank (c : Z) : Prop := c = 32 \/ c = 9.
Definition blanks (l : list Z) : Prop := Forall blank l.
Definition solid (l : list Z) : Prop := l <> [] /\ Forall (fun c => ~ blank c) l.

Definition marker_text (m : marker) : list Z :=
  match m with MRK_CA => bs "@cert-authority" | MRK_REVOKE => bs "@revoked" | _ => [] end.
(** The line is: optional marker, names, rest.  Between the fields stand blanks.
    The rest starts with something other than '#'.  (A tab directly after a
    marker is taken as its end only if no space follows on the line; see
    C45_tab_marker_refuted.) *)
Definition lead_ok (m : marker) (lead hosts line : list Z) : Prop :=
  match m with
  | MRK_NONE => lead = [] /\ hd 0 hosts <> 35
  | MRK_CA | MRK_REVOKE => exists sep w, lead = marker_text m ++ sep :: w /\ blank sep /\ blanks w /\ (sep = 32 \/ ~ In 32 line)
  | MRK_ERROR => False
  end.
Definition entry_line (line : list Z) (m : marker) (hosts rest : list Z) : Prop :=
  exists w1 lead w2, line = w1 ++ lead ++ hosts ++ w2 ++ rest /\
    blanks w1 /\ lead_ok m lead hosts (lead ++ hosts ++ w2 ++ rest) /\ solid hosts /\ hd 0 hosts <> 64 /\
    blanks w2 /\ w2 <> [] /\ rest <> [] /\ ~ blank (hd 0 rest) /\ hd 0 rest <> 35.

(** The names field lists the host: as patterns, or as a salted hash. *)
Definition hashed_name (P : hprims) (host salt : list Z) : list Z :=
  bs "|1|" ++ base64 salt ++ bs "|" ++ base64 (hp_hmac P salt host).
Definition listed (P : hprims) (host hosts : list Z) : Prop :=
  if hd 0 hosts =? 124 then
    exists salt, is_bytes salt /\ zlen salt = 20 /\ hosts = hashed_name P host salt
  else ~ some_negative true (map tolower host) (entries hosts) /\ some_positive true (map tolower host) (entries hosts).

(** The text denotes the key: type name, blanks, base64 of the key blob. *)
Definition key_text (P : hprims) (rest : list Z) (k : hkey) : Prop :=
  exists name w b64 tail blob, rest = name ++ w ++ b64 ++ tail /\
    Forall (fun c => ~ blank c) name /\ blanks w /\ w <> [] /\ solid b64 /\ (tail = [] \/ blank (hd 0 tail)) /\
    hp_type P name = Some (hk_type k, hk_nid k) /\
    is_bytes blob /\ squeeze b64 = base64 blob /\ hp_parse P blob = Some k.

(** The lines say [k] for [host] under marker [m]. *)
Definition says (P : hprims) (ls : list (list Z)) (host : list Z) (m : marker) (k : hkey) : Prop :=
  exists l hosts rest, In l ls /\ entry_line l m hosts rest /\ listed P host hosts /\ key_text P rest k.

Definition same_public (a b : hkey) : Prop := hk_id a = hk_id b.
(** the same plain key *)
Definition same_key (a b : hkey) : Prop := hk_type a = hk_type b /\ hk_id a = hk_id b.
Definition signed_by (k ca : hkey) : Prop := exists blob, hk_cert k = Some (blob, hk_id ca).

(** What must be known about the parameters: HMAC-SHA1 has 20 bytes. *)
Definition hp_ok (P : hprims) : Prop :=
  (forall s h, is_bytes (hp_hmac P s h) /\ zlen (hp_hmac P s h) = 20).
(** Name patterns the pattern matcher handles (below 1023 bytes, as in C11). *)
Definition short_names (ls : list (list Z)) : Prop :=
  forall l m hosts rest, In l ls -> entry_line l m hosts rest -> Forall fits (entries hosts).

(** A file of text lines with its note (and the allocator's junk). *)
Definition tlines : Type := list (list Z) * Z * list (list Z).
Definition tfile (f : tlines) : kfile := let '(ls, note, junk) := f in (text ls, note, junk).
Definition lines_of (f : tlines) : list (list Z) := fst (fst f).
Definition note_of (f : tlines) : Z := snd (fst f).
(** Some file says [k] for [host] under [m]. *)
Definition knows (P : hprims) (fs : list tlines) (host : list Z) (m : marker) (k : hkey) : Prop :=
  exists f, In f fs /\ says P (lines_of f) host m k.
(** A line revokes the key or, for a certificate, the key that signed it. *)
Definition revoked (P : hprims) (fs : list tlines) (host : list Z) (k : hkey) : Prop :=
  exists r, knows P fs host MRK_REVOKE r /\ (same_public k r \/ signed_by k r).
(** A plain key is listed without a marker; a certificate's signer is listed as
    an authority. *)
Definition trusted (P : hprims) (fs : list tlines) (host : list Z) (k : hkey) : Prop :=
  (hk_cert k = None /\ exists e, knows P fs host MRK_NONE e /\ same_key k e) \/
  exists ca, knows P fs host MRK_CA ca /\ signed_by k ca.
Definition other_key (P : hprims) (fs : list tlines) (host : list Z) (k : hkey) : Prop :=
  hk_cert k = None /\ exists e, knows P fs host MRK_NONE e.
Definition good_files (fs : list tlines) : Prop :=
  Forall (fun f => Forall text_line (lines_of f) /\ short_names (lines_of f)) fs.

(** ** Replacing the keys of a host *)
(** An ordinary host name or address: not a pattern, hash, comment or marker. *)
Definition plain_char (c : Z) : Prop :=
  ~ blank c /\ c <> 10 /\ c <> 0 /\ c <> 44 /\ c <> 42 /\ c <> 63 /\ c <> 33 /\ c <> 124 /\ c <> 35 /\ c <> 64.
Definition plain_name (n : list Z) : Prop := n <> [] /\ zlen n < 1000 /\ Forall plain_char n.
(** A plain key whose text form reads back as itself *)
Definition writable (P : hprims) (k : hkey) : Prop :=
  hk_cert k = None /\ plain_name (hk_name k) /\ hp_type P (hk_name k) = Some (hk_type k, hk_nid k) /\
  is_bytes (hk_blob k) /\ hk_blob k <> [] /\ zlen (hk_blob k) < 50000000 /\ hp_parse P (hk_blob k) = Some k.
(** The line names the host (or the address) with an unmarked key that is not
    among those requested. *)
Definition superseded (P : hprims) (host : list Z) (ip : option (list Z)) (keys : list (option hkey)) (l : list Z) : Prop :=
  exists hosts rest k, entry_line l MRK_NONE hosts rest /\
    (listed P host hosts \/ exists a, ip = Some a /\ listed P a hosts) /\ key_text P rest k /\
    forall q, In (Some q) keys -> ~ same_key q k.
