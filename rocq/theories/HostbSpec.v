(** Vocabulary for C81: host-based authentication. *)
From Coq Require Import String.
From Verif Require Import Base Text SshbufModel SshbufSpec WireSpec MiscNumModel CertSpec MatchModel KeyModel KeySpec SocksSpec HostbModel.
Local Open Scope Z_scope.

(** ** What is signed *)
(** The same host name, whatever the case *)
Definition same_name (a b : list Z) : Prop := map tolower a = map tolower b.
(** Fields: session, account at the server, service, algorithm, public key, name of
    the client's host, name of the client's user *)
Definition says_request (data sid ruser service alg blob chost luser : list Z) : Prop :=
  exists ws wm wa wl,
    data = enc_string sid ++ [50] ++ enc_string ruser ++ ws ++ wm ++ wa ++ enc_string blob ++ enc_string chost ++ wl /\
    ctext ws service /\ ctext wm (bs "hostbased") /\ ctext wa alg /\ ctext wl luser /\ ~ In 0 chost /\
    zlen sid <= 134217724 /\ zlen ruser <= 134217724 /\ zlen blob <= 134217724 /\ zlen chost <= 134217724 /\ zlen data <= 134217728.

Section Keys.
Variable point_ok : curve -> list Z -> bool.
Variable ver : kpub -> list Z -> list Z -> bool.
Definition blob_of (blob : list Z) (k : key) : Prop :=
  match key_cert k with None => is_plain point_ok blob (key_pub k) | Some c => is_certificate point_ok ver blob (key_pub k) c end.
(** The algorithm belongs to the kind of key (not necessarily to its curve). *)
Definition names_kind (alg : list Z) (k : key) : Prop :=
  exists p, family_of p = family_of (key_pub k) /\ In alg (match key_cert k with None => plain_names p | Some _ => cert_names p end).
End Keys.

(** The first host key with the public key asked for *)
Definition hostkey_for (k h : key) (keys : list (option key)) : Prop :=
  exists l r, keys = l ++ Some h :: r /\ key_pub h = key_pub k /\ forall h', In (Some h') l -> key_pub h' <> key_pub k.

(** ** rhosts files *)
(** A file is read in lines; of a line that does not fit in 1023 bytes, each piece of
    1023 counts as a line. *)
Inductive pieces : list Z -> list (list Z) -> Prop :=
| pieces_nil : pieces [] []
| pieces_line : forall a r l, ~ In 10 a -> zlen a <= 1022 -> pieces r l -> pieces (a ++ [10] ++ r) ((a ++ [10]) :: l)
| pieces_full : forall a r l, ~ In 10 a -> zlen a = 1023 -> pieces r l -> pieces (a ++ r) (a :: l)
| pieces_last : forall a, ~ In 10 a -> a <> [] -> zlen a <= 1022 -> pieces a [a].
Definition space (c : Z) : Prop := c = 32 \/ 9 <= c <= 13.
Inductive words_are : list Z -> list (list Z) -> Prop :=
| wa_end : forall g, Forall space g -> words_are g []
| wa_word : forall g w r ws, Forall space g -> w <> [] -> Forall (fun c => ~ space c) w ->
    match r with [] => True | c :: _ => space c end -> words_are r ws -> words_are (g ++ w ++ r) (w :: ws).
(** Blank lines, comments, and lines that start with NO_PLUS *)
Definition remark (s : list Z) : Prop :=
  exists g r, s = g ++ r /\ Forall (fun c => c = 32 \/ c = 9) g /\
    (r = [] \/ (exists t, r = 35 :: t) \/ (exists t, r = 10 :: t) \/ exists t, r = bs "NO_PLUS" ++ t).
(** A name, after a minus (negated) or a plus *)
Definition marked (w : list Z) (neg : bool) (name : list Z) : Prop :=
  (w = 45 :: name /\ neg = true) \/ (w = 43 :: name /\ neg = false) \/ (w = name /\ neg = false /\ hd 0 w <> 45 /\ hd 0 w <> 43).
(** The line says: host [h], user [u]; without a user name it is the account's own. *)
Definition entry (me line : list Z) (neg : bool) (h u : list Z) : Prop :=
  exists s ws hw uw n1 n2, up_to_nul line s /\ ~ remark s /\ words_are s ws /\
    (ws = [hw] /\ uw = ztake 1023 me \/ ws = [hw; uw]) /\
    marked hw n1 h /\ marked uw n2 u /\ h <> [] /\ u <> [] /\ neg = n1 || n2.

Section Files.
Variable netgr : list Z -> option (list Z) -> option (list Z) -> bool.
Definition names_host (h hostname ip : list Z) : Prop :=
  (exists g, h = 64 :: g /\ (netgr g (Some hostname) None = true \/ netgr g (Some ip) None = true)) \/
  (hd 0 h <> 64 /\ (same_name h hostname \/ h = ip)).
Definition names_user (u cuser : list Z) : Prop :=
  (exists g, u = 64 :: g /\ netgr g None (Some cuser) = true) \/ (hd 0 u <> 64 /\ u = cuser).
(** The line is about this user of this host. *)
Definition concerns (me hostname ip cuser line : list Z) (neg : bool) : Prop :=
  exists h u, entry me line neg h u /\ names_host h hostname ip /\ names_user u cuser.
(** The first line about them grants. *)
Definition grants (me hostname ip cuser text : list Z) : Prop :=
  exists l1 line l2, pieces text (l1 ++ line :: l2) /\ concerns me hostname ip cuser line false /\
    forall l neg, In l l1 -> ~ concerns me hostname ip cuser l neg.
Definition file_grants (me hostname ip cuser : list Z) (f : option node) : Prop :=
  exists n t, f = Some n /\ n_text n = Some t /\ grants me hostname ip cuser t.
(** Owned by root or the user; group and others cannot write. *)
Definition safe_node (a : acct) (n : node) : Prop :=
  (n_uid n = 0 \/ n_uid n = ac_uid a) /\ Z.testbit (n_mode n) 4 = false /\ Z.testbit (n_mode n) 1 = false.
Definition safe_if (strict : bool) (a : acct) (f : option node) : Prop :=
  exists n, f = Some n /\ (strict = true -> safe_node a n).
Definition rhosts_grant (strict : bool) (ig : ignore) (fs : rfs) (a : acct) (cuser hostname ip : list Z) : Prop :=
  let ok := file_grants (ac_name a) hostname ip cuser in
  (ac_uid a <> 0 /\ (ok (fs_equiv fs) \/ ok (fs_sequiv fs))) \/
  (safe_if strict a (fs_home fs) /\
     (ig <> IgYes /\ safe_if strict a (fs_shosts fs) /\ ok (fs_shosts fs) \/
      ig = IgNo /\ safe_if strict a (fs_rhosts fs) /\ ok (fs_rhosts fs))).
End Files.

(** ** The server *)
(** The name without a final dot *)
Definition undotted (h n : list Z) : Prop := h = n ++ [46] \/ (h = n /\ forall m, h <> m ++ [46]).
Section Server.
Variable netgr : list Z -> option (list Z) -> option (list Z) -> bool.
Variable revoked_key : key -> bool.
Variable in_scope_now : key -> list Z -> bool.
Variable host_status : bool -> key -> list Z -> hstat.
(** The key may speak for this user of this host: not revoked; the files grant; a
    certificate covers the host's name; the key is known for that name.  The name and
    address are those of the peer, or both the name in the request. *)
Definition may_speak (o : hopts) (fs : rfs) (p : peer) (a : acct) (cuser chost : list Z) (k : key) : Prop :=
  revoked_key k = false /\ exists n name addr, undotted chost n /\
    (if o_packet_name o then name = n /\ addr = n else name = pe_name p /\ addr = pe_ip p) /\
    rhosts_grant netgr (o_strict o) (o_ignore o) fs a cuser name addr /\
    (key_cert k <> None -> in_scope_now k name = true) /\
    (host_status false k name = HOk \/ host_status false k name = HNew /\ host_status true k name = HOk).
End Server.
