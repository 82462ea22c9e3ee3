(** Vocabulary for the agent properties: histories, requests on the wire, and what
    it means that a path of connections is allowed. *)
From Coq Require Import String.
From Verif Require Import Base Text SshbufModel SshbufSpec MatchModel MatchSpec Dec AuthOptModel AgentModel.

(** ** Histories *)
Fixpoint runs (c : cfg) (a : agent) (evs : list event) : ares :=
  match evs with
  | [] => Run a []
  | ev :: r =>
    match step c a ev with
    | Exit => Exit
    | Run a1 os => match runs c a1 r with Exit => Exit | Run a2 os' => Run a2 (os ++ os') end
    end
  end.
Definition ev_ok (ev : event) : Prop := match ev with EvData _ b => is_bytes b | _ => True end.
Definition reachable (c : cfg) (a : agent) : Prop := exists evs tr, Forall ev_ok evs /\ runs c agent_init evs = Run a tr.
Definition keys (a : agent) : list ident := g_ids (a_core a).

(** ** Wire forms.  A text field may end in a NUL byte, which is not part of it. *)
Definition text (raw v : list Z) : Prop := ~ In 0 v /\ (raw = v \/ raw = v ++ [0]).
(** A public key on the wire *)
Definition wire_key (c : cfg) (b : list Z) (k : akey) : Prop := exists blob, b = enc_string blob /\ c_key c blob = Some k.
Definition same_key (a b : akey) : Prop := k_blob a = k_blob b.

Definition failure : list Z := [5].
Definition success : list Z := [6].
Definition empty_list : list Z := [12; 0; 0; 0; 0].
(** An unlock (lock) request for the passphrase [pw] *)
Definition unlock_request (req pw : list Z) : Prop := exists more, req = 23 :: enc_string pw ++ more.
Definition lock_request (req pw : list Z) : Prop := exists more, req = 22 :: enc_string pw ++ more.

(** ** Sweeps: what removes keys apart from requests *)
Definition expired (t : Z) (i : ident) : bool := negb (i_death i =? 0) && (i_death i <=? t).
Fixpoint swept (evs : list event) (l : list ident) : list ident :=
  match evs with
  | [] => l
  | EvSweep t :: r => swept r (filter (fun i => negb (expired t i)) l)
  | EvKeydrop :: r => swept r []
  | _ :: r => swept r l
  end.

(** ** Destination constraints *)
(** The key of a host is listed in a hop: itself, or (for a certificate) its CA,
    with the certificate valid for the host name of the hop *)
Definition listed (en : env) (h : hop) (k : akey) : Prop :=
  exists hk isca, In (hk, isca) (h_keys h) /\
    match k_ca k with
    | None => isca = false /\ same_key k hk
    | Some ca => isca = true /\ same_key ca hk /\ e_host en k (match h_host h with Some n => n | None => bs "(ORIGIN)" end) = true
    end.
(** Some constraint allows the hop from one host ([None]: the machine where the
    agent runs) to another; for authentication, as this user *)
Definition allowed_hop (en : env) (dcs : list dcon) (from : option akey) (to : akey) (user : option (list Z)) : Prop :=
  exists d, In d dcs /\
    match from with None => h_host (d_from d) = None /\ h_keys (d_from d) = [] | Some k => listed en (d_from d) k end /\
    listed en (d_to d) to /\
    (forall u p, user = Some u -> h_user (d_to d) = Some p -> glob p u).
(** Every hop of the bound path is allowed: forwardings, then one authentication
    as [user] *)
Inductive allowed_path (en : env) (dcs : list dcon) (user : list Z) : option akey -> list hsid -> Prop :=
| path_last : forall from b, b_fwd b = false -> allowed_hop en dcs from (b_key b) (Some user) -> allowed_path en dcs user from [b]
| path_step : forall from b r, b_fwd b = true -> allowed_hop en dcs from (b_key b) None ->
    allowed_path en dcs user (Some (b_key b)) r -> allowed_path en dcs user from (b :: r).

(** [data] is a public key authentication request (RFC 4252 section 7, preceded by
    the session id) of [user] with key [k]; [hk]: the host key it names, if any *)
Definition userauth_request (c : cfg) (data sid user : list Z) (k : akey) (hk : option akey) : Prop :=
  exists ruser rservice rmethod ralg alg kb hb k',
    data = enc_string sid ++ [50] ++ enc_string ruser ++ enc_string rservice ++ enc_string rmethod ++ [1] ++
           enc_string ralg ++ kb ++ hb /\
    sid <> [] /\ text ruser user /\ text rservice (bs "ssh-connection") /\
    text ralg alg /\ c_type c alg = k_type k /\
    wire_key c kb k' /\ same_key k' k /\
    match hk with
    | None => text rmethod (bs "publickey") /\ hb = []
    | Some h => text rmethod (bs "publickey-hostbound-v00@openssh.com") /\ wire_key c hb h
    end.
(** [data] is an SSHSIG message (PROTOCOL.sshsig) *)
Definition sshsig_message (data : list Z) : Prop :=
  exists rns ns reserved ralg alg h,
    data = bs "SSHSIG" ++ enc_string rns ++ enc_string reserved ++ enc_string ralg ++ enc_string h /\ text rns ns /\ text ralg alg.

(** ** Bindings of a connection *)
Definition bind_request (c : cfg) (req : list Z) (k : akey) (sid : list Z) (sig : list Z) (fwd : Z) : Prop :=
  exists rname kb more, text rname (bs "session-bind@openssh.com") /\ wire_key c kb k /\ 0 <= fwd < 256 /\
    req = 27 :: enc_string rname ++ kb ++ enc_string sid ++ enc_string sig ++ fwd :: more.
(** Only the last may be for authentication, session ids differ, at most 16, and
    each was signed by its key *)
Fixpoint forwards_then_any (l : list hsid) : Prop :=
  match l with [] => True | [b] => True | b :: r => b_fwd b = true /\ forwards_then_any r end.
Definition bindings_ok (c : cfg) (l : list hsid) : Prop :=
  forwards_then_any l /\ NoDup (map b_sid l) /\ zlen l <= 16 /\
  Forall (fun b => zlen (b_sid b) <= 128 /\ exists sig, c_verify c (b_key b) sig (b_sid b) = true) l.

(** ** Writing constraints, as ssh-add does (authfd.c:456-562) *)
Definition wire_key_of (k : akey) : list Z := enc_string (k_blob k).
Definition enc_hop (h : hop) : list Z :=
  enc_string (match h_user h with Some u => u | None => [] end) ++
  enc_string (match h_host h with Some n => n | None => [] end) ++ enc_string [] ++
  concat (map (fun p : akey * bool => wire_key_of (fst p) ++ [if snd p then 1 else 0]) (h_keys h)).
Definition enc_dcon (d : dcon) : list Z :=
  enc_string (enc_string (enc_hop (d_from d)) ++ enc_string (enc_hop (d_to d)) ++ enc_string []).
Definition enc_dest (dcs : list dcon) : list Z :=
  255 :: enc_string (bs "restrict-destination-v00@openssh.com") ++ enc_string (concat (map enc_dcon dcs)).
(** Constraints that ssh-add can write: keys that can be read back, names without
    NUL, an origin without user that has a host name exactly if it has keys, and a
    destination with a host name and keys *)
Definition key_ok (c : cfg) (k : akey) : Prop := c_key c (k_blob k) = Some k.
Definition str_ok (s : list Z) : Prop := s <> [] /\ ~ In 0 s.
Definition hop_ok (c : cfg) (h : hop) : Prop :=
  (forall u, h_user h = Some u -> str_ok u) /\ (forall u, h_host h = Some u -> str_ok u) /\ Forall (fun p => key_ok c (fst p)) (h_keys h).
Definition dcon_ok (c : cfg) (d : dcon) : Prop :=
  hop_ok c (d_from d) /\ hop_ok c (d_to d) /\ h_user (d_from d) = None /\ (h_host (d_from d) = None <-> h_keys (d_from d) = []) /\
  h_host (d_to d) <> None /\ h_keys (d_to d) <> [].

(** ** What a connection sees of a key *)
(** The bound path is allowed, and if it goes on from its last host then some
    constraint starts there *)
Inductive open_path (en : env) (dcs : list dcon) : option akey -> list hsid -> Prop :=
| open_last : forall from b, allowed_hop en dcs from (b_key b) None ->
    (b_fwd b = true -> exists d, In d dcs /\ listed en (d_from d) (b_key b)) -> open_path en dcs from [b]
| open_step : forall from b r, b_fwd b = true -> allowed_hop en dcs from (b_key b) None ->
    open_path en dcs (Some (b_key b)) r -> open_path en dcs from (b :: r).
(** A key without constraints is visible everywhere, one with constraints on a
    connection that never tried to bind, and where the path is open *)
Definition visible (en : env) (e : sock) (i : ident) : Prop :=
  i_dcs i = [] \/ (s_ids e = [] /\ s_attempted e = false) \/ open_path en (i_dcs i) None (s_ids e).
Definition entry (i : ident) : list Z := enc_string (k_blob (i_key i)) ++ enc_string (i_comment i).

(** ** Pattern lists of the configuration *)
Definition on_list (s l : list Z) : Prop := ~ some_negative false s (entries l) /\ some_positive false s (entries l).
(** The connection has been used for forwarding (or tried to tell so) *)
Definition from_remote (e : sock) : Prop := s_attempted e = true \/ s_ids e <> [].
(** An identity that a request may add *)
Definition add_request (req : list Z) : Prop := exists t b, req = t :: b /\ (t = 17 \/ t = 25 \/ t = 20 \/ t = 26).
