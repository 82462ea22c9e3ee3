(** C81: host-based authentication. *)
From Coq Require Import String.
From Verif Require Import Base Text SshbufModel SshbufSpec SshbufProof WireSpec WireProof MiscNumModel AuthOptModel AuthOptProof Dec CertSpec CertProof ServProof MatchModel SigProof2 SigProof3 KeyModel KeySpec KeyProof KeyProof2 KeyProof3 SocksSpec SocksProof HostbModel HostbSpec HostbProof HostbProof2.
Local Open Scope Z_scope.

(** ** ssh-keysign *)

(** C81.  ssh-keysign hands data to a host key exactly if it is enabled and the data is
    a request for host-based authentication that names, as the client's user, the user
    who called it and, as the client's host, the local name of the connection that came
    with the request; it signs with the host key whose public key the request names. *)
Theorem C81_keysign : forall point_ok ver enabled user keys name_of_fd msg h data alg, is_bytes msg ->
  (keysign point_ok ver enabled user keys name_of_fd msg = Some (h, data, alg) <->
   enabled = true /\ exists fd host rest sid ruser blob n k,
     msg = [2] ++ be_enc 4 fd ++ enc_string data ++ rest /\ 2 < fd < 2147483648 /\ name_of_fd fd = Some host /\ zlen data <= 134217724 /\
     says_request data sid ruser (bs "ssh-connection") alg blob (n ++ [46]) user /\
     (zlen sid = 20 \/ zlen sid = 32 \/ zlen sid = 48 \/ zlen sid = 64) /\ same_name n host /\
     names_kind alg k /\ blob_of point_ok ver blob k /\ hostkey_for k h keys).
Proof. intros. now apply keysign_iff. Qed.
Print Assumptions C81_keysign.

(** C81.  What the client asks for itself is signed. *)
Theorem C81_client : forall point_ok ver user keys name_of_fd sid ruser alg blob lname k h data msg,
  is_bytes msg -> client_data sid ruser (bs "ssh-connection") alg blob lname user = Some data -> keysign_msg 3 data = Some msg ->
  (zlen sid = 20 \/ zlen sid = 32 \/ zlen sid = 48 \/ zlen sid = 64) -> name_of_fd 3 = Some lname ->
  ~ In 0 lname -> ~ In 0 user -> ~ In 0 alg -> names_kind alg k -> blob_of point_ok ver blob k -> hostkey_for k h keys ->
  keysign point_ok ver true user keys name_of_fd msg = Some (h, data, alg).
Proof.
  intros point_ok ver user keys nf sid ruser alg blob lname k h data msg Hb D M S N Nl Nu Na K1 K2 K.
  unfold client_data in D. apply built_iff in D as (D & L). unfold keysign_msg in M.
  destruct (put_str data (AuthOptModel.put (be_enc 4 3) (Some []))) as [b|] eqn:P; [|discriminate]. injection M as <-.
  apply put_str_fits_m in P as (b0 & P & -> & L'). apply put_iff in P as (-> & _). cbn [app] in L'. rewrite zlen_app, zlen_be_enc, zlen_enc_string in L'.
  apply keysign_iff; [assumption|]. split; [reflexivity|]. exists 3, lname, [], sid, ruser, blob, lname, k.
  assert (LL : zlen sid <= 134217724 /\ zlen ruser <= 134217724 /\ zlen alg <= 134217724 /\ zlen blob <= 134217724 /\ zlen (lname ++ [46]) <= 134217724 /\ zlen user <= 134217724).
  { rewrite D in L. rewrite !zlen_app, !zlen_enc_string, zlen_app in L. rewrite zlen_app. pose proof (zlen_nonneg _ sid). pose proof (zlen_nonneg _ ruser). pose proof (zlen_nonneg _ alg). pose proof (zlen_nonneg _ blob).
    pose proof (zlen_nonneg _ lname). pose proof (zlen_nonneg _ user). pose proof (zlen_nonneg _ ([50] : list Z)). pose proof (zlen_nonneg _ ([46] : list Z)). pose proof (zlen_nonneg _ (bs "ssh-connection")). pose proof (zlen_nonneg _ (bs "hostbased")). lia. }
  destruct LL as (L1 & L2 & L3 & L4 & L5 & L6).
  assert (NC : ~ In 0 (lname ++ [46])) by (intros I; apply in_app_iff in I as [I|[I|[]]]; [contradiction|discriminate]).
  splits; auto; try lia.
  - rewrite app_nil_r. reflexivity.
  - exists (enc_string (bs "ssh-connection")), (enc_string (bs "hostbased")), (enc_string alg), (enc_string user). splits; auto.
    + apply ctext_enc; [|vm_compute; discriminate]. vm_compute. intuition discriminate.
    + apply ctext_enc; [|vm_compute; discriminate]. vm_compute. intuition discriminate.
    + now apply ctext_enc. + now apply ctext_enc.
  - reflexivity.
Qed.
Print Assumptions C81_client.

(** ** rhosts files *)

(** C81.  A file grants access exactly if the first line about the user and host is not
    negated.  Remarks, lines of three words or more, and lines with an empty or bare
    plus or minus name are about nobody. *)
Theorem C81_file : forall netgr f hostname ip cuser me,
  check_file netgr f hostname ip cuser me = true <-> file_grants netgr me hostname ip cuser f.
Proof. intros. apply file_iff. Qed.
Print Assumptions C81_file.
(** C81.  Files with lines of at most 1022 bytes are read line by line. *)
Theorem C81_lines : forall ls, Forall (fun l => ~ In 10 l /\ zlen l <= 1022) ls ->
  pieces (concat (map (fun l => l ++ [10]) ls)) (map (fun l => l ++ [10]) ls).
Proof.
  induction 1 as [|l ls (N & L) F IH]; cbn [map concat]; [constructor|]. rewrite <- app_assoc. now apply pieces_line.
Qed.
Print Assumptions C81_lines.
(** C81.  A file is read in one way, and every file is read. *)
Theorem C81_lines_unique : forall t, exists! ls, pieces t ls.
Proof.
  intros t. exists (pieces_of 1023 [] t). split; [now apply pieces_iff|]. intros ls H. now apply pieces_iff in H.
Qed.
Print Assumptions C81_lines_unique.
(** C81.  The files together: the system's for everyone but root; the user's unless
    ignored, and with StrictModes only if they and the home directory are safe. *)
Theorem C81_rhosts : forall netgr strict ig fs a cuser hostname ip,
  rhosts2 netgr strict ig fs a cuser hostname ip = true <-> rhosts_grant netgr strict ig fs a cuser hostname ip.
Proof. intros. apply rhosts_iff. Qed.
Print Assumptions C81_rhosts.
(** C81.  No line is about everybody: whoever is granted access is named, the host by
    name, address or netgroup and the user by name or netgroup. *)
Theorem C81_named : forall netgr me hostname ip cuser text, grants netgr me hostname ip cuser text ->
  exists ls line neg h u, pieces text ls /\ In line ls /\ entry me line neg h u /\ h <> [] /\ u <> [] /\
    names_host netgr h hostname ip /\ names_user netgr u cuser /\ neg = false.
Proof.
  intros netgr me hostname ip cuser text (l1 & line & l2 & P & (h & u & E & Hh & Hu) & _). exists (l1 ++ line :: l2), line, false, h, u.
  splits; auto; [apply in_app_iff; right; now left| |]; destruct E as (s & ws & hw & uw & n1 & n2 & _ & _ & _ & _ & _ & _ & A & B & _); assumption.
Qed.
Print Assumptions C81_named.

(** ** The server *)
Section Server.
Variable point_ok : curve -> list Z -> bool.
Variable ver : kpub -> list Z -> list Z -> bool.
Variable netgr : list Z -> option (list Z) -> option (list Z) -> bool.
Variable revoked_key : key -> bool.
Variable in_scope_now : key -> list Z -> bool.
Variable host_status : bool -> key -> list Z -> hstat.
Variable ca_alg_ok rsa_size_ok : key -> bool.
Variable verify : key -> list Z -> list Z -> list Z -> bool.

Lemma allowed_iff : forall o fs p a cuser chost k,
  key_allowed netgr revoked_key in_scope_now host_status o fs p a cuser chost k = true <-> may_speak netgr revoked_key in_scope_now host_status o fs p a cuser chost k.
Proof.
  intros o fs p a cuser chost k. unfold key_allowed, may_speak. destruct (revoked_key k); [split; [discriminate|intros (E & _); discriminate]|]. cbv zeta.
  set (name := if o_packet_name o then strip_dot chost else pe_name p). set (addr := if o_packet_name o then strip_dot chost else pe_ip p).
  assert (X : (exists n name addr, undotted chost n /\ (if o_packet_name o then name = n /\ addr = n else name = pe_name p /\ addr = pe_ip p) /\
      rhosts_grant netgr (o_strict o) (o_ignore o) fs a cuser name addr /\ (key_cert k <> None -> in_scope_now k name = true) /\
      (host_status false k name = HOk \/ host_status false k name = HNew /\ host_status true k name = HOk)) <->
    rhosts_grant netgr (o_strict o) (o_ignore o) fs a cuser name addr /\ (key_cert k <> None -> in_scope_now k name = true) /\
      (host_status false k name = HOk \/ host_status false k name = HNew /\ host_status true k name = HOk)).
  { split.
    - intros (n & nm & ad & U & E & H). apply strip_iff in U. unfold name, addr. destruct (o_packet_name o); destruct E as (-> & ->); rewrite ?U; exact H.
    - intros H. exists (strip_dot chost), name, addr. split; [now apply strip_iff|]. split; [unfold name, addr; destruct (o_packet_name o); auto|exact H]. }
  rewrite X, <- rhosts_iff. clear X. destruct (rhosts2 netgr (o_strict o) (o_ignore o) fs a cuser name addr); cbn [negb]; [|split; [discriminate|intros (_ & E & _); discriminate]].
  destruct (key_cert k) as [c|].
  - destruct (in_scope_now k name); cbn [negb].
    + destruct (host_status false k name), (host_status true k name); (split; [try discriminate; intros _; splits; auto|intros (_ & _ & _ & [E|[E E']]); congruence]).
    + split; [discriminate|]. intros (_ & _ & E & _). specialize (E ltac:(discriminate)). discriminate.
  - destruct (host_status false k name), (host_status true k name); (split; [try discriminate; intros _; splits; auto; intros N; congruence|intros (_ & _ & _ & [E|[E E']]); congruence]).
Qed.

(** C81.  Which requests the server accepts.  The signature must be over the request
    itself, in this session, for the account and service asked for. *)
Theorem C81_accepts : forall o fs p a sid user service pkt, is_bytes pkt ->
  (userauth_hostbased point_ok ver netgr revoked_key in_scope_now host_status ca_alg_ok rsa_size_ok verify o fs p a sid user service pkt = Some true <->
   exists rawalg alg blob wh chost wc cuser sig rest k ac data,
     pkt = enc_string rawalg ++ enc_string blob ++ wh ++ wc ++ enc_string sig ++ rest /\
     ctext (enc_string rawalg) alg /\ ctext wh chost /\ ctext wc cuser /\ zlen rawalg <= 134217724 /\ zlen blob <= 134217724 /\ zlen sig <= 134217724 /\
     names_kind alg k /\ blob_of point_ok ver blob k /\ match_pattern_list alg (o_algs o) false = Some 1 /\ ca_alg_ok k = true /\ rsa_size_ok k = true /\
     a = Some ac /\ may_speak netgr revoked_key in_scope_now host_status o fs p ac cuser chost k /\
     data = enc_string sid ++ [50] ++ enc_string user ++ enc_string service ++ enc_string (bs "hostbased") ++ enc_string rawalg ++ enc_string blob ++ enc_string chost ++ enc_string cuser /\
     zlen data <= 134217728 /\ verify k sig data alg = true).
Proof.
  intros o fs p a sid user service pkt Hb. unfold userauth_hostbased. split.
  - intros H. destruct (dec_cstring pkt) as [[rawalg b1]|] eqn:G1; [|discriminate]. apply get_raw_iff in G1 as (D1 & L1 & C1); [|assumption]. assert (B1 : is_bytes b1) by (rewrite D1 in Hb; now apply is_bytes_app in Hb).
    destruct (get_str b1) as [[blob b2]|] eqn:G2; [|discriminate]. apply get_str_spec in G2 as (D2 & L2 & Bb & B2); [|assumption].
    destruct (get_cstr b2) as [[chost b3]|] eqn:G3; [|discriminate]. apply get_cstr_iff in G3 as (wh & C3 & D3); [|assumption]. assert (B3 : is_bytes b3) by (apply (ctext_bytes wh chost); congruence).
    destruct (get_cstr b3) as [[cuser b4]|] eqn:G4; [|discriminate]. apply get_cstr_iff in G4 as (wc & C4 & D4); [|assumption]. assert (B4 : is_bytes b4) by (apply (ctext_bytes wc cuser); congruence).
    destruct (get_str b4) as [[sig b5]|] eqn:G5; [|discriminate]. apply get_str_spec in G5 as (D5 & L5 & _ & _); [|assumption]. cbv zeta in H.
    destruct (named_key point_ok ver (SshbufModel.cstr rawalg) blob) as [k|] eqn:K; [|discriminate]. apply named_iff in K as (K1 & K2); [|assumption..].
    destruct (match_pattern_list (SshbufModel.cstr rawalg) (o_algs o) false) as [v|] eqn:M; [|discriminate]. destruct (v =? 1) eqn:V; [|discriminate]. apply Z.eqb_eq in V. subst v. cbn [negb] in H.
    destruct (ca_alg_ok k) eqn:Ca; [|discriminate]. cbn [negb] in H. destruct (rsa_size_ok k) eqn:Rs; [|discriminate]. cbn [negb] in H.
    destruct a as [ac|]; [|discriminate]. match type of H with match ?x with _ => _ end = _ => destruct x as [data|] eqn:P; [|discriminate] end. apply built_iff in P as (P & L).
    injection H as H. apply andb_true_iff in H as (H1 & H2). apply allowed_iff in H1.
    exists rawalg, (SshbufModel.cstr rawalg), blob, wh, chost, wc, cuser, sig, b5, k, ac, data. splits; auto. congruence.
  - intros (rawalg & alg & blob & wh & chost & wc & cuser & sig & rest & k & ac & data & E & C1 & C3 & C4 & L1 & L2 & L5 & K1 & K2 & M & Ca & Rs & -> & S & D & L & V).
    assert (A : SshbufModel.cstr rawalg = alg).
    { destruct (raw_shape _ _ C1 L1) as [-> | ->]; [apply Dec.cstr_id; apply C1|]. destruct C1 as (N & _). clear - N. induction alg as [|x s IH]; [reflexivity|]. cbn. destruct (x =? 0) eqn:E; [exfalso; apply N; left; lia|]. f_equal. apply IH. intros I. apply N. now right. }
    rewrite (proj2 (get_raw_iff pkt rawalg (enc_string blob ++ wh ++ wc ++ enc_string sig ++ rest) Hb)) by (splits; auto; rewrite A; assumption).
    rewrite E in Hb. apply is_bytes_app in Hb as (_ & Hb). rewrite get_str_enc by assumption. assert (Bb : is_bytes blob) by (apply is_bytes_app in Hb as (Hb & _); unfold enc_string in Hb; now apply is_bytes_app in Hb).
    apply is_bytes_app in Hb as (_ & Hb). rewrite (proj2 (get_cstr_iff _ chost _ Hb) (ex_intro _ wh (conj C3 eq_refl))). apply is_bytes_app in Hb as (_ & Hb).
    rewrite (proj2 (get_cstr_iff _ cuser _ Hb) (ex_intro _ wc (conj C4 eq_refl))). rewrite get_str_enc by assumption. cbv zeta. rewrite A.
    rewrite (proj2 (named_iff point_ok ver alg blob k Bb L2) (conj K1 K2)), M. cbn [Z.eqb Pos.eqb negb]. rewrite Ca, Rs. cbn [negb].
    rewrite (proj2 (built_iff sid user service (bs "hostbased") rawalg blob chost cuser data) (conj D L)).
    rewrite (proj2 (allowed_iff o fs p ac cuser chost k) S), V. reflexivity.
Qed.

(** C81.  If whatever verifies under the key of the request was signed by a run of ssh-keysign
    ([ran user name_of_fd]: called by [user], on a machine whose connections have those
    local names), then the user and host that an accepted request names are the caller
    of such a run and the name of that machine, and the run was asked for this account
    in this session. *)
Theorem C81_honest : forall (ran : list Z -> (Z -> option (list Z)) -> Prop) o fs p a sid user service pkt rawalg blob wh chost wc cuser rest,
  (forall k sig d alg, blob_of point_ok ver blob k -> verify k sig d alg = true -> exists u nf keys msg h, ran u nf /\ is_bytes msg /\ keysign point_ok ver true u keys nf msg = Some (h, d, alg)) ->
  is_bytes pkt -> zlen sid <= 134217724 -> zlen user <= 134217724 -> zlen service <= 134217724 -> ~ In 0 service -> is_bytes sid -> is_bytes user -> is_bytes service ->
  pkt = enc_string rawalg ++ enc_string blob ++ wh ++ wc ++ rest -> zlen rawalg <= 134217724 -> zlen blob <= 134217724 -> ctext wh chost -> ctext wc cuser ->
  userauth_hostbased point_ok ver netgr revoked_key in_scope_now host_status ca_alg_ok rsa_size_ok verify o fs p a sid user service pkt = Some true ->
  exists nf keys msg h data alg fd host n,
    ran cuser nf /\ keysign point_ok ver true cuser keys nf msg = Some (h, data, alg) /\
    says_request data sid user service alg blob chost cuser /\ service = bs "ssh-connection" /\
    nf fd = Some host /\ chost = n ++ [46] /\ same_name n host.
Proof.
  intros ran o fs p a sid user service pkt rawalg0 blob0 wh0 chost0 wc0 cuser0 rest0 Hv Hb Ls Lu Lsv Ns Bs Bu Bsv E0 La0 Lb0 Ch0 Cc0 H.
  apply C81_accepts in H as (rawalg & alg & blob & wh & chost & wc & cuser & sig & rest & k & ac & data & E & C1 & C3 & C4 & L1 & L2 & L5 & K1 & K2 & M & Ca & Rs & Ea & S & D & L & V); [|assumption].
  assert (Hb' := Hb). rewrite E0 in E, Hb. clear E0. apply enc_split in E as (-> & E); [|assumption..]. apply is_bytes_app in Hb as (Br & Hb).
  apply enc_split in E as (-> & E); [|assumption..]. apply is_bytes_app in Hb as (Bb & Hb).
  apply (ctext_split _ _ _ _ _ _ Hb Ch0 C3) in E as (-> & E). assert (Bh : is_bytes wh0) by now apply is_bytes_app in Hb. apply is_bytes_app in Hb as (_ & Hb).
  apply (ctext_split _ _ _ _ _ _ Hb Cc0 C4) in E as (-> & E). assert (Bc : is_bytes wc0) by now apply is_bytes_app in Hb.
  assert (CB : forall w v, ctext w v -> is_bytes w -> is_bytes v).
  { intros w v (_ & [[-> _]|[-> _]]) B; unfold enc_string in B; apply is_bytes_app in B as (_ & B); [assumption|]. now apply is_bytes_app in B. }
  assert (Bch := CB _ _ Ch0 Bh). assert (Bcu := CB _ _ Cc0 Bc).
  assert (EB : forall v, is_bytes v -> is_bytes (enc_string v)) by (intros v B; unfold enc_string; apply is_bytes_app; split; [apply be_enc_bytes|assumption]).
  assert (Bd : is_bytes data).
  { rewrite D, !is_bytes_app. splits; auto. - constructor; [split; lia|constructor]. - apply EB. vm_compute. repeat constructor; discriminate. }
  destruct (Hv _ _ _ _ K2 V) as (u & nf & keys & msg & h & R & Bm & G). pose proof G as G'. apply keysign_iff in G as (_ & fd & host & rest' & sid' & ruser & blob' & n & k' & _ & _ & N & _ & W & _ & Sn & _); [|assumption].
  assert (CL : forall w v, ctext w v -> zlen v <= 134217724) by (intros w v (_ & [[_ Q]|[_ Q]]); lia).
  assert (W' : says_request data sid user service alg blob chost cuser).
  { exists (enc_string service), (enc_string (bs "hostbased")), (enc_string rawalg), (enc_string cuser). splits; auto.
    - now apply ctext_enc. - apply ctext_enc; [|vm_compute; discriminate]. vm_compute. intuition discriminate.
    - apply ctext_enc; [apply Cc0|exact (CL _ _ Cc0)]. - apply Ch0. - exact (CL _ _ Ch0). }
  destruct (says_unique _ _ _ _ _ _ _ _ _ _ _ _ _ _ _ Bd W' W) as (_ & _ & Es & _ & _ & Eh & Eu). exists nf, keys, msg, h, data, alg, fd, host, n. rewrite Eu in *. splits; auto.
Qed.

(** C81.  Anything after the signature is accepted: a request with bytes appended to it
    fares as the request does. *)
Theorem C81_trailing : forall o fs p a sid user service pkt extra, is_bytes (pkt ++ extra) ->
  userauth_hostbased point_ok ver netgr revoked_key in_scope_now host_status ca_alg_ok rsa_size_ok verify o fs p a sid user service pkt = Some true ->
  userauth_hostbased point_ok ver netgr revoked_key in_scope_now host_status ca_alg_ok rsa_size_ok verify o fs p a sid user service (pkt ++ extra) = Some true.
Proof.
  intros o fs p a sid user service pkt extra Hb H. apply C81_accepts in H; [|now apply is_bytes_app in Hb].
  destruct H as (rawalg & alg & blob & wh & chost & wc & cuser & sig & rest & k & ac & data & -> & H). apply C81_accepts; [assumption|].
  exists rawalg, alg, blob, wh, chost, wc, cuser, sig, (rest ++ extra), k, ac, data. rewrite <- !app_assoc. split; [reflexivity|exact H].
Qed.
End Server.
Print Assumptions C81_accepts.
Print Assumptions C81_honest.
Print Assumptions C81_trailing.

(** ** Cases *)
Definition pk0 : list Z := repeat 7 32.
Definition k0 : key := mkKey (PEd pk0) None.
Definition blob0 : list Z := enc_string (bs "ssh-ed25519") ++ enc_string pk0.
Definition sid0 : list Z := repeat 1 32.
Definition no_point (c : curve) (p : list Z) : bool := false.
Definition no_ver (p : kpub) (a b : list Z) : bool := false.
Definition no_netgr (g : list Z) (h u : option (list Z)) : bool := false.
Definition names0 (fd : Z) : option (list Z) := if fd =? 3 then Some (bs "C.example") else None.
Definition data0 : list Z := match client_data sid0 (bs "bob") (bs "ssh-connection") (bs "ssh-ed25519") blob0 (bs "c.example") (bs "alice") with Some d => d | None => [] end.
Definition msg0 : list Z := match keysign_msg 3 data0 with Some m => m | None => [] end.
Example signs_own : keysign no_point no_ver true (bs "alice") [None; Some k0] names0 msg0 = Some (k0, data0, bs "ssh-ed25519").
Proof. vm_compute. reflexivity. Qed.
Example not_another : keysign no_point no_ver true (bs "mallory") [None; Some k0] names0 msg0 = None.
Proof. vm_compute. reflexivity. Qed.
Definition verify0 (k : key) (s d a : list Z) : bool := beqb s [9] && beqb d data0 && beqb a (bs "ssh-ed25519").
Definition text_fs (t : string) : rfs := mkFs (Some (mkNode 0 420 (Some (bs t ++ [10])))) None None None None.
Definition opts0 : hopts := mkOpts false true IgNo (bs "ssh-ed25519").
Definition status0 (second : bool) (k : key) (name : list Z) : hstat := if beqb name (bs "c.example") || beqb name (bs "nat.example") then HOk else HNew.
Definition pkt0 : list Z := enc_string (bs "ssh-ed25519") ++ enc_string blob0 ++ enc_string (bs "c.example.") ++ enc_string (bs "alice") ++ enc_string [9].
Definition serve (fs : rfs) (o : hopts) (p : peer) (pkt : list Z) : option bool :=
  userauth_hostbased no_point no_ver no_netgr (fun _ => false) (fun _ _ => true) status0 (fun _ => true) (fun _ => true) verify0
    o fs p (Some (mkAcct (bs "bob") 1000)) sid0 (bs "bob") (bs "ssh-connection") pkt.
Example accepted : serve (text_fs "c.example alice") opts0 (mkPeer (bs "c.example") (bs "10.0.0.1")) pkt0 = Some true.
Proof. vm_compute. reflexivity. Qed.
Example refused_user : serve (text_fs "c.example carol") opts0 (mkPeer (bs "c.example") (bs "10.0.0.1")) pkt0 = Some false.
Proof. vm_compute. reflexivity. Qed.
Example refused_negated : serve (text_fs "-c.example alice") opts0 (mkPeer (bs "c.example") (bs "10.0.0.1")) pkt0 = Some false.
Proof. vm_compute. reflexivity. Qed.
Example refused_wild : serve (text_fs "+ +") opts0 (mkPeer (bs "c.example") (bs "10.0.0.1")) pkt0 = Some false.
Proof. vm_compute. reflexivity. Qed.
(** The hypothesis of C81_honest holds of this world. *)
Example honest_world : forall k sig d alg, blob_of no_point no_ver blob0 k -> verify0 k sig d alg = true ->
  exists u nf keys msg h, (u = bs "alice" /\ nf = names0) /\ is_bytes msg /\ keysign no_point no_ver true u keys nf msg = Some (h, d, alg).
Proof.
  intros k sig d alg _ H. unfold verify0 in H. apply andb_true_iff in H as (H & A). apply andb_true_iff in H as (_ & D). apply beqb_eq in A, D. subst d alg.
  exists (bs "alice"), names0, [None; Some k0], msg0, k0. split; [auto|]. split; [|exact signs_own]. vm_compute. repeat constructor; discriminate.
Qed.

(** ** What does not hold *)

(** "A comment grants nothing": of a comment of more than 1023 bytes, what follows is
    read as a line. *)
Theorem C81_comment_refuted : exists t, hd 0 t = 35 /\ ~ In 10 t /\
  grants no_netgr (bs "bob") (bs "c.example") (bs "10.0.0.1") (bs "alice") (t ++ [10]).
Proof.
  exists (repeat 35 1023 ++ bs "c.example alice"). splits; [reflexivity| |].
  - intros I. apply in_app_iff in I as [I|I]; [apply repeat_spec in I; discriminate|]. vm_compute in I. intuition discriminate.
  - set (t := (repeat 35 1023 ++ bs "c.example alice") ++ [10]).
    assert (C : check_file no_netgr (Some (mkNode 0 420 (Some t))) (bs "c.example") (bs "10.0.0.1") (bs "alice") (bs "bob") = true) by (unfold t; vm_compute; reflexivity).
    apply file_iff in C as (n & t' & E & T & G). injection E as <-. cbn [n_text] in T. injection T as <-. exact G.
Qed.
Print Assumptions C81_comment_refuted.
(** "A negated line denies": it only ends the reading of its own file. *)
Theorem C81_negative_refuted : exists fs a hostname ip cuser t line,
  fs_equiv fs = Some (mkNode 0 420 (Some t)) /\ pieces t [line] /\ concerns no_netgr (ac_name a) hostname ip cuser line true /\
  rhosts_grant no_netgr true IgNo fs a cuser hostname ip.
Proof.
  exists (mkFs (Some (mkNode 0 420 (Some (bs "-c.example alice" ++ [10])))) None (Some (mkNode 1000 448 None)) None (Some (mkNode 1000 384 (Some (bs "c.example alice" ++ [10]))))),
    (mkAcct (bs "bob") 1000), (bs "c.example"), (bs "10.0.0.1"), (bs "alice"), (bs "-c.example alice" ++ [10]), (bs "-c.example alice" ++ [10]).
  splits; [reflexivity|apply pieces_iff; vm_compute; reflexivity|apply line_iff; vm_compute; reflexivity|apply rhosts_iff; vm_compute; reflexivity].
Qed.
Print Assumptions C81_negative_refuted.
(** "The name in the request is the name of the peer": without
    HostbasedUsesNameFromPacketOnly a difference is only logged. *)
Theorem C81_name_refuted : exists fs p pkt wh chost rest, is_bytes pkt /\
  pkt = enc_string (bs "ssh-ed25519") ++ enc_string blob0 ++ wh ++ rest /\ ctext wh chost /\
  (forall n, undotted chost n -> ~ same_name n (pe_name p)) /\ o_packet_name opts0 = false /\ serve fs opts0 p pkt = Some true.
Proof.
  exists (text_fs "10.0.0.1 alice"), (mkPeer (bs "nat.example") (bs "10.0.0.1")), pkt0, (enc_string (bs "c.example.")), (bs "c.example."), (enc_string (bs "alice") ++ enc_string [9]).
  split; [vm_compute; repeat constructor; discriminate|]. split; [reflexivity|]. split; [apply ctext_enc; [vm_compute; intuition discriminate|vm_compute; discriminate]|].
  split; [|split; [reflexivity|vm_compute; reflexivity]]. intros n U. apply strip_iff in U. subst n. vm_compute. discriminate.
Qed.
Print Assumptions C81_name_refuted.
