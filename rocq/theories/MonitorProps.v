(** C31, C32, C56: the privileged monitor. *)
From Coq Require Import String.
From Verif Require Import Base Text SshbufModel SshbufSpec Dec Auth2Model Auth2Spec Auth2Proof MonitorModel MonitorSpec MonitorProof MonitorProof2 MonitorProof3 MonitorProof4.

(** The bodies of the requests are bytes *)
Definition bytes_sent (es : list mev) : Prop := Forall (fun e => is_bytes (e_body e)) es.

(** ** C31 *)
(** Every request that is answered has the type byte of that request, is compiled in,
    and was open: opened at the start or by an earlier answer, and not closed since. *)
Theorem C31_order : forall c es tr f pre e o post, mrun c (minit c) es = (tr, f) -> tr = pre ++ (e, o) :: post ->
  e_type e = rq_num (o_rq o) /\ built c (o_rq o) /\ is_open c pre (o_rq o).
Proof. intros c es tr f pre e o post H E. destruct (run_answered _ _ _ _ _ _ _ _ H E) as (A & B & C & _). auto. Qed.
(** The requests of the set-up of the connection are answered at most once. *)
Theorem C31_once : forall c es tr f a x b y d, mrun c (minit c) es = (tr, f) -> tr = a ++ x :: b ++ y :: d ->
  In (rq_of x) [RState; RModuli; RSign; RPwnam; RAuthServ; RBanner; RPamStart] -> rq_of y <> rq_of x.
Proof.
  intros c es tr f a x b y d H E I Ey. destruct (once_all c tr (run_ordered _ _ _ _ H)) as (A1 & A2 & A3 & A4 & A5 & A6 & A7).
  cbn in I. decompose [or] I; try contradiction; match goal with R : ?r = rq_of x |- _ => symmetry in R; rewrite R in Ey; match goal with A : amo tr r |- _ => exact (A _ _ _ _ _ E R Ey) end end.
Qed.
(** What the unprivileged process needs before anything can be decided: a signature by
    a host key, the user, and, unless PAM is used, the service. *)
Theorem C31_needs : forall c es tr f pre e o post, mrun c (minit c) es = (tr, f) -> tr = pre ++ (e, o) :: post -> decides (o_rq o) = true ->
  exists x, In x pre /\ rq_of x = RPwnam /\ exists y, In y pre /\ rq_of y = RSign.
Proof.
  intros c es tr f pre e o post H E D. pose proof (run_ordered _ _ _ _ H) as O.
  assert (Up : forall p x q r, pre = p ++ x :: q -> rq_of x = r -> is_open c p r).
  { intros p x q r E1 E2. rewrite <- E2. apply (O p x (q ++ (e, o) :: post)). rewrite E, E1, <- app_assoc. reflexivity. }
  (* every request but those open at the start leads back to PWNAM or to SIGN *)
  assert (K : forall n p r, (length p <= n)%nat -> (exists q, pre = p ++ q) -> is_open c p r -> ~ open_at_start r -> r <> RPwnam -> exists x, In x p /\ rq_of x = RPwnam).
  { induction n as [|n IH]; intros p r L (q & Eq) Op N1 N2; destruct (opened_before _ _ _ Op N1) as (x & Ix & Ox).
    - destruct p; [destruct Ix|cbn in L; lia].
    - destruct (rq_eq_dec (rq_of x) RPwnam) as [Ex|Nx]; [eauto|]. apply in_split in Ix. destruct Ix as (p1 & p2 & ->). rewrite <- app_assoc in Eq. cbn [app] in Eq.
      assert (Nr : ~ open_at_start (rq_of x)) by (unfold opens in Ox; unfold open_at_start; destruct (rq_of x); cbn [decides] in Ox; intuition (try discriminate; congruence)).
      destruct (IH p1 (rq_of x)) as (z & Iz & Rz); [rewrite app_length in L; cbn in L; lia|eauto|eapply Up; [exact Eq|reflexivity]|exact Nr|exact Nx|]. exists z. split; [apply in_or_app; now left|exact Rz]. }
  destruct (C31_order _ _ _ _ _ _ _ _ H E) as (_ & _ & Op). destruct (K (length pre) pre (o_rq o)) as (x & Ix & Rx); [lia|exists []; now rewrite app_nil_r|exact Op| | |].
  - unfold open_at_start. destruct (o_rq o); try discriminate D; intuition discriminate.
  - intros X. rewrite X in D. discriminate.
  - exists x. split; [exact Ix|]. split; [exact Rx|]. apply in_split in Ix. destruct Ix as (p1 & p2 & E1). pose proof (Up _ _ _ _ E1 Rx) as Ox. destruct (opened_before _ _ _ Ox) as (y & Iy & Oy); [unfold open_at_start; intuition discriminate|]. exists y. split; [rewrite E1; apply in_or_app; now left|].
    unfold opens in Oy. destruct (rq_of y); cbn [decides] in Oy; try reflexivity; intuition discriminate.
Qed.
(** A request that decides authentication and reports success has passed its check. *)
Theorem C31_completed : forall c es tr f pre e o post, mrun c (minit c) es = (tr, f) -> bytes_sent es -> tr = pre ++ (e, o) :: post ->
  decides (o_rq o) = true -> o_one o = true -> passed c pre (e, o).
Proof.
  intros c es tr f pre e o post H B E D One. pose proof (run_bytes _ _ _ _ _ H B) as Bt. rewrite E in Bt. unfold hist_bytes in Bt. apply Forall_app in Bt. destruct Bt as [B1 B2]. inversion B2 as [|? ? B3 _]; subst.
  destruct (run_answered _ _ _ _ _ _ _ _ H eq_refl) as (_ & _ & _ & P & _). destruct (P B1 B3 One) as [X|[_ X]]; [rewrite X in D; discriminate|exact X].
Qed.
(** The phase before authentication ends with success only through a request that
    decides authentication and passed its check, for an account that exists, that is
    not root unless root may log in like this, that the PAM account check accepts if
    PAM is used, and, if AuthenticationMethods is set, when the methods completed so
    far contain those of one of its lists in order. *)
Theorem C31_success : forall c es tr s, mrun c (minit c) es = (tr, FAuth s) -> bytes_sent es ->
  exists pre e o user root, tr = pre ++ [(e, o)] /\
    decides (o_rq o) = true /\ o_one o = true /\ o_verdict o = Some Accepted /\ passed c pre (e, o) /\
    account pre user (Some root) /\ (root = true -> mroot_ok c (a_force (e_ans e)) (o_meth o)) /\
    (mc_pam c = true -> mc_usepam c = true -> a_acct (e_ans e) = Some true) /\
    (multi (mc_auth c) -> exists L, In L (cf_lists (mc_auth c)) /\ usable (mc_auth c) L /\ in_order (items L) (methods_done tr)).
Proof.
  intros c es tr s H B. pose proof (run_bytes _ _ _ _ _ H B) as Bt. destruct (run_inv c es [] (minit c) tr _ (inv_init c) H) as (_ & _ & D). destruct (D s eq_refl) as (pre & e & o & s0 & -> & I & Dn). cbn [app] in I.
  destruct (step_done _ _ _ _ _ _ I Dn) as [(S1 & S2 & S3 & S4 & S5 & S6 & S7) _]. unfold hist_bytes in Bt. apply Forall_app in Bt. destruct Bt as [B1 B2]. inversion B2 as [|? ? B3 _]; subst. destruct (S5 B1 B3) as (user & root & A1 & A2). exists pre, e, o, user, root. splits; auto.
Qed.
(** At most MaxAuthTries + 1 requests are refused. *)
Theorem C31_failures : forall c es tr f, mrun c (minit c) es = (tr, f) -> 0 <= cf_max (mc_auth c) -> zlen (filter is_failed tr) <= cf_max (mc_auth c) + 1.
Proof. intros c es tr f H M. exact (run_failures c es [] (minit c) tr f (inv_init c) M H). Qed.
(** After authentication only the requests of the second phase are answered, those
    about a terminal only if the user may have one. *)
Theorem C31_postauth : forall c es tr s pty es2 e r, mrun c (minit c) es = (tr, FAuth s) -> bytes_sent es -> bytes_sent es2 -> In (e, r) (post_run c (post_init c pty s) es2) ->
  e_type e = rq_num r /\ (r = RModuli \/ r = RSign \/ ((r = RAudit \/ r = RAuditCmd) /\ mc_audit c = true) \/ ((r = RPty \/ r = RPtyCleanup) /\ pty = true)).
Proof.
  intros c es tr s pty es2 e r H B B2 I. destruct (auth_sid _ _ _ _ H B) as [_ N]. destruct (post_spec c pty es2 (post_init c pty s) (m_sid s) (ptab_init c pty s) eq_refl N B2 e r I) as (P & T & _). split; [exact T|exact P].
Qed.

(** ** C32 *)
(** A signature is checked only if the last request about keys asked for exactly this
    key and it was granted, and only over data made for this session, this user and,
    for host-based authentication, the client user and host that were approved. *)
Theorem C32_approved : forall c es tr f pre e o post, mrun c (minit c) es = (tr, f) -> bytes_sent es -> tr = pre ++ (e, o) :: post -> o_rq o = RKeyVerify ->
  exists k cuser chost blob key sig data sid user root name,
    approved c pre k cuser chost blob key /\ keyverify_body (e_body e) blob sig data /\
    session_id c pre sid /\ account pre user (Some root) /\ styled pre user name /\
    match k with KUser => user_signed c sid name data | KHost => host_signed sid name cuser chost data end.
Proof.
  intros c es tr f pre e o post H B E R. pose proof (run_bytes _ _ _ _ _ H B) as Bt. rewrite E in Bt. unfold hist_bytes in Bt. apply Forall_app in Bt. destruct Bt as [B1 B2]. inversion B2 as [|? ? B3 _]; subst.
  destruct (run_answered _ _ _ _ _ _ _ _ H eq_refl) as (_ & _ & _ & _ & V). exact (V B1 B3 R).
Qed.
(** The approval is used up: between two verifications another one was granted. *)
Theorem C32_used_up : forall c es tr f a x b y d, mrun c (minit c) es = (tr, f) -> bytes_sent es -> tr = a ++ x :: b ++ y :: d ->
  rq_of x = RKeyVerify -> rq_of y = RKeyVerify -> exists z, In z b /\ rq_of z = RKeyAllowed /\ ok z = true.
Proof.
  intros c es tr f a x b [e o] d H B E Rx Ry. destruct (C32_approved c es tr f (a ++ x :: b) e o d H B) as (k & cu & ch & blob & key & sig & data & sid & u & ro & nm & Ap & _); [rewrite <- app_assoc; exact E|exact Ry|].
  destruct Ap as (e1 & o1 & L & R1 & _ & -> & Ok1 & _). clear - L R1 Ok1 Rx. revert L. induction b as [|w b' IH] using rev_ind; intros L.
  - exfalso. rewrite last_of_snoc in L. unfold keyish in L. rewrite (proj2 (is_rq_spec RKeyVerify x) Rx), orb_true_r in L. injection L as ->. unfold rq_of in Rx. cbn in Rx. congruence.
  - change (x :: b' ++ [w]) with ((x :: b') ++ [w]) in L. rewrite app_assoc, last_of_snoc in L. destruct (keyish w).
    + injection L as ->. exists (e1, o1). split; [apply in_or_app; right; now left|]. split; [exact R1|exact Ok1].
    + destruct (IH L) as (z & Iz & Z). exists z. split; [apply in_or_app; now left|exact Z].
Qed.
(** A key that has authenticated once is not verified again. *)
Theorem C32_distinct : forall c es tr f a e1 o1 b e2 o2 d, mrun c (minit c) es = (tr, f) -> bytes_sent es -> tr = a ++ (e1, o1) :: b ++ (e2, o2) :: d ->
  o_rq o1 = RKeyVerify -> o_one o1 = true -> o_rq o2 = RKeyVerify ->
  exists blob1 sig1 data1 key1 blob2 sig2 data2,
    keyverify_body (e_body e1) blob1 sig1 data1 /\ mc_parse c blob1 = Some key1 /\ keyverify_body (e_body e2) blob2 sig2 data2 /\ mc_same c blob2 key1 = false.
Proof. exact keys_distinct. Qed.

(** ** C56 *)
(** Before authentication, the one signature a host key makes is over data of the
    length of a hash, by one of the server's keys. *)
Theorem C56_before : forall c es tr f pre e o post, mrun c (minit c) es = (tr, f) -> bytes_sent es -> tr = pre ++ (e, o) :: post -> o_rq o = RSign ->
  exists blob data, sign_body c (e_body e) blob data /\ mc_host c blob = true /\ In (zlen data) [20; 32; 48; 64].
Proof.
  intros c es tr f pre e o post H B E R. destruct (sign_pre _ _ _ _ _ _ _ _ H B E R) as (blob & data & A & D & L). exists blob, data. splits; auto. unfold hash_len in L. rewrite !orb_true_iff, !Z.eqb_eq in L. cbn. intuition.
Qed.
(** Afterwards it may also be over the proof that the key belongs to the server, made
    for this session and this very key. *)
Theorem C56_after : forall c es tr s pty es2 e, mrun c (minit c) es = (tr, FAuth s) -> bytes_sent es -> bytes_sent es2 -> In (e, RSign) (post_run c (post_init c pty s) es2) ->
  exists blob data, sign_body c (e_body e) blob data /\ mc_host c blob = true /\
    (In (zlen data) [20; 32; 48; 64] \/
     exists sid, session_id c tr sid /\ data = enc_string (bs "hostkeys-prove-00@openssh.com") ++ enc_string sid ++ enc_string blob).
Proof.
  intros c es tr s pty es2 e H B B2 I. destruct (auth_sid _ _ _ _ H B) as [Sd N]. destruct (post_spec c pty es2 (post_init c pty s) (m_sid s) (ptab_init c pty s) eq_refl N B2 e RSign I) as (_ & _ & S). destruct (S eq_refl) as (blob & data & A & D & L).
  exists blob, data. splits; auto. destruct L as [L|L]; [left; unfold hash_len in L; rewrite !orb_true_iff, !Z.eqb_eq in L; cbn; intuition|right; exists (m_sid s); auto].
Qed.

(** ** Runs *)
Definition mconf (lists : list (list Z)) (pam : bool) : mcfg :=
  mkMcfg (mkCfg 6 lists (fun _ => true) true false PermitNoPasswd [bs "pam"]) pam false true pam false false false
    (fun b => if is_nil b then None else Some b) beqb (fun b => beqb b (bs "hostkey")).
Definition yesa : mans := mkMans true (Some false) true true false None (Some true).
Definition noa : mans := mkMans false None false false false None None.
Definition ask (r : rq) (b : list Z) (a : mans) : mev := mkMev (rq_num r) b a.
Definition SID : list Z := repeat 7 32.
Definition str (s : string) : list Z := enc_string (bs s).
Definition e_sign : mev := ask RSign (str "hostkey" ++ enc_string SID ++ str "ssh-ed25519" ++ [0;0;0;0]) yesa.
Definition e_pw : mev := ask RPwnam (str "al") yesa.
Definition e_serv : mev := ask RAuthServ (str "ssh-connection" ++ str "") yesa.
Definition e_allow (k : string) (a : mans) : mev := ask RKeyAllowed ([0;0;0;2] ++ str "" ++ str "" ++ str k ++ [0;0;0;1]) a.
Definition udata (k : string) : list Z := enc_string SID ++ [50] ++ str "al" ++ str "ssh-connection" ++ str "publickey" ++ [1] ++ str "ssh-ed25519" ++ str k.
Definition e_verify (k k2 : string) (a : mans) : mev := ask RKeyVerify (str k ++ str "sig" ++ enc_string (udata k2) ++ str "ssh-ed25519") a.
Definition shown (x : list (mev * ob) * fin) := (map (fun y => (o_rq (snd y), o_one (snd y), o_verdict (snd y))) (fst x), match snd x with FAuth _ => true | _ => false end).
(** Two keys are asked for and used; another password request in between is refused *)
Example C31_ex : shown (mrun (mconf [bs "publickey,publickey"] false) (minit (mconf [bs "publickey,publickey"] false))
    [e_sign; e_pw; e_serv; e_allow "k1" noa; e_allow "k1" yesa; e_verify "k1" "k1" yesa; ask RPasswd (str "x") noa; e_allow "k2" yesa; e_verify "k2" "k2" yesa; e_pw]) =
  ([(RSign, false, None); (RPwnam, false, None); (RAuthServ, false, None); (RKeyAllowed, false, None); (RKeyAllowed, false, None);
    (RKeyVerify, true, Some Partial); (RPasswd, false, Some Failed); (RKeyAllowed, false, None); (RKeyVerify, true, Some Accepted)], true).
Proof. vm_compute. reflexivity. Qed.
Example C31_ex_bytes : bytes_sent [e_sign; e_pw; e_serv; e_allow "k1" yesa; e_verify "k1" "k1" yesa; ask RPasswd (str "x") noa].
Proof. unfold bytes_sent. repeat constructor; cbn; lia. Qed.
Example C31_ex_multi : multi (mconf [bs "publickey,publickey"] false).(mc_auth).
Proof. split; [discriminate|]. intros H. discriminate H. Qed.
(** Nothing is decided before the user is known, and a request is not repeated *)
Example C31_ex_order : let c := mconf [] false in
  shown (mrun c (minit c) [e_sign; ask RPasswd (str "x") yesa]) = ([(RSign, false, None)], false) /\
  shown (mrun c (minit c) [e_sign; e_pw; e_pw]) = ([(RSign, false, None); (RPwnam, false, None)], false) /\
  shown (mrun c (minit c) [e_sign; e_sign]) = ([(RSign, false, None)], false) /\
  shown (mrun c (minit c) [e_sign; e_pw; e_serv; ask RPasswd (str "x") yesa]) = ([(RSign, false, None); (RPwnam, false, None); (RAuthServ, false, None); (RPasswd, true, Some Accepted)], true).
Proof. vm_compute. auto. Qed.
(** With PAM, the account check is asked for *)
Example C31_ex_pam : let c := mconf [] true in
  shown (mrun c (minit c) [e_sign; e_pw; ask RPamStart [] yesa; e_serv; ask RPamInit [] yesa; ask RPamQuery [] noa; ask RPamRespond [0;0;0;0] yesa; ask RPamFree [] yesa]) =
    ([(RSign, false, None); (RPwnam, false, None); (RPamStart, false, None); (RAuthServ, false, None); (RPamInit, false, None); (RPamQuery, false, None); (RPamRespond, false, None); (RPamFree, true, Some Accepted)], true) /\
  snd (shown (mrun c (minit c) [e_sign; e_pw; ask RPamStart [] yesa; e_serv; ask RPasswd (str "x") (mkMans true None false false false None (Some false))])) = false.
Proof. vm_compute. auto. Qed.
(** "A once-only request is answered at most once" does not hold of every request the
    table marks so: those of the PAM conversation are enabled again. *)
Theorem C31_once_all_refuted : exists c es tr f a x b y d, mrun c (minit c) es = (tr, f) /\ tr = a ++ x :: b ++ y :: d /\ once (rq_of x) = true /\ rq_of y = rq_of x.
Proof.
  set (c := mconf [] true). set (es := [e_sign; e_pw; ask RPamStart [] yesa; e_serv; ask RPamInit [] yesa; ask RPamFree [] noa; ask RPamInit [] yesa]).
  destruct (mrun c (minit c) es) as [tr f] eqn:E. exists c, es, tr, f. pose proof (f_equal fst E) as E1. vm_compute in E1. cbn [fst] in E1. match type of E1 with [?t1; ?t2; ?t3; ?t4; ?t5; ?t6; ?t7] = _ => exists [t1; t2; t3; t4], t5, [t6], t7, [] end. split; [exact E|]. split; [symmetry; exact E1|]. split; reflexivity.
Qed.
(** The check of the GSSAPI message code is not needed for success. *)
Theorem C31_mic_not_required : exists c es tr s, mrun c (minit c) es = (tr, FAuth s) /\ bytes_sent es /\ Forall (fun x => rq_of x <> RGssMic) tr /\ exists x, In x tr /\ o_meth (snd x) = bs "gssapi-with-mic" /\ o_verdict (snd x) = Some Accepted.
Proof.
  set (c := mconf [] false). set (es := [e_sign; e_pw; e_serv; ask RGssSetup (str "oid") yesa; ask RGssStep (str "token") yesa; ask RGssUserok [] yesa]).
  assert (S : match mrun c (minit c) es with (tr, FAuth _) => forallb (fun x => negb (is_rq RGssMic x)) tr && existsb (fun x => beqb (o_meth (snd x)) (bs "gssapi-with-mic") && match o_verdict (snd x) with Some Accepted => true | _ => false end) tr | _ => false end = true) by (vm_compute; reflexivity).
  destruct (mrun c (minit c) es) as [tr [s| |s]] eqn:E; try discriminate S. exists c, es, tr, s. apply andb_true_iff in S. destruct S as [S1 S2]. split; [exact E|]. split; [unfold bytes_sent, es; repeat constructor; cbn; lia|]. split.
  - apply Forall_forall. intros x Ix R. rewrite forallb_forall in S1. specialize (S1 x Ix). rewrite (proj2 (is_rq_spec _ _) R) in S1. discriminate.
  - apply existsb_exists in S2. destruct S2 as (x & Ix & S2). apply andb_true_iff in S2. destruct S2 as [S2 S3]. exists x. split; [exact Ix|]. split; [now apply beqb_eq|]. destruct (o_verdict (snd x)) as [[]|]; try discriminate. reflexivity.
Qed.
(** A key must be approved, the approval serves once, the same key does not serve twice *)
Example C32_ex : let c := mconf [bs "publickey,publickey"] false in let go l := shown (mrun c (minit c) (e_sign :: e_pw :: e_serv :: l)) in let start := [(RSign, false, None); (RPwnam, false, None); (RAuthServ, false, None)] in
  go [e_verify "k1" "k1" yesa] = (start, false) /\
  go [e_allow "k1" yesa; e_verify "k2" "k2" yesa] = (start ++ [(RKeyAllowed, false, None)], false) /\
  go [e_allow "k1" yesa; e_verify "k1" "k1" noa; e_verify "k1" "k1" yesa] = (start ++ [(RKeyAllowed, false, None); (RKeyVerify, false, Some Failed)], false) /\
  go [e_allow "k1" yesa; e_verify "k1" "k1" yesa; e_allow "k1" yesa; e_verify "k1" "k1" yesa] = (start ++ [(RKeyAllowed, false, None); (RKeyVerify, true, Some Partial); (RKeyAllowed, false, None)], false).
Proof. vm_compute. auto. Qed.
(** The key named inside the signed data is not compared with the approved one. *)
Theorem C32_inner_key_not_compared : exists c es tr s pre e o k cuser chost blob key sig head blob2, mrun c (minit c) es = (tr, FAuth s) /\ bytes_sent es /\ tr = pre ++ [(e, o)] /\
  approved c pre k cuser chost blob key /\ keyverify_body (e_body e) blob sig (head ++ enc_string blob2) /\ user_signed c SID (bs "al") (head ++ enc_string blob2) /\ blob2 <> blob.
Proof.
  set (c := mconf [] false). set (es := [e_sign; e_pw; e_serv; e_allow "k1" yesa; e_verify "k1" "k2" yesa]). set (hd := enc_string SID ++ [50] ++ str "al" ++ str "ssh-connection" ++ str "publickey" ++ [1] ++ str "ssh-ed25519").
  assert (S : match mrun c (minit c) es with (tr, FAuth _) => true | _ => false end = true) by (vm_compute; reflexivity).
  destruct (mrun c (minit c) es) as [tr [s| |s]] eqn:E; try discriminate S. pose proof (f_equal fst E) as E1. vm_compute in E1. cbn [fst] in E1.
  match type of E1 with [?t1; ?t2; ?t3; ?t4; (?e5, ?o5)] = _ => exists c, es, tr, s, [t1; t2; t3; t4], e5, o5, KUser, [], [], (bs "k1"), yesa, (bs "sig"), hd, (bs "k2") end. split; [exact E|].
  split; [unfold bytes_sent, es; repeat constructor; cbn; lia|]. split; [symmetry; exact E1|]. split; [|split; [|split]].
  - unfold approved. eexists. eexists. split; [vm_compute; reflexivity|]. split; [reflexivity|]. split; [|split; [reflexivity|split; reflexivity]]. exists (str ""), (str ""), (bs "k1"), [0;0;0;1]. split; [vm_compute; reflexivity|]. split; [split; [intros []|now left]|]. split; [split; [intros []|now left]|]. reflexivity.
  - exists (str "ssh-ed25519"). vm_compute. reflexivity.
  - exists (str "al"), (bs "ssh-connection"), (str "publickey"), (bs "publickey"), 1, (bs "ssh-ed25519"), (bs "k2"), []. split; [vm_compute; reflexivity|]. split; [split; [cbn; intuition lia|now left]|]. split; [split; [cbn; intuition lia|now left]|]. split; [lia|]. left. split; reflexivity.
  - discriminate.
Qed.
(** A proof for this session and key is signed after authentication, any other not *)
Example C56_ex : let c := mconf [] false in
  match mrun c (minit c) [e_sign; e_pw; e_serv; ask RPasswd (str "x") yesa] with
  | (_, FAuth s) =>
      let pr sid := enc_string (str "hostkeys-prove-00@openssh.com" ++ enc_string sid ++ str "hostkey") in
      let sg d := ask RSign (str "hostkey" ++ d ++ str "ssh-ed25519" ++ [0;0;0;0]) yesa in
      map snd (post_run c (post_init c true s) [sg (pr SID); ask RPty [] yesa; sg (enc_string SID); sg (pr (bs "other"))]) = [RSign; RPty; RSign] /\
      map snd (post_run c (post_init c false s) [sg (pr SID); ask RPty [] yesa]) = [RSign]
  | _ => False
  end.
Proof. vm_compute. auto. Qed.

Print Assumptions C31_order.
Print Assumptions C31_once.
Print Assumptions C31_needs.
Print Assumptions C31_completed.
Print Assumptions C31_success.
Print Assumptions C31_failures.
Print Assumptions C31_postauth.
Print Assumptions C31_once_all_refuted.
Print Assumptions C31_mic_not_required.
Print Assumptions C32_approved.
Print Assumptions C32_used_up.
Print Assumptions C32_distinct.
Print Assumptions C32_inner_key_not_compared.
Print Assumptions C56_before.
Print Assumptions C56_after.
