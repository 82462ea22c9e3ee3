(** C41-C44, C59-C62: the authentication agent. *)
From Coq Require Import String.
From Verif Require Import Base Text SshbufModel SshbufSpec SshbufProof WireSpec WireProof MatchModel MatchSpec MatchProof MiscNumModel Dec AuthOptModel AgentModel AgentSpec AgentProof AgentProof2 AgentProof3 AgentProof4 AgentProof5 AgentProof6 AgentProof7.
From Verif Require KrlProof5.
Open Scope Z_scope.

(** ** A world for the examples: keys are their blobs, a blob starting with 7 is a
    FIDO key for an application, signatures prepend the key, the kdf appends the
    salt *)
Definition key0 (b : list Z) : akey := AKey b 1 None (match b with 7 :: _ => Some (bs "https://web", 1) | _ => None end).
Definition cfg0 : cfg := mkCfg 0 (bs "/usr/lib/*") false true (bs "ssh:*")
  (fun b => if is_nil b then None else Some (key0 b))
  (fun b => match get_str b with Some (k, r) => Some (key0 k, r) | None => None end)
  (fun k sig sid => beqb sig (k_blob k ++ sid)) (fun pw salt => pw ++ salt) (fun _ => 1) (fun a b => beqb (k_blob a) (k_blob b)).
Definition env0 (now : Z) (yes : bool) : env := mkEnv now [9; 9] yes (fun _ _ => true) (fun _ _ d _ _ => SigOk d) (fun p => Some p)
  (fun _ _ => [(key0 [4; 4], None)]) (fun _ _ => None) (fun _ => true) true (fun _ _ => true).
(** One whole request on connection 1 *)
Definition ask (now : Z) (yes : bool) (req : list Z) : list event := [EvData 1 (enc_string req); EvMessage 1 (env0 now yes)].
Definition history (reqs : list (list Z)) : list event := EvAccept :: concat (map (ask 100 true) reqs).
Definition trace (r : ares) : option (list obs) := match r with Exit => None | Run _ os => Some os end.
Definition table (r : ares) : option (list (list Z * Z)) := match r with Exit => None | Run a _ => Some (map (fun i => (k_blob (i_key i), i_death i)) (keys a)) end.
Definition add_req (k : list Z) (cons : list Z) : list Z := 25 :: enc_string k ++ enc_string (bs "k") ++ cons.
Definition sign_req (k data : list Z) : list Z := 13 :: enc_string k ++ enc_string data ++ [0; 0; 0; 0].
Definition bind_req (k sid : list Z) (fwd : Z) : list Z := 27 :: enc_string (bs "session-bind@openssh.com") ++ enc_string k ++ enc_string sid ++ enc_string (k ++ sid) ++ [fwd].
Definition replies (r : ares) : option (list (list Z)) :=
  option_map (fun os => concat (map (fun o => match o with OReply _ x => [x] | _ => [] end) os)) (trace r).

(** ** C41 *)
(** Once a lock request succeeded, and as long as no unlock request carries a
    passphrase with the same hash (under the salt drawn when locking), whatever
    happens on whichever connection: every request is answered with failure or, if
    it asked for the list of keys, with the empty list; no key is used, nobody is
    asked, no module is loaded; and the keys are those from before, less those
    dropped by sweeps and SIGUSR1. *)
Theorem C41_locked : forall c a n en a1 os req pw evs a2 tr,
  reachable c a -> step c a (EvMessage n en) = Run a1 os -> In (OReply req success) os -> lock_request req pw ->
  Forall ev_ok evs -> runs c a1 evs = Run a2 tr ->
  (forall req' r pw', In (OReply req' r) tr -> unlock_request req' pw' -> c_kdf c pw' (e_salt en) <> c_kdf c pw (e_salt en)) ->
  (forall o, In o tr -> exists req' r, o = OReply req' r /\ (r = failure \/ (exists b, req' = 11 :: b) /\ r = empty_list)) /\
  keys a2 = swept evs (keys a).
Proof.
  intros c a n en a1 os req pw evs a2 tr R S Ho L E R2 U. pose proof (reach_inv _ _ R) as I0. destruct (lock_takes _ _ _ _ _ _ _ _ I0 S Ho L) as (L1 & K & _).
  destruct (locked_runs c pw (e_salt en) evs a1 a2 tr) as (_ & K2 & O); auto; [now apply (step_inv c a (EvMessage n en) a1 os I0 I S)|]. split; [exact O|]. now rewrite K2, K.
Qed.
Print Assumptions C41_locked.
(** The same passphrase ends it; another ends it only by a collision of the hash. *)
Theorem C41_unlock : forall c a n en a1 os req pw evs a2 tr n' en' a3 os' req' r pw',
  reachable c a -> step c a (EvMessage n en) = Run a1 os -> In (OReply req success) os -> lock_request req pw ->
  Forall ev_ok evs -> runs c a1 evs = Run a2 tr ->
  (forall req' r pw', In (OReply req' r) tr -> unlock_request req' pw' -> c_kdf c pw' (e_salt en) <> c_kdf c pw (e_salt en)) ->
  step c a2 (EvMessage n' en') = Run a3 os' -> In (OReply req' r) os' -> unlock_request req' pw' ->
  (r = success <-> pw' <> [] /\ c_kdf c pw' (e_salt en) = c_kdf c pw (e_salt en)) /\ (pw' = pw -> r = success) /\
  (r = success -> g_locked (a_core a3) = false) /\ keys a3 = keys a2.
Proof.
  intros c a n en a1 os req pw evs a2 tr n' en' a3 os' req' r pw' R S Ho L E R2 U S3 Ho3 U3. pose proof (reach_inv _ _ R) as I0. destruct (lock_takes _ _ _ _ _ _ _ _ I0 S Ho L) as (L1 & K & _ & Np).
  assert (I1 : Inv c a1) by exact (step_inv c a (EvMessage n en) a1 os I0 I S).
  destruct (locked_runs c pw (e_salt en) evs a1 a2 tr) as (L2 & _ & _); auto. assert (I2 : Inv c a2) by exact (runs_inv c evs a1 a2 tr I1 E R2).
  destruct (unlock_iff _ _ _ _ _ _ _ _ _ _ _ I2 L2 S3 Ho3 U3) as (A & B & C). splits; auto. intros ->. apply A. auto.
Qed.
Print Assumptions C41_unlock.
Example C41_ex :
  replies (runs cfg0 agent_init (history [add_req [1] []; 22 :: enc_string (bs "pw"); [11]; sign_req [1] [5]; [19]; add_req [2] []; 23 :: enc_string (bs "px"); 23 :: enc_string (bs "pw"); [11]; sign_req [1] [5]]))
  = Some [success; success; empty_list; failure; failure; failure; failure; success; 12 :: be_enc 4 1 ++ enc_string [1] ++ enc_string (bs "k"); 14 :: enc_string [5]].
Proof. vm_compute. reflexivity. Qed.

(** ** C42 *)
(** Whenever the private key of a destination-constrained identity is used, the
    connection is bound; the data is a well-formed public key authentication
    request, with this very key, for the session bound last; every hop of the
    bound path (forwardings, then this login) is allowed by some constraint, the
    last one for this user; and the host key named in the request is the one bound
    last (it may be missing only if there is just one hop). *)
Theorem C42_sign : forall c a n en a' os i data, reachable c a -> step c a (EvMessage n en) = Run a' os -> In (OSign i data) os ->
  In i (keys a) /\
  (i_dcs i <> [] -> exists e p b user hk k, conn a n = Some e /\ s_ids e = p ++ [b] /\ same_key k (i_key i) /\
     userauth_request c data (b_sid b) user k hk /\ allowed_path en (i_dcs i) user None (s_ids e) /\
     match hk with Some h => same_key h (b_key b) | None => p = [] end).
Proof.
  intros c a n en a' os i data R S Ho. pose proof (reach_inv _ _ R) as I0. destruct (sign_step _ _ _ _ _ _ _ _ I0 S Ho) as (e & rest & b & C & B & K & _ & _).
  destruct (sign_obs _ _ _ _ _ _ _ B K) as [(K1 & Bd & k & Sk & D & _) _]. split; [exact K1|]. intros Nd. unfold dest_ok in D. destruct (is_nil (i_dcs i)) eqn:E; [destruct (i_dcs i); [congruence|discriminate]|].
  cbn [quiet s_ids] in D. destruct (last_bind (s_ids e)) as [x|] eqn:L; [|discriminate]. destruct (proj1 (last_bind_spec _ _) L) as (p & Ep).
  destruct (parse_userauth_request c data k) as [[[user sid] hk]|] eqn:U; [|discriminate]. apply userauth_spec in U; [|assumption].
  apply andb_prop in D as [D D4]. apply andb_prop in D as [D D3]. apply andb_prop in D as [D1 D2]. apply beqb_eq in D2. subst sid.
  exists e, p, x, user, hk, k. split; [assumption|]. split; [assumption|]. split; [assumption|]. split; [assumption|]. split.
  - unfold identity_permitted in D1. rewrite E in D1. cbn [quiet s_ids s_attempted] in D1. destruct (_ && _); [discriminate|]. rewrite L in D1. apply andb_prop in D1 as [D1 _].
    apply walk_iff in D1; [assumption|]. rewrite Ep. now destruct p.
  - destruct hk as [h|]; [now apply beqb_eq|]. cbn [is_some negb] in D3. rewrite Bool.andb_true_r in D3. rewrite Ep, zlen_app in D3. change (zlen [x]) with 1 in D3.
    apply zlen_zero_nil. pose proof (zlen_nonneg _ p). destruct (1 <? zlen p + 1) eqn:Q; [discriminate|lia].
Qed.
Print Assumptions C42_sign.
(** Constraints do not change on their own: an identity of the table stays what it
    was, or is the result of a request to add it, answered with success. *)
Theorem C42_kept : forall c a ev a' os i, reachable c a -> step c a ev = Run a' os -> In i (keys a') ->
  In i (keys a) \/ exists n en req, ev = EvMessage n en /\ add_request req /\ In (OReply req success) os.
Proof.
  intros c a ev a' os i R S Hi. destruct (step_ids _ _ _ _ _ _ (reach_inv _ _ R) S Hi) as [K|(n & en & e & rest & t & b & -> & _ & Ho & _ & O)]; [now left|].
  right. exists n, en, (t :: b). split; [reflexivity|]. split; [now apply origin_type in O|assumption].
Qed.
Print Assumptions C42_kept.
(** The constraints recorded are exactly those written by ssh-add. *)
Theorem C42_recorded : forall c a n en a' os pk k cm dcs, reachable c a -> step c a (EvMessage n en) = Run a' os ->
  (forall more, c_priv c (pk ++ more) = Some (k, more)) -> ~ In 0 cm -> Forall (dcon_ok c) dcs -> zlen dcs <= 1024 ->
  In (OReply (25 :: pk ++ enc_string cm ++ enc_dest dcs) success) os ->
  exists i, In i (keys a') /\ i_key i = k /\ i_comment i = cm /\ i_dcs i = dcs /\ forall j, In j (keys a') -> same_key (i_key j) k -> j = i.
Proof.
  intros c a n en a' os pk k cm dcs R S Hk Nc F Ld Ho. pose proof (reach_inv _ _ R) as I0.
  assert (Lz : zlen (concat (map enc_dcon dcs)) <= 134217724).
  { destruct (reply_inv _ _ _ _ _ _ _ _ I0 S Ho) as (e & rest & t' & b & e1 & os1 & out & _ & Eb & _ & _ & Lb & _). assert (b = pk ++ enc_string cm ++ enc_dest dcs) as -> by congruence.
    unfold enc_dest in Lb. rewrite !zlen_app, zlen_cons, !zlen_app, !zlen_enc in Lb. clear - Lb.
    pose proof (zlen_nonneg _ pk). pose proof (zlen_nonneg _ cm). pose proof (zlen_nonneg _ (bs "restrict-destination-v00@openssh.com")). lia. }
  destruct (add_effect c a n en a' os 25 pk cm (enc_dest dcs) (mkKC 0 false 0 None dcs false []) I0 S (or_intror eq_refl) Ho Nc k Hk) as (i & Hi & K1 & K2 & _ & _ & K3 & K4).
  { apply dest_back; auto. }
  exists i. auto.
Qed.
Print Assumptions C42_recorded.
(** One hop, then a path of two; a key without the permission for the second
    machine; the wrong user; a session that is not the last *)
Definition hostA : hop := mkHop None (Some (bs "a")) [(key0 [50], false)].
Definition hostB : hop := mkHop (Some (bs "us*")) (Some (bs "b")) [(key0 [51], false)].
Definition origin0 : hop := mkHop None None [].
Definition dcs0 : list dcon := [mkDC origin0 hostA; mkDC hostA hostB].
Definition login (sid user k : list Z) (hk : list Z) : list Z :=
  enc_string sid ++ [50] ++ enc_string user ++ enc_string (bs "ssh-connection") ++ enc_string (bs "publickey-hostbound-v00@openssh.com") ++ [1] ++ enc_string (bs "ed") ++ enc_string k ++ enc_string hk.
Example C42_ex :
  Forall (dcon_ok cfg0) dcs0 /\
  replies (runs cfg0 agent_init (history [add_req [1] (enc_dest dcs0); sign_req [1] (login [60] (bs "user") [1] [50]);
    bind_req [50] [60] 1; sign_req [1] (login [60] (bs "user") [1] [50]); bind_req [51] [61] 0;
    sign_req [1] (login [61] (bs "root") [1] [51]); sign_req [1] (login [60] (bs "user") [1] [51]); sign_req [1] (login [61] (bs "user") [1] [50]);
    sign_req [1] (login [61] (bs "user") [1] [51]); sign_req [1] [3]]))
  = Some [success; failure; success; failure; success; failure; failure; failure; 14 :: enc_string (login [61] (bs "user") [1] [51]); failure].
Proof.
  split; [|vm_compute; reflexivity].
  assert (A : hop_ok cfg0 hostA) by (split; [discriminate|split; [intros u E; injection E as <-; split; [discriminate|cbn; intuition discriminate]|constructor; [reflexivity|constructor]]]).
  assert (B : hop_ok cfg0 hostB) by (split; [intros u E; injection E as <-; split; [discriminate|cbn; intuition discriminate]|split; [intros u E; injection E as <-; split; [discriminate|cbn; intuition discriminate]|constructor; [reflexivity|constructor]]]).
  assert (O : hop_ok cfg0 origin0) by (split; [discriminate|split; [discriminate|constructor]]).
  constructor; [|constructor; [|constructor]]; (split; [assumption|]; split; [assumption|]; split; [reflexivity|]; split; [split; (discriminate || reflexivity)|]; split; discriminate).
Qed.
(** Finding: an empty list of destinations is accepted and restricts nothing (the
    key may be used as if it had been added without the constraint, where "no
    destination" was asked for): ssh-agent.c:1219-1241. *)
Theorem C42_empty_list_refuted : exists a tr i data, runs cfg0 agent_init (history [add_req [1] (enc_dest []); sign_req [1] data]) = Run a tr /\
  In (OReply (add_req [1] (enc_dest [])) success) tr /\ In (OSign i data) tr /\ i_key i = key0 [1].
Proof.
  eexists. eexists. exists (mkI (key0 [1]) (bs "k") None 0 false None []), [3]. split; [vm_compute; reflexivity|]. split; [vm_compute; auto|]. split; [vm_compute; auto|reflexivity].
Qed.
Print Assumptions C42_empty_list_refuted.

(** ** C43 *)
(** On every connection of every reachable state: only the last binding may be
    for authentication, session ids are different, there are at most 16, and each
    was signed by its host key. *)
Theorem C43_bindings : forall c a n e, reachable c a -> conn a n = Some e -> bindings_ok c (s_ids e).
Proof.
  intros c a n e R C. destruct (reach_inv _ _ R) as [_ S]. destruct (conn_nth _ _ _ C) as [N _]. rewrite Forall_forall in S. now destruct (S e (nth_error_In _ _ N)) as (_ & B & _).
Qed.
Print Assumptions C43_bindings.
(** A connection begins without bindings; a step keeps them all or adds one at the
    end: that of a bind request on this connection, signed by the host key and
    answered with success. *)
Theorem C43_append_only : forall c a ev a' os n e', reachable c a -> step c a ev = Run a' os -> conn a' n = Some e' ->
  (exists e, conn a n = Some e /\ (s_attempted e = true -> s_attempted e' = true) /\
     (s_ids e' = s_ids e \/ exists en req k sid sig fwd, ev = EvMessage n en /\ In (OReply req success) os /\ bind_request c req k sid sig fwd /\
        c_verify c k sig sid = true /\ s_ids e' = s_ids e ++ [mkHS k sid (negb (fwd =? 0))])) \/
  (conn a n = None /\ ev = EvAccept /\ s_ids e' = [] /\ s_attempted e' = false).
Proof. intros c a ev a' os n e' R. apply step_binds. now apply reach_inv. Qed.
Print Assumptions C43_append_only.
(** Success means that the session is on record with this key, for session ids
    of up to 128 bytes ... *)
Theorem C43_truthful : forall c a n en a' os req k sid sig fwd, reachable c a -> step c a (EvMessage n en) = Run a' os -> In (OReply req success) os -> bind_request c req k sid sig fwd -> zlen sid <= 128 ->
  exists e' b, conn a' n = Some e' /\ In b (s_ids e') /\ same_key k (b_key b) /\ b_sid b = sid.
Proof. intros c a n en a' os req k sid sig fwd R. apply truthful. now apply reach_inv. Qed.
Print Assumptions C43_truthful.
Example C43_ex :
  replies (runs cfg0 agent_init (history [bind_req [50] [60] 1; bind_req [51] [60] 1; bind_req [50] [60] 1; bind_req [51] [61] 0; bind_req [52] [62] 0])) = Some [success; failure; success; success; failure].
Proof. vm_compute. reflexivity. Qed.
(** ... longer ones are answered with success and not recorded (ssh-agent.c:1721)
    whatever the signature; *)
Theorem C43_long_sid_refuted : exists a tr k sid fwd sig req, runs cfg0 agent_init (history [req]) = Run a tr /\
  bind_request cfg0 req k sid sig fwd /\ In (OReply req success) tr /\ c_verify cfg0 k sig sid = false /\ exists e, conn a 1 = Some e /\ s_ids e = [].
Proof.
  eexists. eexists. exists (key0 [50]), (repeat 1 129), 1, [], (27 :: enc_string (bs "session-bind@openssh.com") ++ enc_string [50] ++ enc_string (repeat 1 129) ++ enc_string [] ++ [1]).
  split; [vm_compute; reflexivity|]. split.
  - exists (bs "session-bind@openssh.com"), (enc_string [50]), []. split; [split; [cbn; intuition discriminate|now left]|]. split; [exists [50]; split; reflexivity|]. split; [lia|reflexivity].
  - split; [vm_compute; auto|]. split; [vm_compute; reflexivity|]. eexists. split; vm_compute; reflexivity.
Qed.
Print Assumptions C43_long_sid_refuted.
(** and binding again the same session for authentication instead of forwarding is
    answered with success, while the record stays (ssh-agent.c:1745-1754). *)
Theorem C43_flag_refuted : exists a tr, runs cfg0 agent_init (history [bind_req [50] [60] 1; bind_req [50] [60] 0]) = Run a tr /\
  In (OReply (bind_req [50] [60] 0) success) tr /\ exists e, conn a 1 = Some e /\ s_ids e = [mkHS (key0 [50]) [60] true].
Proof. eexists. eexists. split; [vm_compute; reflexivity|]. split; [vm_compute; auto|]. eexists. split; vm_compute; reflexivity. Qed.
Print Assumptions C43_flag_refuted.

(** ** C44 *)
(** A sweep at time t removes exactly the keys whose lifetime ended at or before t
    and reports the time to the earliest remaining expiry, or 0 if there is none. *)
Theorem C44_sweep : forall c a t a' os, reachable c a -> step c a (EvSweep t) = Run a' os -> 0 <= t ->
  (forall i, In i (keys a') <-> In i (keys a) /\ (i_death i = 0 \/ t < i_death i)) /\
  let wait := snd (reaper t (a_core a)) in
  (wait = 0 /\ (forall i, In i (keys a') -> i_death i = 0) \/
   0 < wait /\ (exists i, In i (keys a') /\ i_death i = t + wait) /\ forall i, In i (keys a') -> i_death i <> 0 -> t + wait <= i_death i).
Proof.
  intros c a t a' os R S Ht. injection S as <- <-. unfold keys. cbn [a_core]. rewrite reaper_ids.
  assert (F : forall i, In i (filter (fun i => negb (expired t i)) (g_ids (a_core a))) <-> In i (g_ids (a_core a)) /\ (i_death i = 0 \/ t < i_death i)).
  { intros i. rewrite filter_In. unfold expired. split; intros [A B]; (split; [assumption|]); [destruct (i_death i =? 0) eqn:E1; [left; lia|]; cbn [negb andb] in B; right; lia|].
    destruct (i_death i =? 0) eqn:E1; [reflexivity|]. cbn [negb andb]. lia. }
  split; [exact F|]. cbv zeta. pose proof (reap_loop_deadline t (g_ids (a_core a)) 0 (or_introl eq_refl) Ht) as D. cbv zeta in D. unfold reaper. destruct (reap_loop t (g_ids (a_core a)) 0) as [l d]. cbn [snd] in *.
  destruct D as (D1 & _ & D3). destruct (d =? 0) eqn:E.
  - left. cbn [orb]. split; [reflexivity|]. intros i Hi. apply F in Hi as [Hi [Q|Q]]; [assumption|]. destruct (Z.eq_dec (i_death i) 0) as [?|N]; [assumption|]. destruct (D1 i Hi N Q). lia.
  - destruct D3 as [D3|(i & Hi & N & Q & Ed)]; [lia|]. cbn [orb]. replace (d <=? t) with false by lia. right. split; [lia|]. split.
    + exists i. split; [apply F; auto|lia].
    + intros j Hj Nj. apply F in Hj as [Hj [?|Q']]; [contradiction|]. destruct (D1 j Hj Nj Q'). lia.
Qed.
Print Assumptions C44_sweep.
(** From then on no signature is made with a key that had expired, unless keys are
    added again. *)
Theorem C44_gone : forall c a t a1 os evs a2 tr i data, reachable c a -> step c a (EvSweep t) = Run a1 os -> 0 <= t -> Forall ev_ok evs -> runs c a1 evs = Run a2 tr ->
  (forall req, add_request req -> ~ In (OReply req success) tr) -> In (OSign i data) tr -> In i (keys a) /\ (i_death i = 0 \/ t < i_death i).
Proof.
  intros c a t a1 os evs a2 tr i data R S Ht E R2 N Ho. apply (C44_sweep c a t a1 os R S Ht). apply (runs_sign c evs a1 a2 tr i data); auto.
  now apply (step_inv c a (EvSweep t) a1 os (reach_inv _ _ R) I S).
Qed.
Print Assumptions C44_gone.
(** Lifetimes are recorded: the seconds given with the key, or the default of the
    agent when none are given. *)
Theorem C44_lifetime : forall c a n en a' os pk k cm secs, reachable c a -> step c a (EvMessage n en) = Run a' os ->
  (forall more, c_priv c (pk ++ more) = Some (k, more)) -> ~ In 0 cm -> 0 <= secs < 4294967296 -> 0 < e_now en ->
  (In (OReply (25 :: pk ++ enc_string cm ++ 1 :: be_enc 4 secs) success) os ->
   exists i, In i (keys a') /\ i_key i = k /\ i_death i = e_now en + secs /\ forall j, In j (keys a') -> same_key (i_key j) k -> j = i) /\
  (In (OReply (17 :: pk ++ enc_string cm) success) os ->
   exists i, In i (keys a') /\ i_key i = k /\ i_death i = (if c_lifetime c =? 0 then 0 else e_now en + c_lifetime c) /\ forall j, In j (keys a') -> same_key (i_key j) k -> j = i).
Proof.
  intros c a n en a' os pk k cm secs R S Hk Nc Hs Hn. pose proof (reach_inv _ _ R) as I0. split; intros Ho.
  - destruct (add_effect c a n en a' os 25 pk cm (1 :: be_enc 4 secs) _ I0 S (or_intror eq_refl) Ho Nc k Hk (life_back c en _ (Some k) secs Hs (le_n 5))) as (i & Hi & K1 & K2 & K3 & _ & _ & K4).
    exists i. splits; auto. rewrite K3. unfold final_death. cbn [q_death]. replace (e_now en + secs =? 0) with false by lia. now rewrite Bool.andb_false_r.
  - rewrite <- (app_nil_r (enc_string cm)) in Ho.
    destruct (add_effect c a n en a' os 17 pk cm [] no_cons I0 S (or_introl eq_refl) Ho Nc k Hk eq_refl) as (i & Hi & K1 & K2 & K3 & _ & _ & K4).
    exists i. splits; auto. rewrite K3. unfold final_death. cbn [q_death no_cons]. change (0 =? 0) with true. rewrite Bool.andb_true_r. now destruct (c_lifetime c =? 0).
Qed.
Print Assumptions C44_lifetime.
Example C44_ex :
  table (runs cfg0 agent_init (history [add_req [1] (1 :: be_enc 4 50); add_req [2] (1 :: be_enc 4 51); 17 :: enc_string [3] ++ enc_string (bs "k")] ++ [EvSweep 150])) = Some [([2], 151); ([3], 0)] /\
  replies (runs cfg0 agent_init (history [add_req [1] (1 :: be_enc 4 50)] ++ [EvSweep 150] ++ ask 150 true (sign_req [1] [3]))) = Some [success; failure].
Proof. split; vm_compute; reflexivity. Qed.

(** ** C59 *)
(** A module is loaded only from a path (after resolution) on the list of allowed
    providers, and on a connection that was used for forwarding only if the agent
    was told to allow it. *)
Theorem C59_load : forall c a n en a' os p, reachable c a -> step c a (EvMessage n en) = Run a' os -> In (OLoad p) os -> Forall MatchSpec.fits (entries (c_allowed c)) ->
  (exists asked, e_realpath en asked = Some p) /\ on_list p (c_allowed c) /\ exists e, conn a n = Some e /\ (from_remote e -> c_remote_ok c = true).
Proof.
  intros c a n en a' os p R S Ho F. destruct (obs_inv _ _ _ _ _ _ _ (reach_inv _ _ R) S Ho) as (e & rest & t & b & e1 & r & os1 & C & B & D & -> & Ho1); [discriminate|].
  destruct (dispatch_obs _ _ _ _ _ _ _ _ _ _ _ D Ho1) as [(_ & E & _)|(_ & _ & p' & pr & -> & RP & PA & Rm)].
  - exfalso. rewrite E in Ho1. clear - Ho1. unfold sign_request in Ho1. destruct (get_key c b) as [[k b1]|]; [|destruct Ho1]. destruct (get_str b1) as [[dt b2]|]; [|destruct Ho1].
    destruct (get_int 4 b2) as [[fl b3]|]; [|destruct Ho1]. destruct (lookup_identity k _) as [j|]; [|destruct Ho1].
    destruct (negb (dest_ok _ _ _ _ _ _)); [destruct Ho1|]. destruct (i_confirm j && negb (e_ask en)); [destruct Ho1 as [H|[]]; discriminate|]. cbv zeta in Ho1.
    assert (A : forall o, In o (if i_confirm j then [OAsk j true] else []) -> o = OAsk j true) by (destruct (i_confirm j); [intros o [K|[]]; congruence|intros o []]).
    destruct (negb (websafe_ok c j k dt)); [apply A in Ho1; discriminate|]. pose proof (do_sign_obs en j k dt fl) as DO. destruct (do_sign en j k dt fl) as [x os]. cbn [snd] in *.
    apply in_app_or in Ho1 as [H|H]; [apply A in H|apply DO in H]; discriminate.
  - destruct Ho1 as [K|[]]. assert (p' = p) as -> by congruence. split; [eauto|]. split; [now apply allowed_iff|]. exists e. split; [assumption|]. intros Q. apply Rm. unfold socket_is_remote. cbn [quiet s_attempted s_ids].
    destruct Q as [-> |Q]; [reflexivity|]. destruct (s_ids e); [congruence|]. now rewrite Bool.orb_true_r.
Qed.
Print Assumptions C59_load.
(** The providers on record, of smartcard keys and of FIDO keys, are allowed ones,
    or "internal" for a FIDO key. *)
Theorem C59_recorded : forall c a i, reachable c a -> In i (keys a) -> Forall MatchSpec.fits (entries (c_allowed c)) ->
  (forall p, i_provider i = Some p -> on_list p (c_allowed c)) /\
  (forall p, i_sk i = Some p -> k_sk (i_key i) <> None /\ (map tolower p = bs "internal" \/ on_list p (c_allowed c))).
Proof.
  intros c a i (evs & tr & E & R) Hi F. assert (P : Forall (provider_ok c) (keys a)) by (apply (providers_runs c evs agent_init a tr); [apply init_inv|assumption|constructor|assumption]).
  rewrite Forall_forall in P. destruct (P i Hi) as [P1 P2]. split; intros p Ep; [apply allowed_iff; [assumption|now apply P1]|]. destruct (P2 p Ep) as [A B]. split; [assumption|].
  destruct B as [B|B]; [left|right; now apply allowed_iff]. unfold strcaseeq in B. apply beqb_eq in B. exact B.
Qed.
Print Assumptions C59_recorded.
Example C59_ex :
  Forall MatchSpec.fits (entries (c_allowed cfg0)) /\
  replies (runs cfg0 agent_init (history [20 :: enc_string (bs "/usr/lib/x.so") ++ enc_string []; 20 :: enc_string (bs "/tmp/x.so") ++ enc_string []; bind_req [50] [60] 0; 20 :: enc_string (bs "/usr/lib/x.so") ++ enc_string []])) = Some [success; failure; success; failure] /\
  replies (runs cfg0 agent_init (history [add_req [7; 1] (255 :: enc_string (bs "sk-provider@openssh.com") ++ enc_string (bs "Internal")); add_req [7; 1] (255 :: enc_string (bs "sk-provider@openssh.com") ++ enc_string (bs "/tmp/x"))])) = Some [success; failure].
Proof. split; [repeat constructor|]. split; vm_compute; reflexivity. Qed.

(** ** C60 *)
(** With the restriction to SSH (the default), a FIDO key made for an application
    outside the list signs nothing but SSH authentication requests made with that
    very key and SSHSIG messages. *)
Theorem C60_web_origin : forall c a n en a' os i data app flags, reachable c a -> step c a (EvMessage n en) = Run a' os -> In (OSign i data) os ->
  k_sk (i_key i) = Some (app, flags) -> c_websafe c = true -> Forall MatchSpec.fits (entries (c_weballow c)) -> ~ on_list app (c_weballow c) ->
  (exists sid user k hk, same_key k (i_key i) /\ userauth_request c data sid user k hk) \/ sshsig_message data.
Proof.
  intros c a n en a' os i data app flags R S Ho Sk W F N. pose proof (reach_inv _ _ R) as I0. destruct (sign_step _ _ _ _ _ _ _ _ I0 S Ho) as (e & rest & b & C & B & K & _ & _).
  destruct (sign_obs _ _ _ _ _ _ _ B K) as [(K1 & Bd & k & Hk & _ & D & _) _]. unfold websafe_ok in D. rewrite Sk, W in D. cbn [negb orb] in D.
  apply Bool.orb_true_iff in D as [D|D]; [exfalso; apply N; now apply allowed_iff|]. unfold check_websafe_message_contents in D. apply Bool.orb_true_iff in D as [D|D].
  - left. destruct (parse_userauth_request c data k) as [[[user sid] hk]|] eqn:U; [|discriminate]. apply userauth_spec in U; [|assumption]. exists sid, user, k, hk. auto.
  - right. now apply sshsig_spec.
Qed.
Print Assumptions C60_web_origin.
Example C60_ex :
  let add := add_req [7; 1] (255 :: enc_string (bs "sk-provider@openssh.com") ++ enc_string (bs "internal")) in
  let sig := bs "SSHSIG" ++ enc_string (bs "file") ++ enc_string [] ++ enc_string (bs "sha512") ++ enc_string [1; 2] in
  Forall MatchSpec.fits (entries (c_weballow cfg0)) /\ ~ on_list (bs "https://web") (c_weballow cfg0) /\
  replies (runs cfg0 agent_init (history [add; sign_req [7; 1] [1]; sign_req [7; 1] sig; sign_req [7; 1] (login [60] (bs "user") [7; 1] [50]); sign_req [7; 1] (login [60] (bs "user") [7; 2] [50])]))
  = Some [success; failure; 14 :: enc_string sig; 14 :: enc_string (login [60] (bs "user") [7; 1] [50]); failure].
Proof.
  cbv zeta. split; [repeat constructor|]. split; [|vm_compute; reflexivity].
  intros H. apply allowed_iff in H; [vm_compute in H; discriminate|repeat constructor].
Qed.

(** ** C61 *)
(** A key added with the confirmation constraint is recorded so ... *)
Theorem C61_recorded : forall c a n en a' os pk k cm, reachable c a -> step c a (EvMessage n en) = Run a' os ->
  (forall more, c_priv c (pk ++ more) = Some (k, more)) -> ~ In 0 cm -> In (OReply (25 :: pk ++ enc_string cm ++ [2]) success) os ->
  exists i, In i (keys a') /\ i_key i = k /\ i_confirm i = true /\ forall j, In j (keys a') -> same_key (i_key j) k -> j = i.
Proof.
  intros c a n en a' os pk k cm R S Hk Nc Ho.
  destruct (add_effect c a n en a' os 25 pk cm [2] _ (reach_inv _ _ R) S (or_intror eq_refl) Ho Nc k Hk (confirm_back c en _ (Some k) (le_n 1))) as (i & Hi & K1 & _ & _ & K3 & _ & K4). exists i. auto.
Qed.
Print Assumptions C61_recorded.
(** ... and whenever it is used, the user was asked about it in this very request,
    and said yes, before. *)
Theorem C61_confirmed : forall c a n en a' os i data, reachable c a -> step c a (EvMessage n en) = Run a' os -> In (OSign i data) os -> i_confirm i = true ->
  exists before after, os = before ++ OAsk i true :: after /\ ~ In (OSign i data) before.
Proof.
  intros c a n en a' os i data R S Ho Cf. destruct (sign_step _ _ _ _ _ _ _ _ (reach_inv _ _ R) S Ho) as (e & rest & b & C & B & K & _ & r & ->).
  destruct (sign_obs _ _ _ _ _ _ _ B K) as [_ Q]. destruct (Q Cf) as (o1 & o2 & E & N1 & N2). rewrite E. exists o1, (o2 ++ [OReply (13 :: b) r]). split; [now rewrite <- app_assoc|assumption].
Qed.
Print Assumptions C61_confirmed.
Example C61_ex :
  let i := mkI (key0 [1]) (bs "k") None 0 true None [] in
  trace (runs cfg0 agent_init (history [add_req [1] [2]] ++ ask 100 true (sign_req [1] [3]) ++ ask 100 false (sign_req [1] [3])))
  = Some [OReply (add_req [1] [2]) success; OAsk i true; OSign i [3]; OReply (sign_req [1] [3]) (14 :: enc_string [3]); OAsk i false; OReply (sign_req [1] [3]) failure].
Proof. vm_compute. reflexivity. Qed.

(** ** C62 *)
(** The table holds each key once; its counter is exact. *)
Theorem C62_unique : forall c a, reachable c a -> NoDup (map (fun i => k_blob (i_key i)) (keys a)) /\ g_n (a_core a) = zlen (keys a).
Proof. intros c a R. destruct (reach_inv _ _ R) as [[T1 T2] _]. auto. Qed.
Print Assumptions C62_unique.
(** A remove request answered with success removed this key and no other, and the
    key was visible to the connection; any other answer changed nothing.  Removing
    all empties the table. *)
Lemma remove_in : forall k l j, NoDup (ids_of l) -> (In j (remove_identity k l) <-> In j l /\ ~ same_key (i_key j) k).
Proof.
  intros k. induction l as [|x r IH]; intros j Nd; cbn [remove_identity]; [cbn; tauto|]. cbn [ids_of map] in Nd. apply NoDup_cons_iff in Nd as [N1 N2]. unfold same_key in *.
  destruct (sshkey_equal k (i_key x)) eqn:E.
  - apply beqb_eq in E. split.
    + intros H. split; [now right|]. intros Q. apply N1. rewrite <- E, <- Q. now apply in_ids in H.
    + intros [[<-|H] Q]; [congruence|assumption].
  - apply beqb_neq in E. cbn [In]. rewrite (IH j N2). split.
    + intros [<-|[H Q]]; [|tauto]. split; [now left|congruence].
    + intros [[<-|H] Q]; [now left|tauto].
Qed.
Theorem C62_remove : forall c a n en a' os req r, reachable c a -> step c a (EvMessage n en) = Run a' os -> In (OReply req r) os ->
  (forall b k more, req = 18 :: enc_string b ++ more -> c_key c b = Some k ->
     (r = success /\ (forall j, In j (keys a') <-> In j (keys a) /\ ~ same_key (i_key j) k) /\
      exists i e, In i (keys a) /\ same_key (i_key i) k /\ conn a n = Some e /\ visible en e i) \/
     (r = failure /\ keys a' = keys a)) /\
  (forall b, req = 19 :: b -> r = success /\ keys a' = [] \/ r = failure /\ keys a' = keys a /\ g_locked (a_core a) = true).
Proof.
  intros c a n en a' os req r R S Ho. pose proof (reach_inv _ _ R) as I0.
  destruct (reply_inv _ _ _ _ _ _ _ _ I0 S Ho) as (e & rest & t & b & e1 & os1 & out & C & Eb & Ht & Bb & Lb & D & -> & Es). split.
  - intros blob k more Er Ek. assert (b = enc_string blob ++ more) as -> by congruence. assert (t = 18) as -> by congruence. unfold dispatch in D.
    change (18 =? SSH_AGENTC_UNLOCK) with false in D. cbn [negb] in D. rewrite Bool.andb_true_r in D. unfold keys.
    destruct (g_locked (a_core a)); [right; injection D as D1 _ D2 _; split; [symmetry; exact D2|now rewrite D1]|].
    repeat match type of D with context [18 =? ?x] => change (18 =? x) with false in D || change (18 =? x) with true in D end. cbn [orb] in D. cbv iota in D.
    unfold process_remove_identity, get_key in D. rewrite zlen_app, zlen_enc in Lb. pose proof (zlen_nonneg _ more). rewrite get_str_enc in D by lia. rewrite Ek in D.
    destruct (lookup_identity k (g_ids (a_core a))) as [i|] eqn:L; [|right; injection D as D1 _ D2 _; split; [symmetry; exact D2|now rewrite D1]].
    destruct (identity_permitted en i (quiet e rest) None) eqn:P; cbn [negb] in D; [|right; injection D as D1 _ D2 _; split; [symmetry; exact D2|now rewrite D1]].
    destruct (g_n (a_core a) <? 1); [discriminate|]. left. injection D as D1 _ D2 _. split; [symmetry; exact D2|]. rewrite <- D1. cbn [g_ids]. destruct I0 as [[T1 T2] _].
    split; [intros j; now apply remove_in|]. destruct (lookup_some _ _ _ L) as [Li Ls]. exists i, e. split; [assumption|]. split; [now symmetry|]. split; [assumption|].
    apply visible_iff in P. exact P.
  - intros b' Er. assert (t = 19) as -> by congruence. unfold dispatch in D. change (19 =? SSH_AGENTC_UNLOCK) with false in D. cbn [negb] in D. rewrite Bool.andb_true_r in D. unfold keys.
    destruct (g_locked (a_core a)); [right; injection D as D1 _ D2 _; split; [symmetry; exact D2|]; now rewrite D1|].
    repeat match type of D with context [19 =? ?x] => change (19 =? x) with false in D || change (19 =? x) with true in D end. cbn [orb] in D. cbv iota in D.
    left. injection D as D1 _ D2 _. split; [symmetry; exact D2|]. now rewrite <- D1.
Qed.
Print Assumptions C62_remove.
(** The list of keys shows, in order, exactly those visible to the connection
    (while the table is small enough for one message). *)
Theorem C62_list : forall c a n en a' os b r, reachable c a -> step c a (EvMessage n en) = Run a' os -> In (OReply (11 :: b) r) os -> g_locked (a_core a) = false ->
  zlen (concat (map entry (keys a))) <= 134217000 ->
  exists e vis, conn a n = Some e /\ (forall i, vis i = true <-> visible en e i) /\ r = 12 :: be_enc 4 (zlen (filter vis (keys a))) ++ concat (map entry (filter vis (keys a))).
Proof.
  intros c a n en a' os b r R S Ho Lk Lz. pose proof (reach_inv _ _ R) as I0.
  destruct (reply_inv _ _ _ _ _ _ _ _ I0 S Ho) as (e & rest & t & b' & e1 & os1 & out & C & Eb & Ht & Bb & Lb & D & -> & Es). assert (t = 11) as -> by congruence.
  unfold dispatch in D. rewrite Lk in D. cbn [andb] in D.
  repeat match type of D with context [11 =? ?x] => change (11 =? x) with false in D || change (11 =? x) with true in D end. cbn [orb] in D. cbv iota in D.
  exists e, (fun i => identity_permitted en i (quiet e rest) None). split; [assumption|]. split; [intros i; rewrite visible_iff; reflexivity|].
  unfold process_request_identities in D. unfold keys in *. set (ids := g_ids (a_core a)) in *. set (vis := fun i => identity_permitted en i (quiet e rest) None).
  assert (Sub : forall l, zlen (concat (map entry (filter vis l))) <= zlen (concat (map entry l))).
  { induction l as [|i l IH]; [reflexivity|]. cbn [filter map concat]. destruct (vis i); cbn [map concat]; rewrite ?zlen_app; [lia|]. pose proof (zlen_nonneg _ (entry i)). lia. }
  assert (Cnt : forall l, 8 * zlen l <= zlen (concat (map entry l))).
  { induction l as [|i l IH]; [reflexivity|]. cbn [map concat]. rewrite zlen_cons, zlen_app. unfold entry at 1. rewrite zlen_app, !zlen_enc. pose proof (zlen_nonneg _ (k_blob (i_key i))). pose proof (zlen_nonneg _ (i_comment i)). lia. }
  assert (Cm : Forall (fun i => zlen (i_comment i) <= 134217728) ids).
  { apply Forall_forall. intros i Hi. apply in_split in Hi as (l1 & l2 & E). rewrite E in Lz. rewrite map_app, concat_app, zlen_app in Lz. cbn [map concat] in Lz. rewrite zlen_app in Lz. unfold entry at 2 in Lz. rewrite zlen_app, !zlen_enc in Lz.
    pose proof (zlen_nonneg _ (concat (map entry l1))). pose proof (zlen_nonneg _ (concat (map entry l2))). pose proof (zlen_nonneg _ (k_blob (i_key i))). lia. }
  specialize (Sub ids). pose proof (Cnt (filter vis ids)) as Cn. pose proof (zlen_nonneg _ (filter vis ids)).
  rewrite list_keys_spec in D; [|rewrite zlen_nil; lia|rewrite zlen_nil; fold vis; lia|assumption]. fold vis in D. cbn [app] in D. rewrite Z.add_0_l in D.
  unfold put_u8, put_u32 in D. unfold SSH2_AGENT_IDENTITIES_ANSWER in D. rewrite (u32_id (zlen (filter vis ids))) in D by (change U32 with 4294967296; lia).
  rewrite KrlProof5.put_ok in D by (rewrite zlen_nil, zlen_be_enc; lia). rewrite KrlProof5.put_ok in D by (rewrite zlen_app, zlen_nil, !zlen_be_enc; lia).
  rewrite KrlProof5.put_ok in D by (rewrite !zlen_app, zlen_nil, !zlen_be_enc; lia).
  assert (r = (([] ++ be_enc 1 (u8 12)) ++ be_enc 4 (zlen (filter vis ids))) ++ concat (map entry (filter vis ids))) as -> by congruence. reflexivity.
Qed.
Print Assumptions C62_list.
Example C62_ex :
  replies (runs cfg0 agent_init (history [add_req [1] []; add_req [2] (enc_dest dcs0); add_req [1] []; bind_req [51] [60] 0; [11]; 18 :: enc_string [2]; 18 :: enc_string [1]; [11]]))
  = Some [success; success; success; success; 12 :: be_enc 4 1 ++ enc_string [1] ++ enc_string (bs "k"); failure; success; empty_list].
Proof. vm_compute. reflexivity. Qed.

(** The parsing loops of requests that add keys end within their input. *)
Theorem C62_parsers_end : forall c en g e b, add_identity c en g e b <> Spin /\ add_smartcard c en g e b <> Spin.
Proof. exact add_ends. Qed.
Print Assumptions C62_parsers_end.
