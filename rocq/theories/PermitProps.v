(** C28: forwarding permissions. *)
From Coq Require Import String.
From Verif Require Import Base Text MatchModel MatchSpec MatchProof MiscNumModel PermitModel PermitSpec PermitProof.

(** ** Whatever the order of rule changes *)
(** A connection is made exactly if the user's rules (or "all") and the
    administrator's rules (if any) allow it. *)
Theorem C28_history : forall hist host port,
  (channel_connect_to_port (rexec hist) host port = ConnectTo host port <->
    (opened_up Local hist \/ exists h p, in_force User Local hist h p /\ open_ok host port h p) /\
    (~ restricted Local hist \/ exists h p, in_force Admin Local hist h p /\ open_ok host port h p)) /\
  (channel_connect_to_port (rexec hist) host port = ConnectTo host port \/ channel_connect_to_port (rexec hist) host port = Refused).
Proof.
  intros hist host port. unfold channel_connect_to_port.
  pose proof (history_permits Local hist (fun q => open_match q host port) eq_refl) as H. unfold uset in H. cbn [permission_set_get rule_perm] in H.
  destruct (permits _ _); (split; [|auto]).
  - split; [intros _|reflexivity]. destruct (proj1 H eq_refl) as [[A|(h & p & A & A')] [B|(h' & p' & B & B')]]; (split; [auto; right; exists h, p|auto; right; exists h', p']); auto; split; auto; now apply open_match_local.
  - split; [discriminate|]. intros [A B]. assert (F : false = true); [|discriminate]. apply H. split.
    + destruct A as [A|(h & p & A & A')]; [now left|right; exists h, p; split; [exact A|now apply open_match_local]].
    + destruct B as [B|(h & p & B & B')]; [now left|right; exists h, p; split; [exact B|now apply open_match_local]].
Qed.
(** The same for listening on behalf of the client. *)
Theorem C28_history_listen : forall hist host port,
  check_rfwd_permission (rexec hist) (mkFwd (Some host) port None None 0 None) = true <->
    (opened_up Remote hist \/ exists h p, in_force User Remote hist h p /\ listen_ok host port h p) /\
    (~ restricted Remote hist \/ exists h p, in_force Admin Remote hist h p /\ listen_ok host port h p).
Proof.
  intros hist host port. unfold check_rfwd_permission.
  pose proof (history_permits Remote hist (fun q => remote_open_match q (mkFwd (Some host) port None None 0 None)) eq_refl) as H. unfold uset in H. cbn [permission_set_get rule_perm] in H.
  rewrite H. clear H. split; intros [A B]; (split; [clear B; destruct A as [A|(h & p & A & A')]|clear A; destruct B as [A|(h & p & A & A')]]); try (now left); right; exists h, p; (split; [exact A|]); now apply remote_match.
Qed.

(** ** A server session, from configuration and key options *)
Lemma setup_local : forall serv c a p m ok, setup serv c a = Some p -> o_tcp_local c = true -> a_fwd a = true -> o_disable c = false ->
  m cleared = false -> (forall h q, m (rule_perm Local h q) = true <-> ok h q) ->
  (permits (p_local p) m = true <-> user_allows serv COLON_SLASH (a_opens a) ok /\ admin_allows serv (o_opens c) ok).
Proof.
  intros serv c a p m ok E Ht Hf Hd Hc Hm. unfold setup, server_process_permitopen in E.
  destruct (server_process_permitopen_list serv no_perms Local (o_opens c)) as [p1|] eqn:E1; [|discriminate].
  destruct (server_process_permitopen_list serv p1 Remote (o_listens c)) as [p2|] eqn:E2; [|discriminate].
  destruct (admin_list _ _ _ _ _ E1) as (_ & U1 & A1 & M1). destruct (admin_list _ _ _ _ _ E2) as (O2 & _). specialize (A1 eq_refl). specialize (O2 Local ltac:(discriminate)).
  unfold do_authenticated, set_fwdpermit_from_authopts in E. rewrite Ht, Hf, Hd in E. cbn [negb orb] in E.
  destruct (add_rules serv true (channel_clear_permission p2 User Local) User Local (a_opens a)) as [p3|] eqn:E3; [|discriminate].
  assert (Ha : s_all (permission_set_get p2 Local) = false) by (rewrite O2; exact A1).
  destruct (user_list serv true p2 Local (a_opens a) p3 _ Ha E3 eq_refl) as (_ & U3 & M3).
  assert (R : exists p4, permission_set_get p4 Local = permission_set_get p3 Local /\
     p = (let p := channel_permit_all p4 Local in if o_tcp_remote c then channel_permit_all p Remote else channel_disable_admin p Remote)).
  { destruct (o_tcp_remote c).
    - destruct (add_rules serv false (channel_clear_permission p3 User Remote) User Remote (a_listens a)) as [p4|] eqn:E4; [|discriminate]. injection E as <-.
      exists p4. split; [|reflexivity]. destruct (add_rules_get _ _ _ _ _ _ _ E4) as (H & _). rewrite H by discriminate. reflexivity.
    - injection E as <-. exists p3. auto. }
  clear E. destruct R as (p4 & G & ->).
  assert (L : permission_set_get (let p := channel_permit_all p4 Local in if o_tcp_remote c then channel_permit_all p Remote else channel_disable_admin p Remote) Local = permission_set_get (channel_permit_all p3 Local) Local).
  { cbv zeta. transitivity (permission_set_get (channel_permit_all p4 Local) Local).
    - destruct (o_tcp_remote c); [|reflexivity]. unfold channel_permit_all at 1. destruct (is_nil _); reflexivity.
    - unfold channel_permit_all. rewrite G. destruct (is_nil _) eqn:En; [|exact G]. rewrite !get_put. reflexivity. }
  change (p_local ?x) with (permission_set_get x Local). rewrite L, permits_iff, U3, O2.
  rewrite (M3 m ok Hm), (M1 m ok Hc Hm). reflexivity.
Qed.
Lemma setup_remote : forall serv c a p m ok, setup serv c a = Some p -> o_tcp_remote c = true -> a_fwd a = true -> o_disable c = false ->
  m cleared = false -> (forall h q, m (rule_perm Remote h q) = true <-> ok h q) ->
  (permits (p_remote p) m = true <-> user_allows serv COLON (a_listens a) ok /\ admin_allows serv (o_listens c) ok).
Proof.
  intros serv c a p m ok E Ht Hf Hd Hc Hm. unfold setup, server_process_permitopen in E.
  destruct (server_process_permitopen_list serv no_perms Local (o_opens c)) as [p1|] eqn:E1; [|discriminate].
  destruct (server_process_permitopen_list serv p1 Remote (o_listens c)) as [p2|] eqn:E2; [|discriminate].
  destruct (admin_list _ _ _ _ _ E1) as (O1 & _). destruct (admin_list _ _ _ _ _ E2) as (_ & U2 & A2 & M2). specialize (O1 Remote ltac:(discriminate)).
  rewrite O1 in A2. specialize (A2 eq_refl).
  unfold do_authenticated, set_fwdpermit_from_authopts in E. rewrite Ht, Hf, Hd in E. cbn [negb orb] in E.
  assert (R : exists p3 p4, permission_set_get p3 Remote = permission_set_get p2 Remote /\
    add_rules serv false (channel_clear_permission p3 User Remote) User Remote (a_listens a) = Some p4 /\
    p = channel_permit_all (if o_tcp_local c then channel_permit_all p4 Local else channel_disable_admin p4 Local) Remote).
  { destruct (o_tcp_local c).
    - destruct (add_rules serv true (channel_clear_permission p2 User Local) User Local (a_opens a)) as [p3|] eqn:E3; [|discriminate].
      destruct (add_rules serv false (channel_clear_permission p3 User Remote) User Remote (a_listens a)) as [p4|] eqn:E4; [|discriminate]. injection E as <-.
      exists p3, p4. splits; auto. destruct (add_rules_get _ _ _ _ _ _ _ E3) as (H & _). rewrite H by discriminate. reflexivity.
    - destruct (add_rules serv false (channel_clear_permission p2 User Remote) User Remote (a_listens a)) as [p4|] eqn:E4; [|discriminate]. injection E as <-. exists p2, p4. auto. }
  clear E. destruct R as (p3 & p4 & G & E4 & ->).
  assert (Ha : s_all (permission_set_get p3 Remote) = false) by (rewrite G; exact A2).
  destruct (user_list serv false p3 Remote (a_listens a) p4 _ Ha E4 eq_refl) as (_ & U4 & M4).
  assert (L : permission_set_get (channel_permit_all (if o_tcp_local c then channel_permit_all p4 Local else channel_disable_admin p4 Local) Remote) Remote = permission_set_get (channel_permit_all p4 Remote) Remote).
  { set (p5 := if o_tcp_local c then _ else _). assert (K : permission_set_get p5 Remote = permission_set_get p4 Remote).
    { unfold p5. destruct (o_tcp_local c); [|reflexivity]. unfold channel_permit_all. destruct (is_nil _); reflexivity. }
    unfold channel_permit_all. rewrite K. destruct (is_nil _) eqn:En; [|exact K]. rewrite !get_put. reflexivity. }
  change (p_remote ?x) with (permission_set_get x Remote). rewrite L, permits_iff, U4, G.
  rewrite (M4 m ok Hm), (M2 m ok Hc Hm). reflexivity.
Qed.

(** "direct-tcpip": connected exactly if forwarding is on everywhere, and both
    the key's permitopen rules and the server's PermitOpen rules allow it. *)
Theorem C28_direct_tcpip : forall serv c a p host port, setup serv c a = Some p -> 0 <= port ->
  (server_request_direct_tcpip c a p host port = ConnectTo host port <->
    port <= 65535 /\ o_tcp_local c = true /\ a_fwd a = true /\ o_disable c = false /\
    user_allows serv COLON_SLASH (a_opens a) (open_ok host port) /\ admin_allows serv (o_opens c) (open_ok host port)) /\
  (server_request_direct_tcpip c a p host port = ConnectTo host port \/ server_request_direct_tcpip c a p host port = Refused).
Proof.
  intros serv c a p host port E Hp. unfold server_request_direct_tcpip. destruct (65535 <? port) eqn:Ep; [split; [split; [discriminate|lia]|auto]|].
  destruct (o_tcp_local c) eqn:E1; [|split; [split; [discriminate|intros (_ & H & _); discriminate]|auto]].
  destruct (a_fwd a) eqn:E2; [|split; [split; [discriminate|intros (_ & _ & H & _); discriminate]|auto]].
  destruct (o_disable c) eqn:E3; [split; [split; [discriminate|intros (_ & _ & _ & H & _); discriminate]|auto]|]. cbn [negb andb]. unfold channel_connect_to_port.
  pose proof (setup_local serv c a p (fun q => open_match q host port) (open_ok host port) E E1 E2 E3 eq_refl (fun h q => open_match_local h q host port)) as H.
  destruct (permits _ _); (split; [|auto]).
  - split; [intros _|reflexivity]. destruct (proj1 H eq_refl). splits; auto. lia.
  - split; [discriminate|]. intros (_ & _ & _ & _ & A & B). assert (F : false = true) by (apply H; auto). discriminate.
Qed.
(** "direct-streamlocal@openssh.com": a path is treated as a host with port "any". *)
Theorem C28_direct_path : forall serv c a p path, setup serv c a = Some p ->
  (server_request_direct_streamlocal c a p path = ConnectTo path PORT_STREAMLOCAL <->
    o_stream_local c = true /\ o_tcp_local c = true /\ a_fwd a = true /\ o_disable c = false /\
    user_allows serv COLON_SLASH (a_opens a) (open_ok path PORT_STREAMLOCAL) /\ admin_allows serv (o_opens c) (open_ok path PORT_STREAMLOCAL)) /\
  (server_request_direct_streamlocal c a p path = ConnectTo path PORT_STREAMLOCAL \/ server_request_direct_streamlocal c a p path = Refused).
Proof.
  intros serv c a p path E. unfold server_request_direct_streamlocal.
  destruct (o_stream_local c) eqn:E0; [|split; [split; [discriminate|intros (H & _); discriminate]|auto]].
  destruct (a_fwd a) eqn:E2; [|split; [split; [discriminate|intros (_ & _ & H & _); discriminate]|auto]].
  destruct (o_disable c) eqn:E3; [split; [split; [discriminate|intros (_ & _ & _ & H & _); discriminate]|auto]|]. cbn [negb andb]. unfold channel_connect_to_path.
  destruct (o_tcp_local c) eqn:E1.
  - pose proof (setup_local serv c a p (fun q => open_match q path PORT_STREAMLOCAL) (open_ok path PORT_STREAMLOCAL) E E1 E2 E3 eq_refl (fun h q => open_match_local h q path PORT_STREAMLOCAL)) as H.
    destruct (permits _ _); (split; [|auto]).
    + split; [intros _|reflexivity]. destruct (proj1 H eq_refl). splits; auto.
    + split; [discriminate|]. intros (_ & _ & _ & _ & A & B). assert (F : false = true) by (apply H; auto). discriminate.
  - assert (F : permits (p_local p) (fun q => open_match q path PORT_STREAMLOCAL) = false).
    { unfold setup, server_process_permitopen in E.
      destruct (server_process_permitopen_list serv no_perms Local (o_opens c)) as [p1|] eqn:P1; [|discriminate].
      destruct (server_process_permitopen_list serv p1 Remote (o_listens c)) as [p2|] eqn:P2; [|discriminate].
      destruct (admin_list _ _ _ _ _ P1) as (_ & U1 & A1 & _). destruct (admin_list _ _ _ _ _ P2) as (O2 & _). specialize (A1 eq_refl). specialize (O2 Local ltac:(discriminate)).
      unfold do_authenticated, set_fwdpermit_from_authopts in E. rewrite E1, E2, E3 in E. cbn [negb orb] in E.
      assert (G : s_admin (p_local p) = [cleared]).
      { destruct (o_tcp_remote c).
        - destruct (add_rules serv false (channel_clear_permission p2 User Remote) User Remote (a_listens a)) as [p4|] eqn:E4; [|discriminate]. injection E as <-.
          unfold channel_permit_all. destruct (is_nil _); reflexivity.
        - injection E as <-. reflexivity. }
      unfold permits. rewrite G. cbn. apply andb_false_r. }
    rewrite F. split; [split; [discriminate|intros (_ & H & _); discriminate]|auto].
Qed.
(** "tcpip-forward": a listening socket is opened exactly if both rule sets allow. *)
Theorem C28_tcpip_forward : forall serv c a p host port wr, setup serv c a = Some p -> 0 <= port ->
  (server_tcpip_forward c a p host port wr = true <->
    port <= 2147483647 /\ (wr = true \/ port <> 0) /\ o_tcp_remote c = true /\ a_fwd a = true /\ o_disable c = false /\
    user_allows serv COLON (a_listens a) (listen_ok host port) /\ admin_allows serv (o_listens c) (listen_ok host port)).
Proof.
  intros serv c a p host port wr E Hp. unfold server_tcpip_forward, INT_MAX. destruct (2147483647 <? port) eqn:Ep; [split; [discriminate|lia]|]. cbn [orb].
  destruct (o_tcp_remote c) eqn:E1; [|split; [discriminate|intros (_ & _ & H & _); discriminate]].
  destruct (a_fwd a) eqn:E2; [|split; [discriminate|intros (_ & _ & _ & H & _); discriminate]].
  destruct (o_disable c) eqn:E3; [split; [discriminate|intros (_ & _ & _ & _ & H & _); discriminate]|]. cbn [negb orb].
  destruct (negb wr && (port =? 0)) eqn:Ew; [split; [discriminate|]; intros (_ & [-> |H] & _); [discriminate|lia]|]. unfold check_rfwd_permission.
  pose proof (setup_remote serv c a p (fun q => remote_open_match q (mkFwd (Some host) port None None 0 None)) (listen_ok host port) E E1 E2 E3 eq_refl (fun h q => remote_match h q host port)) as H.
  rewrite H. split; [intros [A B]; splits; auto; [lia|]|tauto]. destruct wr; [now left|right]. cbn in Ew. lia.
Qed.
(** Finding: PermitListen says nothing about socket paths; even "none" lets the
    client listen on any path (the code has a note "add ACLs for streamlocal"). *)
Theorem C28_listen_path_refuted : exists c a p path,
  setup (fun _ => None) c a = Some p /\ o_listens c = [bs "none"] /\ a_listens a = [bs "localhost:8080"] /\
  server_streamlocal_forward c a p path = true.
Proof.
  exists (mkCfg true true true true false [] [bs "none"]), (mkAO true [] [bs "localhost:8080"]). eexists. exists (bs "/tmp/x").
  split; [vm_compute; reflexivity|]. repeat split.
Qed.
(** Finding: a permitlisten text accepted when the key is read can be fatal to
    the session ('/' as separator). *)
Theorem C28_validated_refuted : exists a t, a_listens a = [t] /\ valid_permit (fun _ => None) t = true /\
  forall c, o_tcp_remote c = true -> setup (fun _ => None) c a = None.
Proof.
  exists (mkAO true [] [bs "h/80"]), (bs "h/80"). split; [reflexivity|]. split; [vm_compute; reflexivity|]. intros c Hc. unfold setup.
  destruct (server_process_permitopen _ c no_perms) as [p|]; [|reflexivity]. unfold do_authenticated, set_fwdpermit_from_authopts. rewrite Hc. cbn [a_opens a_listens].
  assert (N : forall q, add_rules (fun _ => None) false q User Remote [bs "h/80"] = None) by (intros q; unfold add_rules; replace (parse_rule (fun _ => None) false (bs "h/80")) with (@None (list Z * Z)) by (vm_compute; reflexivity); reflexivity).
  assert (K : forall q, add_rules (fun _ => None) true q User Local [] = Some q) by reflexivity. destruct (o_tcp_local c); [rewrite K|]; rewrite N; reflexivity.
Qed.

(** ** The client: what the server may make it connect to *)
Theorem C28_client : forall p0 ops host port h q, s_user (p_local p0) = [] ->
  channel_connect_by_listen_address (cexec p0 ops) host port = ConnectTo h q ->
  exists i f, nth_error (registered ops) i = Some (inl f) /\ leads_to f h q /\ asks_for f = host /\ known_port ops i (asks_port f) port.
Proof.
  intros p0 ops host port h q H0 E. destruct (cinv_run ops p0 H0) as (_ & I). unfold channel_connect_by_listen_address in E. fold (users (cexec p0 ops)) in E.
  destruct (find _ _) as [e|] eqn:Ef; [|discriminate]. destruct (find_nth _ _ _ _ Ef) as (Hm & i & Hi). apply tcp_match in Hm as (M1 & M2 & M3).
  destruct (q_down e) eqn:Ed; [discriminate|]. destruct (q_port e =? 0); [discriminate|]. unfold target in E. destruct (q_host e) as [h'|] eqn:Eh; [|discriminate]. injection E as <- <-.
  destruct (I i e Hi) as [N|(r & R1 & R2 & R3 & R4 & R5 & R6 & R7)]; [congruence|]. destruct r as [f|[[c lh] n]]; [|cbn in R6; congruence]. cbn [reg_entry] in *.
  destruct (entry_listen f) as (L1 & L2 & L3 & L4). exists i, f. splits; auto; [apply entry_host; congruence|congruence|congruence].
Qed.
Theorem C28_client_path : forall p0 ops path h q, s_user (p_local p0) = [] ->
  channel_connect_by_listen_path (cexec p0 ops) path = ConnectTo h q ->
  exists i f, nth_error (registered ops) i = Some (inl f) /\ leads_to f h q /\ w_lpath f = Some path.
Proof.
  intros p0 ops path h q H0 E. destruct (cinv_run ops p0 H0) as (_ & I). unfold channel_connect_by_listen_path in E. fold (users (cexec p0 ops)) in E.
  destruct (find _ _) as [e|] eqn:Ef; [|discriminate]. destruct (find_nth _ _ _ _ Ef) as (Hm & i & Hi). unfold open_listen_match_streamlocal in Hm.
  unfold target in E. destruct (q_host e) as [h'|] eqn:Eh; [|discriminate]. injection E as <- <-. destruct (q_lport e =? PORT_STREAMLOCAL); [|discriminate]. cbn [negb] in Hm.
  destruct (I i e Hi) as [N|(r & R1 & R2 & R3 & R4 & R5 & R6 & R7)]; [congruence|]. unfold oeqb in Hm. destruct (q_lpath e) as [x|] eqn:Ex; [|discriminate]. apply beqb_eq in Hm. subst x.
  destruct r as [f|[[c lh] n]]; [|cbn in R5; congruence]. cbn [reg_entry] in *. destruct (entry_listen f) as (L1 & L2 & L3 & L4). exists i, f. splits; auto; [apply entry_host; congruence|congruence].
Qed.
(** A dynamic forwarding asks for a destination only if one was registered as
    such, and connects exactly as PermitRemoteOpen says, whatever happened since. *)
Theorem C28_client_dynamic : forall serv opens p0 ops, server_process_permitopen_list serv no_perms Local opens = Some p0 ->
  (forall host port, channel_connect_by_listen_address (cexec p0 ops) host port = Dynamic ->
     exists i f, nth_error (registered ops) i = Some (inl f) /\ w_cpath f = None /\ w_cport f = 0 /\ asks_for f = host /\ known_port ops i (asks_port f) port) /\
  (forall host port, (rdynamic_connect_finish (cexec p0 ops) host port = ConnectTo host port <-> admin_allows serv opens (open_ok host port)) /\
     (rdynamic_connect_finish (cexec p0 ops) host port = ConnectTo host port \/ rdynamic_connect_finish (cexec p0 ops) host port = Refused)).
Proof.
  intros serv opens p0 ops Ep. destruct (admin_list _ _ _ _ _ Ep) as (_ & U & _ & M). cbn in U. split.
  - intros host port E. destruct (cinv_run ops p0 U) as (_ & I). unfold channel_connect_by_listen_address in E. fold (users (cexec p0 ops)) in E.
    destruct (find _ _) as [e|] eqn:Ef; [|discriminate]. destruct (find_nth _ _ _ _ Ef) as (Hm & i & Hi). apply tcp_match in Hm as (M1 & M2 & M3).
    destruct (q_down e) eqn:Ed; [discriminate|]. destruct (q_port e =? 0) eqn:E0; [|unfold target in E; destruct (q_host e); discriminate].
    destruct (I i e Hi) as [N|(r & R1 & R2 & R3 & R4 & R5 & R6 & R7)]; [congruence|]. destruct r as [f|[[c lh] n]]; [|cbn in R6; congruence]. cbn [reg_entry] in *.
    destruct (entry_listen f) as (L1 & L2 & L3 & L4). exists i, f. splits; auto; try congruence.
    + unfold entry_of in R3. destruct (w_cpath f), (w_lpath f); cbn in R3; unfold PORT_STREAMLOCAL in R3; try lia; reflexivity.
    + unfold entry_of in R3. destruct (w_cpath f), (w_lpath f); cbn in R3; unfold PORT_STREAMLOCAL in R3; lia.
  - intros host port. unfold rdynamic_connect_finish. rewrite cexec_admin.
    specialize (M (fun q => open_match q host port) (open_ok host port) eq_refl (fun h q => open_match_local h q host port)). cbn [permission_set_get] in M.
    destruct (is_nil (s_admin (p_local p0)) || existsb _ _) eqn:Eb; (split; [|auto]).
    + split; [intros _|reflexivity]. apply M. apply orb_true_iff in Eb as [Eb|Eb]; [left; destruct (s_admin (p_local p0)); [reflexivity|discriminate]|right; now apply existsb_exists].
    + split; [discriminate|]. intros H. apply M in H. apply orb_false_iff in Eb as [B1 B2]. destruct H as [H|H]; [rewrite H in B1; discriminate|]. apply existsb_exists in H. congruence.
Qed.
(** A multiplexing client that is gone gets no more connections. *)
Theorem C28_mux_gone : forall p0 a c b host port, (forall h n, ~ In (CMux c h n) b) ->
  channel_connect_by_listen_address (cexec p0 (a ++ CMuxGone c :: b)) host port <> ToDownstream c.
Proof.
  intros p0 a c b host port N. unfold cexec. rewrite fold_left_app. cbn [fold_left cexec1]. set (p1 := fold_left cexec1 a p0). clearbody p1.
  assert (F : Forall (fun q => is_down c q = false) (users (mux_remove p1 c))).
  { unfold mux_remove. rewrite on_users. apply Forall_forall. intros q Hq. apply in_map_iff in Hq as (q0 & <- & _). destruct (is_down c q0) eqn:E; [reflexivity|exact E]. }
  set (p2 := mux_remove p1 c) in *. clearbody p2. assert (G : Forall (fun q => is_down c q = false) (users (fold_left cexec1 b p2))).
  { revert p2 F N. induction b as [|x b IH]; intros p2 F N; [exact F|]. cbn [fold_left]. apply IH; [|intros h n H; apply (N h n); now right].
    destruct x as [f|f al|bug idx n|c' h n|c']; cbn [cexec1].
    - unfold channel_request_remote_forwarding. rewrite add_users. apply Forall_app. split; [exact F|]. constructor; [|constructor]. destruct (entry_listen f) as (_ & _ & L & _). unfold is_down. now rewrite L.
    - assert (K : forall m l, Forall (fun q => is_down c q = false) l -> Forall (fun q => is_down c q = false) (clear_first m l)).
      { intros m l H. induction H as [|q l Hq H IH']; cbn [clear_first]; [constructor|]. destruct (m q); constructor; auto. }
      unfold channel_request_rforward_cancel. destruct (w_lpath f); rewrite on_users; now apply K.
    - unfold channel_update_permission. destruct (_ || _); [exact F|]. destruct (nth_error _ _) as [q0|] eqn:En; [|exact F]. set (q1 := if n <=? 0 then _ else _).
      change (users _) with (set_nth (users p2) (Z.to_nat idx) q1). apply Forall_forall. intros q Hq. apply In_nth_error in Hq as [i Hi]. apply nth_set_nth in Hi as [[_ ->]|[_ Hi]].
      + apply nth_error_In in En. rewrite Forall_forall in F. specialize (F q0 En). unfold q1. destruct (n <=? 0); [reflexivity|exact F].
      + apply nth_error_In in Hi. rewrite Forall_forall in F. now apply F.
    - unfold mux_add. rewrite add_users. apply Forall_app. split; [exact F|]. constructor; [|constructor]. unfold is_down. cbn. apply Nat.eqb_neq. intros <-. apply (N h n). now left.
    - unfold mux_remove. rewrite on_users. apply Forall_forall. intros q Hq. apply in_map_iff in Hq as (q0 & <- & Hq). rewrite Forall_forall in F. specialize (F q0 Hq). destruct (is_down c' q0); [reflexivity|exact F]. }
  unfold channel_connect_by_listen_address. fold (users (fold_left cexec1 b p2)). destruct (find _ _) as [e|] eqn:Ef; [|discriminate].
  apply find_some in Ef as [Hin _]. rewrite Forall_forall in G. specialize (G e Hin). unfold is_down in G. destruct (q_down e) as [d|]; [intros E; injection E as ->; rewrite Nat.eqb_refl in G; discriminate|].
  destruct (q_port e =? 0); [discriminate|]. unfold target. destruct (q_host e); discriminate.
Qed.
(** Cancelling the only registration for an address ends forwarding from it. *)
Theorem C28_cancel : forall p f al pre e post,
  let port := if w_lport f =? 0 then al else w_lport f in
  let addr := channel_rfwd_bind_host (w_lhost f) in
  w_lpath f = None -> s_user (p_local p) = pre ++ e :: post ->
  q_host e <> None -> q_lport e = port -> q_lhost e = w_lhost f ->
  (forall q, In q (pre ++ post) -> open_listen_match_tcpip q (Some addr) port true = false) ->
  channel_connect_by_listen_address (channel_request_rforward_cancel p f al) addr port = Refused.
Proof.
  intros p f al pre e post port addr Hl Hu H1 H2 H3 Huniq. unfold channel_request_rforward_cancel. rewrite Hl. unfold channel_connect_by_listen_address.
  fold port. change (s_user (p_local (on_user p ?g))) with (g (s_user (p_local p))). rewrite Hu.
  assert (C : clear_first (fun q => open_listen_match_tcpip q (w_lhost f) port false) (pre ++ e :: post) = pre ++ cleared :: post).
  { assert (Np : forall q, In q pre -> open_listen_match_tcpip q (w_lhost f) port false = false).
    { intros q Hq. destruct (open_listen_match_tcpip q (w_lhost f) port false) eqn:E; [|reflexivity]. apply cancel_match in E as (E1 & E2 & E3).
      assert (F : open_listen_match_tcpip q (Some addr) port true = true) by (apply tcp_match; splits; auto; unfold addr; now rewrite E3). rewrite Huniq in F; [discriminate|apply in_or_app; now left]. }
    clear Hu Huniq. induction pre as [|x pre IH]; cbn [app clear_first].
    - rewrite (proj2 (cancel_match e (w_lhost f) port)) by auto. reflexivity.
    - rewrite (Np x) by now left. f_equal. apply IH. intros q Hq. apply Np. now right. }
  rewrite C. assert (F : find (fun q => open_listen_match_tcpip q (Some addr) port true) (pre ++ cleared :: post) = None).
  { destruct (find _ _) as [q|] eqn:E; [|reflexivity]. apply find_some in E as [Hin Hm]. apply in_app_or in Hin as [Hin|[<-|Hin]]; [|discriminate|]; (rewrite Huniq in Hm; [discriminate|apply in_or_app; auto]). }
  rewrite F. reflexivity.
Qed.

(** ** Examples *)
Definition demo_cfg : config := mkCfg true true true false false [bs "db.example:5432"; bs "[::1]:*"] [].
Definition demo_key : authopts := mkAO true [bs "*:5432"; bs "[::1]:22"] [bs "*:8080"].
Example C28_demo : match setup (fun _ => None) demo_cfg demo_key with
  | Some p =>
    server_request_direct_tcpip demo_cfg demo_key p (bs "db.example") 5432 = ConnectTo (bs "db.example") 5432 /\
    server_request_direct_tcpip demo_cfg demo_key p (bs "other") 5432 = Refused /\
    server_request_direct_tcpip demo_cfg demo_key p (bs "::1") 22 = ConnectTo (bs "::1") 22 /\
    server_request_direct_tcpip demo_cfg demo_key p (bs "::1") 80 = Refused /\
    server_tcpip_forward demo_cfg demo_key p (bs "LocalHost") 8080 false = true /\
    server_tcpip_forward demo_cfg demo_key p (bs "localhost") 8081 false = false
  | None => False
  end.
Proof. vm_compute. repeat split. Qed.
Example C28_denotes_demo : denotes (fun _ => None) COLON (bs "[::1]:22") (bs "::1") 22 /\ denotes (fun _ => None) COLON (bs "h:*") (bs "h") 0.
Proof.
  split; [exists 58, (bs "22")|exists 58, (bs "*")]; (split; [now left|]).
  - split; [right; split; [discriminate|split; [lia|vm_compute; reflexivity]]|]. right. split; [reflexivity|]. cbn. intuition discriminate.
  - split; [left; auto|]. left. split; [reflexivity|]. cbn. splits; try lia; intuition discriminate.
Qed.
Definition demo_fwd : forward := mkFwd (Some (bs "*")) 0 None (Some (bs "inner")) 80 None.
Example C28_client_demo :
  let p := cexec no_perms [CRequest demo_fwd; CUpdate false 0 34567] in
  channel_connect_by_listen_address p [] 34567 = ConnectTo (bs "inner") 80 /\
  channel_connect_by_listen_address p [] 34568 = Refused /\
  channel_connect_by_listen_address (cexec1 p (CCancel demo_fwd 34567)) [] 34567 = Refused.
Proof. vm_compute. repeat split. Qed.

Print Assumptions C28_history.
Print Assumptions C28_history_listen.
Print Assumptions C28_direct_tcpip.
Print Assumptions C28_direct_path.
Print Assumptions C28_tcpip_forward.
Print Assumptions C28_listen_path_refuted.
Print Assumptions C28_validated_refuted.
Print Assumptions C28_client.
Print Assumptions C28_client_path.
Print Assumptions C28_client_dynamic.
Print Assumptions C28_mux_gone.
Print Assumptions C28_cancel.
