(** C73: which settings of the server configuration apply to a connection. *)
From Coq Require Import String.
From Verif Require Import Base Text MatchModel MiscNumModel ArgvModel AddrModel ServModel ServSpec ServProof ServProof2 ServProof3 ServProof4 ServProof5 ServProof6.
Local Open Scope Z_scope.

(** A line with a keyword, a separator and arguments is that directive, whatever trails it; the arguments are those of C51.
    A line starting with '#' and an empty one are nothing. *)
Theorem C73_line : forall k sep rest trail,
  k <> [] -> Forall (fun c => ~ blank c /\ c <> 34 /\ c <> 61) k -> hd 0 k <> 35 -> separates sep ->
  rest <> [] -> ~ blank (hd 0 rest) -> hd 0 rest <> 61 -> ~ (blank (List.last rest 0) \/ List.last rest 0 = 12) ->
  Forall (fun c => blank c \/ c = 12) trail ->
  split_line (k ++ sep ++ rest ++ trail) = match argv_split rest true with SArgs a => Dir k rest a | _ => Wrong end.
Proof. exact line_directive. Qed.
Print Assumptions C73_line.
Theorem C73_comment : forall l, l = [] \/ hd 0 l = 35 -> split_line l = Skip.
Proof. intros l [-> |H]; [reflexivity|now apply line_comment]. Qed.
Print Assumptions C73_comment.

(** When the server has started, it holds everything the configuration includes, as it was then. *)
Theorem C73_start : forall E cmdline raw text inc, start E cmdline raw = Some (text, inc) ->
  text = taken_in (split 10 raw) /\ self_contained (e_sshdir E) inc text /\ genuine E inc.
Proof.
  intros E cmdline raw text inc H. destruct (start_closed E _ _ _ _ H) as (A & B & C & D). split; [now rewrite <- load_taken|]. split; [|exact D]. now apply closed_self.
Qed.
Print Assumptions C73_start.
(** What becomes of the files afterwards makes no difference to any connection. *)
Theorem C73_frozen : forall E cmdline raw text inc, start E cmdline raw = Some (text, inc) ->
  forall glob read cmdline' c, connection (with_files E glob read) cmdline' text inc c = connection E cmdline' text inc c.
Proof. intros E cmdline raw text inc H glob read cmdline' c. apply frozen_connection. now apply (C73_start E cmdline raw). Qed.
Print Assumptions C73_frozen.

(** Every accepted configuration has exactly one reading, with the directives in general and those for the connection, and
    every option gets definite values from them. *)
Theorem C73_reading : forall E cmdline text inc c r, self_contained (e_sshdir E) inc text -> connection E cmdline text inc c = Settings r ->
  exists cds out gen mine,
    (forall cds', given cmdline cds' <-> cds' = cds) /\
    (forall out', unfolds (e_sshdir E) (cached_texts inc) text out' <-> out' = out) /\
    (forall gen', picks (in_general E) out gen' <-> gen' = gen) /\
    (forall mine', picks (for_connection E c) out mine' <-> mine' = mine) /\
    (forall i, ~ special i -> exists vg vm, values (sets_int E) i (cds ++ gen) vg /\ values (sets_int E) i mine vm) /\
    (forall s, exists vg vm, values (sets_str E) s (cds ++ gen) vg /\ values (sets_str E) s mine vm) /\
    (forall a, exists vg vm, values (sets_arr E) a (cds ++ gen) vg /\ values (sets_arr E) a mine vm).
Proof.
  intros E cmdline text inc c r SC H. destruct (connection_runs E _ _ _ _ _ SC H) as (out & cds & gen & mine & o2 & mo & A & B & C & D & R1 & R2 & _).
  exists cds, out, gen, mine.
  split; [intros x; split; [intros X; eapply given_fun; eauto|intros ->; exact A]|].
  split; [intros x; split; [intros X; eapply reads_fun; eauto|intros ->; exact B]|].
  split; [intros x; split; [intros X; eapply picks_fun; eauto|intros ->; exact C]|].
  split; [intros x; split; [intros X; eapply picks_fun; eauto|intros ->; exact D]|].
  split; [|split].
  - intros i S. assert (M : mixed i = false) by (destruct i; try reflexivity; exfalso; apply S; reflexivity).
    destruct (int_values E i M _ _ _ R1) as (vg & V1). destruct (int_values E i M _ _ _ R2) as (vm & V2). eauto.
  - intros s. destruct (str_values E s _ _ _ R1) as (vg & V1). destruct (str_values E s _ _ _ R2) as (vm & V2). eauto.
  - intros a. destruct (arr_values E a _ _ _ R1) as (vg & V1). destruct (arr_values E a _ _ _ R2) as (vm & V2). eauto.
Qed.
Print Assumptions C73_reading.

(** The value of an option: the first that the Match blocks applying to the connection give; else the first of the command
    line; else the first of the rest of the configuration; else the default. *)
Theorem C73_value : forall E cmdline text inc c r cds out gen mine i vg vm,
  self_contained (e_sshdir E) inc text -> connection E cmdline text inc c = Settings r ->
  given cmdline cds -> unfolds (e_sshdir E) (cached_texts inc) text out -> picks (in_general E) out gen -> picks (for_connection E c) out mine ->
  values (sets_int E) i (cds ++ gen) vg -> values (sets_int E) i mine vm ->
  ~ special i ->
  (whole_server i -> o_int r i = first vg (default_int i)) /\
  (~ whole_server i -> ~ last_wins i -> o_int r i = first (vm ++ vg) (default_int i)).
Proof.
  intros E cmdline text inc c r cds out gen mine i vg vm SC H G U P1 P2 V1 V2 S.
  destruct (connection_runs E _ _ _ _ _ SC H) as (out0 & cds0 & gen0 & mine0 & o2 & mo & A & B & C & D & R1 & R2 & CS).
  assert (out0 = out) by (eapply reads_fun; eauto). assert (cds0 = cds) by (eapply given_fun; eauto). subst out0 cds0.
  assert (gen0 = gen) by (eapply picks_fun; eauto). assert (mine0 = mine) by (eapply picks_fun; eauto). subst gen0 mine0.
  assert (M : mixed i = false) by (destruct i; try reflexivity; exfalso; apply S; reflexivity).
  destruct (copy_set_get _ _ _ CS) as (K & _ & _). rewrite K. cbn [fill_default o_int].
  destruct (run_int E i M _ _ V1 _ _ R1) as (X1 & Y1). destruct (run_int E i M _ _ V2 _ _ R2) as (X2 & Y2). cbn [init_opts o_int] in X1, X2. change (-1 =? -1) with true in X1, X2. cbv iota in X1, X2.
  split.
  - intros W. assert (Q : copied_int i = false /\ forced i = false) by (unfold whole_server in W; cbn [In] in W; repeat (destruct W as [<-|W]; [split; reflexivity|]); destruct W).
    destruct Q as [Q1 Q2]. rewrite Q1. cbn [andb]. destruct (X1 Q2) as [-> N]. unfold first. destruct vg as [|v vg]; [reflexivity|]. cbn [hd In] in *. destruct (v =? -1) eqn:Z0; [exfalso; apply N; left; lia|reflexivity].
  - intros W L. assert (Q : copied_int i = true /\ forced i = false).
    { destruct i; cbn; split; try reflexivity; exfalso; first [apply W; unfold whole_server; cbn [In]; tauto|apply L; unfold last_wins; cbn [In]; tauto]. }
    destruct Q as [Q1 Q2]. rewrite Q1. cbn [andb]. destruct (X2 Q2) as [-> N2]. destruct (X1 Q2) as [-> N1]. unfold first. destruct vm as [|v vm]; cbn [hd app In] in *.
    + change (-1 =? -1) with true. cbn [negb]. destruct vg as [|v vg]; [reflexivity|]. cbn [hd In] in *. destruct (v =? -1) eqn:Z0; [exfalso; apply N1; left; lia|reflexivity].
    + destruct (v =? -1) eqn:Z0; [exfalso; apply N2; left; lia|reflexivity].
Qed.
Print Assumptions C73_value.
(** IPQoS and StreamLocalBindMask: the last value counts, not the first. *)
Theorem C73_last : forall E cmdline text inc c r cds out gen mine i vg vm,
  self_contained (e_sshdir E) inc text -> connection E cmdline text inc c = Settings r ->
  given cmdline cds -> unfolds (e_sshdir E) (cached_texts inc) text out -> picks (in_general E) out gen -> picks (for_connection E c) out mine ->
  values (sets_int E) i (cds ++ gen) vg -> values (sets_int E) i mine vm ->
  last_wins i -> ~ In (-1) vg -> ~ In (-1) vm -> o_int r i = last_one vm (last_one vg (default_int i)).
Proof.
  intros E cmdline text inc c r cds out gen mine i vg vm SC H G U P1 P2 V1 V2 L N1 N2.
  destruct (connection_runs E _ _ _ _ _ SC H) as (out0 & cds0 & gen0 & mine0 & o2 & mo & A & B & C & D & R1 & R2 & CS).
  assert (out0 = out) by (eapply reads_fun; eauto). assert (cds0 = cds) by (eapply given_fun; eauto). subst out0 cds0.
  assert (gen0 = gen) by (eapply picks_fun; eauto). assert (mine0 = mine) by (eapply picks_fun; eauto). subst gen0 mine0.
  assert (Q : copied_int i = true /\ forced i = true /\ mixed i = false) by (unfold last_wins in L; cbn [In] in L; repeat (destruct L as [<-|L]; [repeat split; reflexivity|]); destruct L).
  destruct Q as (Q1 & Q2 & M). destruct (copy_set_get _ _ _ CS) as (K & _ & _). rewrite K. cbn [fill_default o_int]. rewrite Q1. cbn [andb].
  destruct (run_int E i M _ _ V1 _ _ R1) as (_ & Y1). destruct (run_int E i M _ _ V2 _ _ R2) as (_ & Y2). rewrite (Y1 Q2), (Y2 Q2). cbn [init_opts o_int]. unfold last_one.
  assert (LN : forall l : list Z, ~ In (-1) l -> (List.last l (-1) =? -1) = match l with [] => true | _ => false end).
  { intros l N. destruct l as [|x l]; [reflexivity|]. apply Z.eqb_neq. intros Z0. apply N. rewrite <- Z0 at 1. destruct (@exists_last _ (x :: l) ltac:(discriminate)) as (l' & y & ->).
    rewrite last_last. apply in_or_app. right. now left. }
  assert (LD : forall (l : list Z) d d', l <> [] -> List.last l d = List.last l d').
  { intros l d d' NE. destruct (@exists_last _ l NE) as (l' & y & ->). now rewrite !last_last. }
  rewrite (LN vm N2), (LN vg N1). destruct vm as [|v vm].
  - cbn [negb List.last]. destruct vg as [|w vg]; [reflexivity|]. apply LD. discriminate.
  - cbn [negb]. apply LD. discriminate.
Qed.
Print Assumptions C73_last.

(** Texts.  For ForceCommand and ChrootDirectory "none" means no value; for Banner and the other files it does so only
    outside the Match blocks of the connection. *)
Theorem C73_text : forall E cmdline text inc c r cds out gen mine s vg vm,
  self_contained (e_sshdir E) inc text -> connection E cmdline text inc c = Settings r ->
  given cmdline cds -> unfolds (e_sshdir E) (cached_texts inc) text out -> picks (in_general E) out gen -> picks (for_connection E c) out mine ->
  values (sets_str E) s (cds ++ gen) vg -> values (sets_str E) s mine vm ->
  (In s [adm_forced_command; chroot_directory] -> o_str r s = off (hd_error (vm ++ vg))) /\
  (In s [banner; trusted_user_ca_keys; revoked_keys_file; authorized_principals_file] ->
     o_str r s = match vm with v :: _ => Some v | [] => off (hd_error vg) end) /\
  (In s [authorized_keys_command; authorized_keys_command_user; authorized_principals_command; authorized_principals_command_user;
         hostbased_accepted_algos; pubkey_accepted_algos; ca_sign_algorithms] -> o_str r s = hd_error (vm ++ vg)).
Proof.
  intros E cmdline text inc c r cds out gen mine s vg vm SC H G U P1 P2 V1 V2.
  destruct (connection_runs E _ _ _ _ _ SC H) as (out0 & cds0 & gen0 & mine0 & o2 & mo & A & B & C & D & R1 & R2 & CS).
  assert (out0 = out) by (eapply reads_fun; eauto). assert (cds0 = cds) by (eapply given_fun; eauto). subst out0 cds0.
  assert (gen0 = gen) by (eapply picks_fun; eauto). assert (mine0 = mine) by (eapply picks_fun; eauto). subst gen0 mine0.
  destruct (copy_set_get _ _ _ CS) as (_ & K & _). rewrite K. cbn [fill_default o_str].
  rewrite (run_str E s _ _ V1 _ _ R1), (run_str E s _ _ V2 _ _ R2). cbn [init_opts o_str].
  assert (OO : forall v : option (list Z), off (off v) = off v).
  { intros [t|]; cbn [off]; [|reflexivity]. destruct (list_eq_dec Z.eq_dec (map tolower t) (bs "none")) eqn:Q; [reflexivity|]. cbn [off]. now rewrite Q. }
  split; [|split]; intros I; cbn [In] in I; repeat (destruct I as [<-|I]; [cbn [late_str cleared]; rewrite ?clear_off; destruct vm; cbn [hd_error app]; rewrite ?OO; reflexivity|]); destruct I.
Qed.
Print Assumptions C73_text.

(** Lists.  AllowUsers and its like take what all their lines say, but if a Match block that applies has any such line, then
    only what the blocks say; of the other lists the first line counts. *)
Theorem C73_list : forall E cmdline text inc c r cds out gen mine a vg vm,
  self_contained (e_sshdir E) inc text -> connection E cmdline text inc c = Settings r ->
  given cmdline cds -> unfolds (e_sshdir E) (cached_texts inc) text out -> picks (in_general E) out gen -> picks (for_connection E c) out mine ->
  values (sets_arr E) a (cds ++ gen) vg -> values (sets_arr E) a mine vm ->
  (In a [allow_users; deny_users; allow_groups; deny_groups; accept_env] -> o_arr r a = match vm with [] => concat vg | _ => concat vm end) /\
  (In a [setenv; permitted_opens; permitted_listens; log_verbose] -> o_arr r a = first (vm ++ vg) []) /\
  (a = authorized_keys_files -> o_arr r a = first (vm ++ vg) [bs ".ssh/authorized_keys"; bs ".ssh/authorized_keys2"]) /\
  (a = auth_methods -> vm = [] -> (forall w, first vg [] <> [w] \/ ~ spelled w "any") -> o_arr r a = first vg []) /\
  (a = auth_methods -> vm = [] -> forall w, first vg [] = [w] -> spelled w "any" -> o_arr r a = []) /\
  (a = channel_timeouts -> vm = [] -> (forall w, first vg [] <> [w] \/ ~ spelled w "none") -> o_arr r a = first vg []) /\
  (a = channel_timeouts -> vm = [] -> forall w, first vg [] = [w] -> spelled w "none" -> o_arr r a = []) /\
  (a = auth_methods \/ a = channel_timeouts -> vm <> [] -> o_arr r a = first vm []).
Proof.
  intros E cmdline text inc c r cds out gen mine a vg vm SC H G U P1 P2 V1 V2.
  destruct (connection_runs E _ _ _ _ _ SC H) as (out0 & cds0 & gen0 & mine0 & o2 & mo & A & B & C & D & R1 & R2 & CS).
  assert (out0 = out) by (eapply reads_fun; eauto). assert (cds0 = cds) by (eapply given_fun; eauto). subst out0 cds0.
  assert (gen0 = gen) by (eapply picks_fun; eauto). assert (mine0 = mine) by (eapply picks_fun; eauto). subst gen0 mine0.
  destruct (copy_set_get _ _ _ CS) as (_ & _ & K). rewrite K. cbn [fill_default o_arr]. clear K CS.
  destruct (run_arr E a _ _ V1 _ _ R1) as (X1 & N1). destruct (run_arr E a _ _ V2 _ _ R2) as (X2 & N2). cbn [init_opts o_arr app is_nil] in X1, X2. rewrite X1, X2. clear - N1 N2. unfold first.
  assert (CN : forall v : list (list (list Z)), ~ In [] v -> is_nil (concat v) = match v with [] => true | _ => false end).
  { intros [|[|x y] v] N; try reflexivity. exfalso. apply N. now left. }
  assert (HN : forall v : list (list (list Z)), ~ In [] v -> is_nil (hd [] v) = match v with [] => true | _ => false end).
  { intros [|[|x y] v] N; try reflexivity. exfalso. apply N. now left. }
  assert (SW : forall (l : list (list Z)) s, map tolower (bs s) = bs s -> (exists w, l = [w] /\ spelled w s) -> single_word l (bs s) = true).
  { intros l s L (w & -> & S). cbn [single_word]. apply strcaseeq_iff. unfold spelled in S. congruence. }
  assert (SN : forall (l : list (list Z)) s, map tolower (bs s) = bs s -> (forall w, l <> [w] \/ ~ spelled w s) -> single_word l (bs s) = false).
  { intros l s L S. destruct l as [|w [|]]; try reflexivity. cbn [single_word]. destruct (strcaseeq w (bs s)) eqn:Q; [|reflexivity]. apply strcaseeq_iff in Q. destruct (S w) as [X|X]; [congruence|]. exfalso. apply X. unfold spelled. congruence. }
  split; [|split; [|split; [|split; [|split; [|split; [|split]]]]]].
  - intros I. cbn [In] in I. repeat (destruct I as [<-|I]; [cbn [is_growing]; rewrite (CN vm N2); now destruct vm|]). destruct I.
  - intros I. cbn [In] in I. repeat (destruct I as [<-|I]; [cbn [is_growing]; rewrite (HN vm N2); now destruct vm|]). destruct I.
  - intros ->. cbn [is_growing]. rewrite (HN vm N2), (HN vg N1). destruct vm; [|reflexivity]. now destruct vg.
  - intros -> -> S. cbn [is_growing hd is_nil]. now rewrite (SN _ "any"%string eq_refl S).
  - intros -> -> w Q S. cbn [is_growing hd is_nil]. now rewrite (SW _ "any"%string eq_refl (ex_intro _ w (conj Q S))).
  - intros -> -> S. cbn [is_growing hd is_nil]. now rewrite (SN _ "none"%string eq_refl S).
  - intros -> -> w Q S. cbn [is_growing hd is_nil]. now rewrite (SW _ "none"%string eq_refl (ex_intro _ w (conj Q S))).
  - intros [-> | ->] NE; cbn [is_growing]; rewrite (HN vm N2); now destruct vm.
Qed.
Print Assumptions C73_list.

(** The defaults are those of the manual. *)
Definition gives (p : op) (w : list Z) (i : iopt) (v : Z) : bool :=
  match p with
  | OMulti j t => iopt_beq i j && match state_value t w with Some x => x =? v | None => false end
  | OTime j => iopt_beq i j && (convtime w =? v) && negb (v =? -1)
  | ONum j => iopt_beq i j && match atoi_err w with Some x => x =? v | None => false end
  | OPubkeyOptions => iopt_beq i pubkey_auth_options && match pubkey_opts [w] 0 with Some x => x =? v | None => false end
  | OTunnel => iopt_beq i permit_tun && match exact_value t_tun w with Some x => x =? v | None => false end
  | ORekey => iopt_beq i rekey_limit && beqb w (bs "default") && (v =? 0)
  | OUnused => iopt_beq i unused_connection_timeout && strcaseeq w (bs "none") && (v =? 0)
  | _ => false
  end.
Lemma documented_given : forallb (fun '(k, w, i) => match find_keyword keywords (bs k) with Some (p, _) => gives p (bs w) i (default_int i) | None => false end) documented = true.
Proof. vm_compute. reflexivity. Qed.
Theorem C73_defaults : forall E k w i, In (k, w, i) documented -> forall rest, sets_int E (mkDir (bs k) rest [bs w]) i (default_int i).
Proof.
  intros E k w i H rest. apply sets_int_iff. pose proof documented_given as G. rewrite forallb_forall in G. specialize (G _ H). cbv beta iota in G.
  destruct (find_keyword keywords (bs k)) as [[p m]|] eqn:F; [|discriminate]. exists p, m. split; [reflexivity|]. remember (default_int i) as v. clear - G.
  destruct p; cbn [gives op_int] in *; try discriminate; rewrite ?andb_true_iff in G.
  - destruct G as [A B]. apply internal_iopt_dec_bl in A. split; [exact A|]. eexists. split; [reflexivity|]. destruct (state_value _ _); [|discriminate]. apply Z.eqb_eq in B. now subst.
  - destruct G as [[A B] C]. apply internal_iopt_dec_bl in A. split; [exact A|]. eexists. split; [reflexivity|]. apply Z.eqb_eq in B. apply negb_true_iff, Z.eqb_neq in C. now split.
  - destruct G as [A B]. apply internal_iopt_dec_bl in A. split; [exact A|]. eexists. split; [reflexivity|]. destruct (atoi_err _); [|discriminate]. apply Z.eqb_eq in B. now subst.
  - destruct G as [A B]. apply internal_iopt_dec_bl in A. split; [exact A|]. destruct (pubkey_opts _ _); [|discriminate]. apply Z.eqb_eq in B. now subst.
  - destruct G as [A B]. apply internal_iopt_dec_bl in A. split; [exact A|]. eexists. split; [reflexivity|]. destruct (exact_value _ _); [|discriminate]. apply Z.eqb_eq in B. now subst.
  - destruct G as [[A B] C]. apply internal_iopt_dec_bl in A. left. split; [exact A|]. do 2 eexists. split; [reflexivity|]. left. apply beqb_eq in B. apply Z.eqb_eq in C. now split.
  - destruct G as [[A B] C]. apply internal_iopt_dec_bl in A. split; [exact A|]. eexists. split; [reflexivity|]. left. apply Z.eqb_eq in C. now split.
Qed.
Print Assumptions C73_defaults.

(** Under a Match line that does not hold, when the server starts: the keywords of the main section are refused; the others are
    taken wherever they would be taken in the main section. *)
Lemma match_table : forallb (fun k => match find_keyword keywords (bs k) with Some (p, m) => m && match p with OMatch | OInclude => false | _ => true end | None => false end) in_match_blocks = true /\
  forallb (fun k => match find_keyword keywords (bs k) with Some (p, m) => negb m | None => false end) main_section_only = true.
Proof. split; vm_compute; reflexivity. Qed.
Lemma exec_either : forall E p k rest ws o o', exec E p k rest ws true o = Some o' -> exists o2, exec E p k rest ws false o = Some o2.
Proof.
  intros E p k rest ws o o' H. destruct p; cbn [exec] in *; unfold do_time, do_subsystem, option_map in *; cbn [negb] in *;
    repeat match goal with
    | H : match ?x with _ => _ end = Some _ |- _ => destruct x; try discriminate H; cbv iota zeta in *
    end; try discriminate; eauto.
Qed.
Theorem C73_where : forall E read l k rest ws o never only inc, split_line l = Dir k rest ws ->
  (forall n, In n main_section_only -> same_key k n -> process_line E read None l (mkSt o false never only inc) = None) /\
  (forall n, In n in_match_blocks -> same_key k n ->
     (exists s, process_line E read None l (mkSt o true never only inc) = Some s) -> exists s, process_line E read None l (mkSt o false never only inc) = Some s).
Proof.
  intros E read l k rest ws o never only inc H. destruct match_table as [T1 T2]. rewrite forallb_forall in T1, T2. unfold process_line. rewrite H.
  split; intros n N K; [specialize (T2 n N)|specialize (T1 n N)]; (assert (F : find_keyword keywords k = find_keyword keywords (bs n)) by (apply find_keyword_lower; exact K));
    rewrite F; destruct (find_keyword keywords (bs n)) as [[p m]|]; try discriminate.
  - apply negb_true_iff in T2. subst m. reflexivity.
  - apply andb_true_iff in T1. destruct T1 as [-> T1]. cbn [p_act p_opts negb andb]. intros (s & X).
    destruct p; try discriminate T1; match type of X with option_map _ (exec ?E ?p ?k ?r ?w true ?o) = _ => destruct (exec E p k r w true o) as [o'|] eqn:Q; [|discriminate] end;
      apply exec_either in Q; destruct Q as (o2 & Q); rewrite Q; cbn [option_map]; eauto.
Qed.
Print Assumptions C73_where.

(** ** A configuration *)
Definition demo_env (files : list (list Z * list Z)) (globs : list (list Z * list (list Z))) : env :=
  mkEnv (fun _ => None) (fun _ => None)
    (fun u => if beqb u (bs "bob") then Some [bs "staff"] else if beqb u (bs "root") then Some [bs "wheel"] else None)
    (fun g => match List.find (fun x => beqb (fst x) g) globs with Some (_, l) => Some l | None => Some [] end)
    (fun f => match List.find (fun x => beqb (fst x) f) files with Some (_, t) => Some t | None => None end)
    (bs "/etc/ssh") (bs "OpenSSH_10.0p1") (fun w => w) (fun w => w) (fun _ _ => true) (fun _ => true) (fun _ w => Some w)
    (fun w => if beqb w (bs "ef") then Some 184 else if beqb w (bs "none") then Some 1000 else None) (fun _ => Some 1048576) (fun _ => Some 63) (fun _ _ _ => true).
Definition nl : list Z := [10].
Definition demo_text : list Z :=
  bs "# main" ++ nl ++ bs "Include d/*.conf" ++ nl ++ bs "PermitRootLogin no" ++ nl ++ bs "permitrootlogin=yes" ++ nl ++ bs "AllowUsers alice bob" ++ nl ++ bs "Banner none" ++ nl ++
  bs "X11Forwarding yes" ++ nl ++ bs "Match User bob,!root Group staff" ++ nl ++ bs "	PasswordAuthentication no" ++ nl ++ bs "	ForceCommand echo hi" ++ nl ++
  bs "Match all" ++ nl ++ bs "MaxSessions 3" ++ nl.
Definition demo_inc : list Z := bs "X11Forwarding no" ++ nl ++ bs "Match user=bob" ++ nl ++ bs "PermitTTY no" ++ nl.
Definition demo_E : env := demo_env [(bs "/etc/ssh/d/a.conf", demo_inc)] [(bs "/etc/ssh/d/*.conf", [bs "/etc/ssh/d/a.conf"])].
Definition demo_conn (u : string) : conn := mkConn (Some (bs u)) false (Some (bs "h.example.com")) (Some (bs "192.0.2.1")) (Some (bs "192.0.2.2")) 22 None false.
Definition settings_of (E : env) (cmdline : list (list Z)) (raw : list Z) (c : conn) : option opts :=
  match start E cmdline raw with Some (text, inc) => match connection E cmdline text inc c with Settings r => Some r | _ => None end | None => None end.
Definition ints_of (o : option opts) (l : list iopt) : option (list Z) := option_map (fun r => map (o_int r) l) o.
Example C73_demo :
  ints_of (settings_of demo_E [] demo_text (demo_conn "bob")) [permit_root_login; password_authentication; x11_forwarding; permit_tty; max_sessions; max_authtries] = Some [0; 0; 0; 0; 3; 6] /\
  ints_of (settings_of demo_E [] demo_text (demo_conn "alice")) [permit_root_login; password_authentication; x11_forwarding; permit_tty; max_sessions; max_authtries] = Some [0; 1; 0; 1; 3; 6] /\
  ints_of (settings_of demo_E [bs "PermitRootLogin=prohibit-password"] demo_text (demo_conn "bob")) [permit_root_login] = Some [2] /\
  option_map (fun r => (o_str r adm_forced_command, o_str r banner, o_arr r allow_users)) (settings_of demo_E [] demo_text (demo_conn "bob")) =
    Some (Some (bs "echo hi"), None, [bs "alice"; bs "bob"]).
Proof. vm_compute. repeat split; reflexivity. Qed.

(** ** What one might expect, and does not hold *)
(** IPQoS: not the first value. *)
Theorem C73_first_value_refuted : exists E cmdline text inc c r cds out gen mine vg vm,
  self_contained (e_sshdir E) inc text /\ connection E cmdline text inc c = Settings r /\ given cmdline cds /\
  unfolds (e_sshdir E) (cached_texts inc) text out /\ picks (in_general E) out gen /\ picks (for_connection E c) out mine /\
  values (sets_int E) ip_qos_bulk (cds ++ gen) vg /\ values (sets_int E) ip_qos_bulk mine vm /\
  o_int r ip_qos_bulk <> first (vm ++ vg) (default_int ip_qos_bulk).
Proof.
  set (E := demo_env [] []). set (text := bs "IPQoS ef" ++ nl ++ bs "IPQoS none" ++ nl). set (c := demo_conn "bob").
  assert (S : start E [] text = Some (text, [])) by (vm_compute; reflexivity).
  destruct (C73_start _ _ _ _ _ S) as (_ & SC & _).
  destruct (connection E [] text [] c) as [r| |] eqn:CN.
  2,3: exfalso; assert (X : match connection E [] text [] c with Settings _ => true | _ => false end = true) by (vm_compute; reflexivity); rewrite CN in X; discriminate.
  assert (V : o_int r ip_qos_bulk = 1000).
  { assert (X : match connection E [] text [] c with Settings r => o_int r ip_qos_bulk | _ => 0 end = 1000) by (vm_compute; reflexivity). now rewrite CN in X. }
  assert (L1 : split_line (bs "IPQoS ef") = Dir (bs "IPQoS") (bs "ef") [bs "ef"]) by (vm_compute; reflexivity).
  assert (L2 : split_line (bs "IPQoS none") = Dir (bs "IPQoS") (bs "none") [bs "none"]) by (vm_compute; reflexivity).
  assert (SP : split 10 text = [bs "IPQoS ef"; bs "IPQoS none"; []]) by (vm_compute; reflexivity).
  assert (NM : forall s, In s ["match"; "include"]%string -> ~ spelled (bs "IPQoS") s) by (intros s [<-|[<-|[]]] X; vm_compute in X; discriminate).
  exists E, [], text, [], c, r, [], [([], mkDir (bs "IPQoS") (bs "ef") [bs "ef"]); ([], mkDir (bs "IPQoS") (bs "none") [bs "none"])],
    [mkDir (bs "IPQoS") (bs "ef") [bs "ef"]; mkDir (bs "IPQoS") (bs "none") [bs "none"]], [], [184; 1000], [].
  split; [exact SC|]. split; [exact CN|]. split; [constructor|].
  split. { unfold unfolds. rewrite SP. eapply (r_other _ _ [] []); [exact L1|apply NM; cbn; auto|apply NM; cbn; auto|]. eapply (r_other _ _ [] []); [exact L2|apply NM; cbn; auto|apply NM; cbn; auto|]. apply r_skip; [reflexivity|constructor]. }
  split. { apply p_take; [constructor|]. apply p_take; [constructor|constructor]. }
  split. { apply p_leave; [intros [X _]; now apply X|]. apply p_leave; [intros [X _]; now apply X|constructor]. }
  split. { cbn [app]. apply v_take; [apply s_bulk1; [reflexivity|reflexivity]|]. apply v_take; [apply s_bulk1; [reflexivity|reflexivity]|constructor]. }
  split; [constructor|]. rewrite V. cbn. lia.
Qed.
Print Assumptions C73_first_value_refuted.

(** A configuration that the server starts with, and refuses for every connection: a file among several of an Include that
    includes the same files again. *)
Definition loop_E : env := demo_env [(bs "/etc/ssh/d/a", []); (bs "/etc/ssh/d/b", bs "Include d/*" ++ nl)] [(bs "/etc/ssh/d/*", [bs "/etc/ssh/d/a"; bs "/etc/ssh/d/b"])].
Theorem C73_accepted_at_start_refuted : exists text inc, start loop_E [] (bs "Include d/*" ++ nl) = Some (text, inc) /\
  forall c, connection loop_E [] text inc c = Refused.
Proof. do 2 eexists. split; [vm_compute; reflexivity|]. intros c. reflexivity. Qed.
Print Assumptions C73_accepted_at_start_refuted.

(** A Subsystem in a Match block, with none outside: reading outside an array. *)
Theorem C73_subsystem_refuted : exists E raw text inc c, start E [] raw = Some (text, inc) /\ connection E [] text inc c = Undefined.
Proof.
  exists (demo_env [] []), (bs "Match User bob" ++ nl ++ bs "Subsystem sftp internal-sftp" ++ nl). do 2 eexists. exists (demo_conn "bob").
  split; [vm_compute; reflexivity|]. vm_compute. reflexivity.
Qed.
Print Assumptions C73_subsystem_refuted.
(** One subsystem in a Match block takes the others away. *)
Example C73_subsystem_demo :
  option_map (fun r => firstn (o_nsub r) (o_subname r)) (settings_of (demo_env [] []) [] (bs "Subsystem sftp a" ++ nl ++ bs "Subsystem x b" ++ nl ++ bs "Match User bob" ++ nl ++ bs "Subsystem y c" ++ nl) (demo_conn "bob")) = Some [bs "y"].
Proof. vm_compute. reflexivity. Qed.
(** A quotation mark joined to the keyword, without its partner: the line is ignored without a word. *)
Example C73_quote_demo : split_line (bs "DenyUsers" ++ 34 :: bs "root") = Skip.
Proof. vm_compute. reflexivity. Qed.
(** "Banner none" in a Match block does not remove the banner but names a file; UnusedConnectionTimeout none overrides what was
    before it; the limit and the interval of RekeyLimit may come from different lines. *)
Example C73_surprises :
  option_map (fun r => o_str r banner) (settings_of (demo_env [] []) [] (bs "Banner /etc/b" ++ nl ++ bs "Match User bob" ++ nl ++ bs "Banner none" ++ nl) (demo_conn "bob")) = Some (Some (bs "none")) /\
  ints_of (settings_of (demo_env [] []) [] (bs "UnusedConnectionTimeout 5" ++ nl ++ bs "UnusedConnectionTimeout none" ++ nl) (demo_conn "bob")) [unused_connection_timeout] = Some [0] /\
  ints_of (settings_of (demo_env [] []) [] (bs "RekeyLimit 1M" ++ nl ++ bs "RekeyLimit default 9" ++ nl) (demo_conn "bob")) [rekey_limit; rekey_interval] = Some [1048576; 9].
Proof. vm_compute. repeat split; reflexivity. Qed.
