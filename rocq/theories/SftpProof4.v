(** One request against the map of live handles. *)
From Coq Require Import String.
From Verif Require Import Base SshbufModel SshbufSpec WireSpec WireProof Dec Text MatchModel MatchSpec MatchProof.
From Verif Require Import SftpModel SftpSpec SftpProof SftpProof2 SftpProof3.

Definition no_open (c : call) : Prop := match c with COpen _ _ _ | COpendir _ => False | _ => True end.
Definition no_issue (r : reply) : Prop := match r with RHandle _ _ => False | _ => True end.
(** Calls by name only, and calls on a given object as well. *)
Definition by_name (c : call) : Prop := call_obj c = None /\ no_open c.
Definition on (x : Z + Z) (c : call) : Prop := (call_obj c = None \/ call_obj c = Some x) /\ no_open c.

Lemma no_open_opened : forall c r o, no_open c -> opened c r <> Some o.
Proof. intros [] r o H; cbn in *; try discriminate; contradiction. Qed.

Definition did (st st' : state) (cs : list (call * option sysres)) (rs : list reply) : Prop := s_calls st' = s_calls st ++ cs /\ s_out st' = s_out st ++ rs.

Lemma forall_fst : forall (P : call -> Prop) (cs : list (call * option sysres)) c r, Forall (fun x => P (fst x)) cs -> In (c, r) cs -> P c.
Proof. intros P cs c r H I. rewrite Forall_forall in H. apply (H _ I). Qed.

(** Requests that leave the table alone. *)
Lemma handled_same : forall m T T' cs rs,
  m_type m <> Some 4 ->
  Forall (fun x => no_open (fst x) /\ (forall k, call_obj (fst x) = Some k -> exists h w o, In (h, w) (uses m) /\ T h = Some o /\ fits_want w o /\ obj_key o = k)) cs ->
  (forall h w, In (h, w) (uses m) -> (forall o, T h = Some o -> ~ fits_want w o) -> cs = [] /\ exists id r, m_id m = Some id /\ rs = [r] /\ refusal id r) ->
  Forall no_issue rs -> same_table T' T -> handled m T cs rs T'.
Proof.
  intros m T T' cs rs Ht Hc Hr Hi Hs. split.
  - intros c r x Hin Hx. rewrite Forall_forall in Hc. apply (Hc _ Hin). exact Hx.
  - exact Hr.
  - intros c r o Hin Ho. exfalso. rewrite Forall_forall in Hc. exact (no_open_opened _ _ _ (proj1 (Hc _ Hin)) Ho).
  - intros id h Hin. exfalso. rewrite Forall_forall in Hi. exact (Hi _ Hin).
  - intros h o Ht'. now destruct (Ht Ht').
  - auto.
Qed.

Ltac eff_step :=
  first
  [ lazymatch goal with
    | |- eff _ _ _ (bind (look _) _) => apply eff_look; intros ? ?
    | |- eff _ _ _ (bind _ _) => apply eff_bind; [assumption| |intros ?]
    | |- eff _ _ _ (let _ := _ in _) => cbv zeta
    end
  | apply eff_ret | apply eff_stop | apply eff_parse | apply eff_get_handle | apply eff_update
  | (apply eff_send; try (exact I))
  | (apply eff_sys; try (repeat split; auto; fail))
  | (apply eff_attr; [assumption|intros _; try (repeat split; auto; fail)])
  | match goal with
    | |- eff _ _ _ (if ?b then _ else _) => destruct b eqn:?
    | |- eff _ _ _ (match ?x with _ => _ end) => destruct x eqn:?
    end ].
Ltac unf := unfold send_unless_ok, send_result, send_status, send_status_errmsg, send_name1, send_statvfs in *.

Definition any_state : state -> Prop := fun _ => True.
Lemma stable_any : stable any_state. Proof. intros st st' H _. exact I. Qed.

(** Handlers that take names only. *)
Definition path_types : list Z := [7; 9; 13; 14; 15; 16; 17; 18; 19; 20].
Lemma path_handlers : forall cf k, In k handlers -> In (k_type k) path_types -> forall id, eff any_state by_name no_issue (k_run k cf id).
Proof.
  pose proof stable_any as HK.
  intros cf k Hk Ht id. cbn [handlers In] in Hk.
  repeat (destruct Hk as [<- | Hk]; [cbn [k_type k_run] in *; try (exfalso; cbn in Ht; unfold FXP_OPEN, FXP_CLOSE, FXP_READ, FXP_WRITE, FXP_FSTAT, FXP_FSETSTAT, FXP_OPENDIR, FXP_READDIR in Ht; intuition discriminate); clear Ht|]); try contradiction.
  - unfold process_do_stat. unf. repeat eff_step.
  - unfold process_setstat. unf. repeat eff_step.
  - unfold process_remove. unf. repeat eff_step.
  - unfold process_mkdir. unf. repeat eff_step.
  - unfold process_rmdir. unf. repeat eff_step.
  - unfold process_realpath, realpath_reply. unf. repeat eff_step.
  - unfold process_do_stat. unf. repeat eff_step.
  - unfold process_rename. unf. repeat eff_step.
  - unfold process_readlink. unf. repeat eff_step.
  - unfold process_symlink. unf. repeat eff_step.
Qed.
Definition handle_exts : list (list Z) := map bs ["fstatvfs@openssh.com"; "fsync@openssh.com"; "copy-data"]%string.
Lemma path_extended : forall cf k, In k extended_handlers -> ~ In (k_ext k) handle_exts -> forall id, eff any_state by_name no_issue (k_run k cf id).
Proof.
  pose proof stable_any as HK.
  intros cf k Hk Ht id. cbn [extended_handlers In] in Hk.
  repeat (destruct Hk as [<- | Hk]; [cbn [k_ext k_run] in *; try (exfalso; apply Ht; cbn; auto; fail); clear Ht|]); try contradiction.
  - unfold process_posix_rename. unf. repeat eff_step.
  - unfold process_statvfs. unf. repeat eff_step.
  - unfold process_hardlink. unf. repeat eff_step.
  - unfold process_lsetstat. unf. repeat eff_step.
  - unfold process_limits. unf. repeat eff_step.
  - unfold process_expand, realpath_reply. unf. repeat eff_step.
  - unfold process_home. unf. repeat eff_step.
  - unfold process_users_groups. unf. repeat eff_step; (eapply eff_names; [assumption| |apply le_n]); intros n; now split.
Qed.

(** Handlers that take one handle. *)
Definition holds (h : Z) (o : option obj) : state -> Prop := fun st => obj_at st h = o.
Lemma stable_holds : forall h o, stable (holds h o).
Proof. intros h o st st' H K. unfold holds. rewrite (hsame_at _ _ _ H). exact K. Qed.
Definition never : call -> Prop := fun _ => False.

Lemma refusal_status : forall id s t, s <> FX_OK -> refusal id (RStatus id s t).
Proof. intros id s t H. exists s, t. auto. Qed.

Definition user (w : want) (id : Z) (body : Z -> M unit) : Prop :=
  (forall h o, fits_want w o -> eff (holds h (Some o)) (on (obj_key o)) no_issue (body h)) /\
  (forall h oo, (forall o, oo = Some o -> ~ fits_want w o) -> eff (holds h oo) never (refusal id) (body h)).

Ltac look_fd := match goal with H : holds _ _ _ |- _ => unfold holds in H; rewrite ?to_fd_at, ?to_dir_at, ?to_name_at, ?to_flags_at, ?is_ok_file, ?H end.
Ltac user_tac :=
  let h := fresh "h" in let Hf := fresh "Hf" in
  split; [intros h [fd fl n|d n] Hf | intros h [[fd fl n|d n]|] Hf];
  try (exfalso; exact Hf); try (exfalso; eapply Hf; [reflexivity|exact I]);
  match goal with |- eff (holds ?h ?o) _ _ _ => pose proof (stable_holds h o) as HK end;
  unf; repeat (eff_step; try look_fd; cbn [obj_key] in * );
  try (apply refusal_status; discriminate); try (exfalso; lia).


Lemma user_read : forall id, exists body, process_read id = bind get_handle body /\ user WFile id body.
Proof. intros id. unfold process_read. eexists. split; [reflexivity|]. user_tac. Qed.
Lemma user_write : forall id, exists body, process_write id = bind get_handle body /\ user WFile id body.
Proof. intros id. unfold process_write. eexists. split; [reflexivity|]. user_tac. Qed.
Lemma user_fstat : forall id, exists body, process_fstat id = bind get_handle body /\ user WFile id body.
Proof. intros id. unfold process_fstat. eexists. split; [reflexivity|]. user_tac. Qed.
Lemma user_fsetstat : forall id, exists body, process_fsetstat id = bind get_handle body /\ user WFile id body.
Proof. intros id. unfold process_fsetstat. eexists. split; [reflexivity|]. user_tac. Qed.
Lemma user_readdir : forall cf id, exists body, process_readdir cf id = bind get_handle body /\ user WDir id body.
Proof.
  intros cf id. unfold process_readdir. eexists. split; [reflexivity|]. user_tac. apply eff_readdir; intros; now repeat split; auto.
Qed.
Lemma user_fstatvfs : forall id, exists body, process_fstatvfs id = bind get_handle body /\ user WFile id body.
Proof. intros id. unfold process_fstatvfs. eexists. split; [reflexivity|]. user_tac. Qed.
Lemma user_fsync : forall id, exists body, process_fsync id = bind get_handle body /\ user WFile id body.
Proof. intros id. unfold process_fsync. eexists. split; [reflexivity|]. user_tac. Qed.

(** * Results *)
Record result (m : list Z) (k : Z) (st st' : state) (cs : list (call * option sysres)) (rs : list reply) : Prop := {
  r_did : did st st' cs rs;
  r_ok : handled m (abs st) cs rs (abs st');
  r_inv : inv (k + issues (m, cs, rs) - closes (m, cs, rs)) st' }.

Lemma issues_none : forall m cs rs, Forall no_issue rs -> issues (m, cs, rs) = 0.
Proof.
  intros m cs rs H. unfold issues. cbn [snd]. induction H as [|r rs Hr H IH]; [reflexivity|]. cbn [filter]. now destruct r.
Qed.
Lemma closes_none : forall m cs rs, m_type m <> Some 4 -> closes (m, cs, rs) = 0.
Proof. intros m cs rs H. unfold closes. cbn [fst snd]. destruct (m_type m) as [t|]; [|reflexivity]. destruct cs; [reflexivity|]. destruct (t =? 4) eqn:E; [|reflexivity]. exfalso. apply H. f_equal. lia. Qed.
Lemma closes_nil : forall m rs, closes (m, [], rs) = 0.
Proof. intros m rs. unfold closes. cbn [fst snd]. now destruct (m_type m). Qed.

Lemma result_same : forall m k st st' cs rs, did st st' cs rs -> hsame st st' -> inv k st -> m_type m <> Some 4 \/ cs = [] -> Forall no_issue rs ->
  handled m (abs st) cs rs (abs st') -> result m k st st' cs rs.
Proof.
  intros m k st st' cs rs Hd Hs Hi Ht Hr Hh. split; [assumption|assumption|]. rewrite issues_none by assumption.
  replace (closes (m, cs, rs)) with 0 by (destruct Ht as [Ht | ->]; [now rewrite closes_none|now rewrite closes_nil]).
  replace (k + 0 - 0) with k by lia. eapply hsame_inv; eauto.
Qed.
Lemma abs_hsame : forall st st', hsame st st' -> same_table (abs st') (abs st).
Proof. intros st st' H. apply abs_same. intros j. now apply hsame_at. Qed.

Lemma path_result : forall m k (act : M unit) st st', eff any_state by_name no_issue act -> uses m = [] -> m_type m <> Some 4 -> inv k st -> act st = Go tt st' ->
  exists cs rs, result m k st st' cs rs.
Proof.
  intros m k act st st' He Hu Ht Hi Hg. destruct (He st I) as (cs & rs & H1 & H2 & H3 & H4 & H5). rewrite Hg in *. cbn [final] in *.
  exists cs, rs. apply result_same; auto; [now split|]. apply handled_same; auto.
  - eapply Forall_impl; [|exact H3]. intros [c r] [K1 K2]. cbn [fst] in *. split; [assumption|]. intros x Hx. congruence.
  - intros h w. rewrite Hu. intros [].
  - now apply abs_hsame.
Qed.

Lemma fits_dec : forall w (oo : option obj), (exists o, oo = Some o /\ fits_want w o) \/ (forall o, oo = Some o -> ~ fits_want w o).
Proof.
  intros w [o|]; [|right; discriminate]. destruct w, o; try (left; eexists; split; [reflexivity|exact I]); right; intros o E; injection E as <-; intros K; exact K.
Qed.
Lemma never_nil : forall (cs : list (call * option sysres)), Forall (fun c => never (fst c)) cs -> cs = [].
Proof. intros [|c cs] H; [reflexivity|]. inversion H as [|? ? K]. destruct K. Qed.
Lemma did_out : forall st st' cs rs rs', did st st' cs rs -> s_out st' = s_out st ++ rs' -> rs = rs'.
Proof. intros st st' cs rs rs' [_ H] H'. rewrite H in H'. now apply app_inv_head in H'. Qed.

Lemma user_result : forall m k w id body st st', user w id body -> one id (bind get_handle body) -> env_ok st ->
  m_type m <> Some 4 -> (forall s l, get_str (s_in st) = Some (s, l) -> uses m = [(s, w)]) -> m_id m = Some id -> inv k st ->
  bind get_handle body st = Go tt st' -> exists cs rs, result m k st st' cs rs.
Proof.
  intros m k w id body st st' [Hgood Hbad] Hone He Ht Hu Hid Hi Hg.
  specialize (Hone st He). rewrite Hg in Hone. destruct Hone as [(r & Hr & Hrid) _].
  unfold bind in Hg. destruct (get_handle st) as [h st1|] eqn:E; [|discriminate]. apply get_handle_at in E. destruct E as (s & l & Es & -> & Ho).
  specialize (Hu _ _ Es). destruct (fits_dec w (abs st s)) as [(o & Eo & Hf) | Hf].
  - destruct (Hgood h o Hf (set_in l st)) as (cs & rs & H1 & H2 & H3 & H4 & H5); [unfold holds; cbn; rewrite <- Eo, <- Ho; reflexivity|].
    rewrite Hg in *. cbn [final] in *. exists cs, rs. apply result_same; auto; [now split|]. apply handled_same; auto.
    + eapply Forall_impl; [|exact H3]. intros [c x] [K1 K2]. cbn [fst] in *. split; [assumption|]. intros y Hy. exists s, w, o. rewrite Hu. splits; auto; [now left|].
      destruct K1; congruence.
    + intros h' w'. rewrite Hu. intros [K|[]]. injection K as <- <-. intros K. exfalso. eapply K; eauto.
    + apply abs_hsame. exact H5.
  - destruct (Hbad h (abs st s) Hf (set_in l st)) as (cs & rs & H1 & H2 & H3 & H4 & H5); [unfold holds; cbn; exact Ho|].
    rewrite Hg in *. cbn [final] in *. apply never_nil in H3. subst cs. exists [], rs.
    assert (Hni : Forall no_issue rs) by (eapply Forall_impl; [|exact H4]; intros x (a & b & -> & _); exact I).
    apply result_same; auto; [now split|]. apply handled_same; auto.
    + intros h' w' _ _. split; [reflexivity|]. exists id, r. assert (rs = [r]) as -> by (eapply did_out; [split; eassumption|assumption]).
      splits; auto. now inversion H4.
    + apply abs_hsame. exact H5.
Qed.

(** * Opening *)
Definition opener (id : Z) (c : call) (u : use) (name : list Z) (flags : Z) (fdof dof : Z -> Z) (cl : Z -> call) : M unit :=
  do r <- sys c;
  if rs_ret r =? -1 then send_unless_ok id (errno_to_portable (rs_errno r))
  else do h <- handle_new u name (fdof (rs_ret r)) flags (dof (rs_ret r));
    if h <? 0 then (run sys (cl (rs_ret r)); send_unless_ok id FX_FAILURE) else send (RHandle id (handle_to_string h)).

Lemma opener_result : forall m k id c u name flags fdof dof cl st st', uses m = [] -> m_id m = Some id -> m_type m <> Some 4 -> call_obj c = None -> u <> HUnused ->
  (forall r, rs_ret r <> -1 -> opened c r = obj_of (mkHandle u (dof (rs_ret r)) (fdof (rs_ret r)) flags name 0 0 0)) ->
  (forall r, rs_ret r = -1 -> opened c r = None) ->
  inv k st -> k < 2147483648 -> opener id c u name flags fdof dof cl st = Go tt st' -> exists cs rs, result m k st st' cs rs.
Proof.
  intros m k id c u name flags fdof dof cl st st' Hu Hid Ht Hc Hun Hop Hno Hi Hk Hg. unfold opener, bind in Hg. unfold sys at 1 in Hg.
  destruct (s_env st) as [|r env]; [discriminate|]. set (st1 := add_calls [(c, Some r)] env st) in *.
  assert (Hi1 : inv k st1) by (eapply hsame_inv; [|exact Hi]; now split).
  destruct (rs_ret r =? -1) eqn:Er.
  - assert (K : exists rs, s_out st' = s_out st ++ rs /\ Forall no_issue rs /\ s_calls st' = s_calls st ++ [(c, Some r)] /\ hsame st st').
    { unfold send_unless_ok in Hg. destruct (_ =? FX_OK); cbn in Hg; injection Hg as <-; eexists; cbn.
      - split; [now rewrite app_nil_r|]. split; [constructor|]. split; [reflexivity|now split].
      - split; [reflexivity|]. split; [repeat constructor|]. split; [reflexivity|now split]. }
    destruct K as (rs & K1 & K2 & K3 & K4). exists [(c, Some r)], rs. apply result_same; auto; [now split|]. split.
    + intros c' r' x [E|[]] Hx. injection E as <- <-. congruence.
    + intros h w. rewrite Hu. intros [].
    + intros c' r' o [E|[]] Ho. injection E as <- <-. rewrite Hno in Ho by lia. discriminate.
    + intros i h Hin. exfalso. rewrite Forall_forall in K2. exact (K2 _ Hin).
    + intros h o Ht'. now destruct (Ht Ht').
    + intros _ _. now apply abs_hsame.
  - destruct (handle_new_spec k st1 u name (fdof (rs_ret r)) flags (dof (rs_ret r)) Hi1 Hun Hk) as (i & st2 & E2 & Hri & Hfree & Hsr & Hat & Hi2).
    rewrite E2 in Hg. replace (i <? 0) with false in Hg by lia. cbn in Hg. injection Hg as <-.
    destruct Hsr as (_ & S2 & S3 & _). assert (Hop' := Hop r ltac:(lia)). exists [(c, Some r)], [RHandle id (handle_to_string i)].
    destruct (string_number i Hri) as (L & N & B).
    assert (O : exists o, obj_of (mkHandle u (dof (rs_ret r)) (fdof (rs_ret r)) flags name 0 0 0) = Some o) by (unfold obj_of; cbn; destruct u; eauto; congruence).
    destruct O as (o & O). rewrite O in Hop'.
    assert (AT : forall j, obj_at (add_out (RHandle id (handle_to_string i)) st2) j = if j =? i then Some o else obj_at st j).
    { intros j. change (obj_at (add_out (RHandle id (handle_to_string i)) st2) j) with (obj_at st2 j). rewrite Hat. destruct (j =? i); [exact O|reflexivity]. }
    split.
    + split; cbn; [now rewrite S3|now rewrite S2].
    + split.
      * intros c' r' x [E|[]] Hx. injection E as <- <-. congruence.
      * intros h w. rewrite Hu. intros [].
      * intros c' r' o' [E|[]] Ho. injection E as <- <-. assert (o' = o) as -> by congruence.
        exists id, (handle_to_string i). splits; auto.
        { unfold abs. rewrite L, N. cbn. exact Hfree. }
        { apply abs_add; assumption. }
      * intros id' h _. exists c, r, o. split; [now left|assumption].
      * intros h o' Ht'. now destruct (Ht Ht').
      * intros _ Hno'. exfalso. eapply Hno'; [now left|eassumption].
    + rewrite closes_none by assumption. change (issues (m, [(c, Some r)], [RHandle id (handle_to_string i)])) with 1.
      replace (k + 1 - 0) with (k + 1) by lia. eapply hsame_inv; [|exact Hi2]. now split.
Qed.

Lemma open_result : forall cf m k id st st', uses m = [] -> m_id m = Some id -> m_type m <> Some 4 -> inv k st -> k < 2147483648 ->
  process_open cf id st = Go tt st' -> exists cs rs, result m k st st' cs rs.
Proof.
  intros cf m k id st st' Hu Hid Ht Hi Hk Hg. unfold process_open, bind, parse in Hg.
  destruct (get_cstr (s_in st)) as [[name l1]|]; [|discriminate]. cbn [s_in set_in] in Hg.
  destruct (get_int 4 l1) as [[pf l2]|]; [|discriminate]. cbn [s_in set_in] in Hg.
  destruct (decode_attrib l2) as [[a l3]|]; [|discriminate]. rewrite !set_in_in in Hg. cbv zeta in Hg.
  set (flags := flags_from_portable pf) in *. set (mode := if has (a_flags a) ATTR_PERMISSIONS then i32 (a_perm a) else 438) in *.
  assert (Hi1 : inv k (set_in l3 st)) by (eapply hsame_inv; [|exact Hi]; now split).
  assert (Back : forall cs rs, result m k (set_in l3 st) st' cs rs -> result m k st st' cs rs) by (intros cs rs [R1 R2 R3]; split; assumption).
  destruct (_ && _).
  - cbn in Hg. injection Hg as <-. exists [], [RStatus id FX_PERMISSION_DENIED (status_to_message FX_PERMISSION_DENIED)]. apply Back.
    apply result_same; auto; [split; cbn; now rewrite ?app_nil_r|now split|repeat constructor|]. apply handled_same; auto.
    + intros h w. rewrite Hu. intros [].
    + repeat constructor.
    + apply abs_hsame. now split.
  - change (opener id (COpen name flags mode) HFile name flags (fun x => x) (fun _ => 0) CClose (set_in l3 st) = Go tt st') in Hg.
    apply opener_result with (m := m) (k := k) in Hg; auto; [destruct Hg as (cs & rs & R); eauto|discriminate| |].
    + intros r Hr. cbn. now replace (rs_ret r =? -1) with false by lia.
    + intros r Hr. cbn. now replace (rs_ret r =? -1) with true by lia.
Qed.
Lemma opendir_result : forall m k id st st', uses m = [] -> m_id m = Some id -> m_type m <> Some 4 -> inv k st -> k < 2147483648 ->
  process_opendir id st = Go tt st' -> exists cs rs, result m k st st' cs rs.
Proof.
  intros m k id st st' Hu Hid Ht Hi Hk Hg. unfold process_opendir, bind, parse in Hg.
  destruct (get_cstr (s_in st)) as [[name l1]|]; [|discriminate]. cbn [s_in set_in] in Hg.
  assert (Hi1 : inv k (set_in l1 st)) by (eapply hsame_inv; [|exact Hi]; now split).
  assert (Back : forall cs rs, result m k (set_in l1 st) st' cs rs -> result m k st st' cs rs) by (intros cs rs [R1 R2 R3]; split; assumption).
  change (opener id (COpendir name) HDir name 0 (fun _ => 0) (fun x => x) CClosedir (set_in l1 st) = Go tt st') in Hg.
  apply opener_result with (m := m) (k := k) in Hg; auto; [destruct Hg as (cs & rs & R); eauto|discriminate| |].
  + intros r Hr. cbn. now replace (rs_ret r =? -1) with false by lia.
  + intros r Hr. cbn. now replace (rs_ret r =? -1) with true by lia.
Qed.

(** * Closing *)
Lemma from_string_live : forall s st o, abs st s = Some o -> zlen s = 4 /\ handle_from_string s st = i32 (be_dec s).
Proof.
  intros s st o H. unfold abs in H. destruct (zlen s =? 4) eqn:E; [|discriminate]. split; [lia|]. unfold handle_from_string. rewrite E. cbn [negb]. cbv zeta.
  rewrite is_ok_file, is_ok_dir, H. now destruct o.
Qed.
Lemma close_result : forall m k id st st' s l, get_str (s_in st) = Some (s, l) -> is_bytes s -> m_type m = Some 4 -> uses m = [(s, WAny)] -> m_id m = Some id -> inv k st ->
  process_close id st = Go tt st' -> exists cs rs, result m k st st' cs rs.
Proof.
  intros m k id st st' s l Es Hb Ht Hu Hid Hi Hg. unfold process_close, bind in Hg. unfold get_handle in Hg. rewrite Es in Hg.
  destruct (abs st s) as [o|] eqn:Eo.
  - destruct (from_string_live _ _ _ Eo) as [L Ef]. replace (zlen s <? 256) with true in Hg by lia. rewrite Ef in Hg. set (i := i32 (be_dec s)) in *.
    assert (At : obj_at (set_in l st) i = Some o) by (unfold abs in Eo; replace (zlen s =? 4) with true in Eo by lia; exact Eo).
    set (cl := match o with OFile fd _ _ => CClose fd | ODir d _ => CClosedir d end).
    assert (Hcl : handle_close i (set_in l st) = (do r <- sys cl; run handle_unused i; ret (rs_ret r, rs_errno r)) (set_in l st)).
    { unfold handle_close. rewrite is_ok_file, is_ok_dir, to_fd_at, to_dir_at, At. now destruct o. }
    rewrite Hcl in Hg. unfold bind in Hg. unfold sys in Hg. destruct (s_env (set_in l st)) as [|r env]; [discriminate|].
    set (st1 := add_calls [(cl, Some r)] env (set_in l st)) in *.
    assert (Hi1 : inv k st1) by (eapply hsame_inv; [|exact Hi]; now split).
    destruct (handle_unused_spec k st1 i o Hi1 At) as (st2 & E2 & (_ & S2 & S3 & _) & Hat & Hi2). rewrite E2 in Hg. cbn in Hg. injection Hg as <-.
    eexists [(cl, Some r)], _. split.
    + split; cbn; [rewrite S3|rewrite S2]; reflexivity.
    + split.
      * intros c' r' x [E|[]] Hx. injection E as <- <-. exists s, WAny, o. rewrite Hu. splits; auto; [now left|now destruct o|]. destruct o; cbn in *; congruence.
      * intros h w. rewrite Hu. intros [E|[]] Hbad. injection E as <- <-. exfalso. eapply Hbad; [exact Eo|now destruct o].
      * intros c' r' o' [E|[]] Ho. injection E as <- <-. exfalso. destruct o; discriminate.
      * intros id' h [E|[]]. discriminate.
      * intros h o' _ Hin Ho' _. rewrite Hu in Hin. destruct Hin as [E|[]]. injection E as <-. assert (o' = o) as -> by congruence. split; [eauto|].
        apply abs_remove; [assumption|congruence|]. intros j. exact (Hat j).
      * intros [K|K]; [congruence|discriminate].
    + match goal with |- inv (k + issues ?a - closes ?b) _ => change (issues a) with 0; replace (closes b) with 1 by (unfold closes; cbn [fst snd]; rewrite Ht; reflexivity) end.
      replace (k + 0 - 1) with (k - 1) by lia. eapply hsame_inv; [|exact Hi2]. now split.
  - assert (Hn : obj_at (set_in l st) (if zlen s <? 256 then handle_from_string s st else -1) = None).
    { destruct (zlen s <? 256); [change (obj_at st (handle_from_string s st) = None); rewrite from_string_at; exact Eo|now apply at_neg]. }
    unfold handle_close in Hg. rewrite is_ok_file, is_ok_dir, Hn in Hg. injection Hg as <-.
    exists [], [RStatus id (errno_to_portable 2) (status_to_message (errno_to_portable 2))]. apply result_same; auto.
    + split; [cbn [s_calls set_in add_out]; now rewrite app_nil_r|reflexivity].
    + now split.
    + repeat constructor.
    + split.
      * intros c' r' x [].
      * intros h w _ _. split; [reflexivity|]. eexists id, _. splits; try reflexivity; [assumption|]. eexists _, _. split; [reflexivity|]. vm_compute. discriminate.
      * intros c' r' o [].
      * intros id' h [E|[]]. discriminate.
      * intros h o _ _ _ K. now destruct K.
      * intros _ _. apply abs_hsame. now split.
Qed.
