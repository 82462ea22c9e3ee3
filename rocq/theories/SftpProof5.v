(** Whole sessions against the map of live handles. *)
From Coq Require Import String.
From Verif Require Import Base SshbufModel SshbufSpec WireSpec WireProof Dec Text MatchModel MatchSpec MatchProof.
From Verif Require Import SftpModel SftpSpec SftpProof SftpProof2 SftpProof3 SftpProof4.

(** * Copying *)
Definition holds2 (a b : Z) (x y : option obj) : state -> Prop := fun st => obj_at st a = x /\ obj_at st b = y.
Lemma stable_holds2 : forall a b x y, stable (holds2 a b x y).
Proof. intros a b x y st st' H [K1 K2]. unfold holds2. rewrite !(hsame_at _ _ _ H). now split. Qed.
Definition on2 (x y : Z + Z) (c : call) : Prop := (call_obj c = None \/ call_obj c = Some x \/ call_obj c = Some y) /\ no_open c.

Definition copy_rest (id rh roff rlen0 wh woff : Z) : M unit :=
  let eof := rlen0 =? 0 in
  let rlen := if eof then u64 (U64 - 1 - roff) else rlen0 in
  do rfd <- look (handle_to_fd rh); do wfd <- look (handle_to_fd wh);
  do rn <- look (handle_to_name rh); do wn <- look (handle_to_name wh);
  if (rh =? wh) || (rfd <? 0) || (wfd <? 0) ||
     match rn, wn with Some a, Some b => beqb a b | _, _ => true end
  then send_status id FX_FAILURE else
  do s <- sys (CLseek rfd roff);
  if rs_ret s <? 0 then send_status id (errno_to_portable (rs_errno s)) else
  do wflags <- look (handle_to_flags wh);
  do t <- (if has wflags O_APPEND then ret (mkRes 0 0 [] stat0) else sys (CLseek wfd woff));
  if rs_ret t <? 0 then send_status id (errno_to_portable (rs_errno t)) else
  fun st =>
    match copy_loop rfd wfd eof rlen FX_OP_UNSUPPORTED (s_env st) 0 0 [] with
    | (None, rd, wr, calls, env) => Halt HBlocked (add_calls calls env st)
    | (Some (todo, status), rd, wr, calls, env) =>
        (run handle_update false rh rd; run handle_update true wh wr;
         send_status id (if todo =? 0 then FX_OK else status)) (add_calls calls env st)
    end.

Lemma copy_good : forall id rh roff rlen wh woff f1 g1 n1 f2 g2 n2,
  eff (holds2 rh wh (Some (OFile f1 g1 n1)) (Some (OFile f2 g2 n2))) (on2 (inl f1) (inl f2)) no_issue (copy_rest id rh roff rlen wh woff).
Proof.
  intros. match goal with |- eff (holds2 ?a ?b ?x ?y) _ _ _ => pose proof (stable_holds2 a b x y) as HK end. unfold copy_rest. unf. cbv zeta.
  do 4 (apply eff_look; intros ? [? ?]). rewrite !to_fd_at, !to_name_at. repeat match goal with H : obj_at ?s ?h = Some _ |- context [obj_at ?s ?h] => rewrite H end.
  destruct (_ || _); [apply eff_send; exact I|]. eff_step; [eff_step; repeat split; auto|]. eff_step; [eff_step|].
  apply eff_look. intros s5 [? ?]. eff_step; [destruct (has _ _); [apply eff_ret|apply eff_sys; repeat split; auto]|].
  eff_step; [eff_step|]. apply eff_copy; [assumption|..]; intros; repeat split; auto.
Qed.
Lemma copy_bad : forall id rh roff rlen wh woff x y,
  (forall o, x = Some o -> ~ fits_want WFile o) \/ (forall o, y = Some o -> ~ fits_want WFile o) ->
  eff (holds2 rh wh x y) never (refusal id) (copy_rest id rh roff rlen wh woff).
Proof.
  intros id rh roff rlen wh woff x y Hb. pose proof (stable_holds2 rh wh x y) as HK. unfold copy_rest. unf. cbv zeta.
  apply eff_look; intros s1 [K1 K2]. apply eff_look; intros s2 [K3 K4]. apply eff_look; intros s3 [K5 K6]. apply eff_look; intros s4 [K7 K8]. rewrite !to_fd_at, !to_name_at, K1, K4, K5, K8.
  assert (E : (rh =? wh) || (match x with Some (OFile fd _ _) => fd | _ => -1 end <? 0) || (match y with Some (OFile fd _ _) => fd | _ => -1 end <? 0) = true).
  { destruct Hb as [Hb|Hb].
    - destruct x as [[fd fl n|d n]|]; [exfalso; eapply Hb; [reflexivity|exact I]| |]; now rewrite orb_true_r.
    - destruct y as [[fd fl n|d n]|]; [exfalso; eapply Hb; [reflexivity|exact I]| |]; now rewrite orb_true_r. }
  rewrite E. cbn [orb]. apply eff_send. apply refusal_status. discriminate.
Qed.

Lemma get_int_drop : forall w l v r, get_int w l = Some (v, r) -> r = zdrop (Z.of_nat w) l.
Proof. intros w l v r H. unfold get_int in H. destruct (_ <? _); [discriminate|]. now injection H as _ <-. Qed.

Lemma copy_result : forall m k id st st' h1 r1, get_str (s_in st) = Some (h1, r1) ->
  uses m = map (fun h => (h, WFile)) (h1 :: first_string (zdrop 16 r1)) -> m_id m = Some id -> m_type m <> Some 4 -> env_ok st -> inv k st ->
  process_copy_data id st = Go tt st' -> exists cs rs, result m k st st' cs rs.
Proof.
  intros m k id st st' h1 r1 E1 Hu Hid Ht He Hi Hg.
  pose proof (one_copy id st He) as Hone. rewrite Hg in Hone. destruct Hone as [(r & Hr & Hrid) _].
  unfold process_copy_data in Hg. unfold bind at 1 in Hg. destruct (get_handle st) as [rh st1|] eqn:G1; [|discriminate].
  apply get_handle_at in G1. destruct G1 as (s & l & E1' & -> & O1). rewrite E1 in E1'. injection E1' as <- <-.
  unfold bind at 1 in Hg. unfold parse at 1 in Hg. cbn [s_in set_in] in Hg. destruct (get_int 8 r1) as [[roff l2]|] eqn:E2; [|discriminate].
  unfold bind at 1 in Hg. unfold parse at 1 in Hg. cbn [s_in set_in] in Hg. destruct (get_int 8 l2) as [[rlen l3]|] eqn:E3; [|discriminate].
  rewrite !set_in_in in Hg. unfold bind at 1 in Hg. destruct (get_handle (set_in l3 st)) as [wh st4|] eqn:G2; [|discriminate].
  apply get_handle_at in G2. destruct G2 as (h2 & l4 & E4 & -> & O2). cbn [s_in set_in] in E4.
  unfold bind at 1 in Hg. unfold parse at 1 in Hg. cbn [s_in set_in] in Hg. destruct (get_int 8 l4) as [[woff l5]|] eqn:E5; [|discriminate].
  rewrite !set_in_in in Hg. change (copy_rest id rh roff rlen wh woff (set_in l5 st) = Go tt st') in Hg.
  assert (D : zdrop 16 r1 = l3).
  { apply get_int_drop in E2, E3. subst l2 l3. change (Z.of_nat 8) with 8. now rewrite zdrop_zdrop by lia. }
  rewrite D in Hu. unfold first_string in Hu. rewrite E4 in Hu. cbn [map] in Hu.
  assert (Hh : holds2 rh wh (abs st h1) (abs st h2) (set_in l5 st)) by (split; [exact O1|exact O2]).
  destruct (fits_dec WFile (abs st h1)) as [([f1 g1 n1|d1 n1] & Eo1 & F1) | F1]; [|destruct F1|].
  - destruct (fits_dec WFile (abs st h2)) as [([f2 g2 n2|d2 n2] & Eo2 & F2) | F2]; [|destruct F2|].
    + rewrite Eo1, Eo2 in Hh. destruct (copy_good id rh roff rlen wh woff f1 g1 n1 f2 g2 n2 _ Hh) as (cs & rs & H1 & H2 & H3 & H4 & H5).
      rewrite Hg in *. cbn [final] in *. exists cs, rs. apply result_same; auto; [now split|]. apply handled_same; auto.
      * eapply Forall_impl; [|exact H3]. intros [c x] [K1 K2]. cbn [fst] in *. split; [assumption|]. intros y Hy.
        destruct K1 as [K1|[K1|K1]]; [congruence| |].
        { exists h1, WFile, (OFile f1 g1 n1). rewrite Hu. cbn [obj_key]. splits; auto; [now left|congruence]. }
        { exists h2, WFile, (OFile f2 g2 n2). rewrite Hu. cbn [obj_key]. splits; auto; [right; now left|congruence]. }
      * intros h' w'. rewrite Hu. intros [K|[K|[]]]; injection K as <- <-; intros K; exfalso; eapply K; eauto.
      * apply abs_hsame. exact H5.
    + destruct (copy_bad id rh roff rlen wh woff _ _ (or_intror F2) _ Hh) as (cs & rs & H1 & H2 & H3 & H4 & H5).
      rewrite Hg in *. cbn [final] in *. apply never_nil in H3. subst cs. exists [], rs.
      assert (Hni : Forall no_issue rs) by (eapply Forall_impl; [|exact H4]; intros x (a & b & -> & _); exact I).
      apply result_same; auto; [now split|]. apply handled_same; auto; [|apply abs_hsame; exact H5].
      intros h' w' _ _. split; [reflexivity|]. exists id, r. assert (rs = [r]) as -> by (eapply did_out; [split; eassumption|assumption]).
      splits; auto. now inversion H4.
  - destruct (copy_bad id rh roff rlen wh woff _ _ (or_introl F1) _ Hh) as (cs & rs & H1 & H2 & H3 & H4 & H5).
    rewrite Hg in *. cbn [final] in *. apply never_nil in H3. subst cs. exists [], rs.
    assert (Hni : Forall no_issue rs) by (eapply Forall_impl; [|exact H4]; intros x (a & b & -> & _); exact I).
    apply result_same; auto; [now split|]. apply handled_same; auto; [|apply abs_hsame; exact H5].
    intros h' w' _ _. split; [reflexivity|]. exists id, r. assert (rs = [r]) as -> by (eapply did_out; [split; eassumption|assumption]).
    splits; auto. now inversion H4.
Qed.

Lemma go_inj : forall A (a b : A) s t, Go a s = Go b t -> t = s.
Proof. intros. congruence. Qed.

(** * Dispatch *)
Lemma result_none : forall m k st st', did st st' [] [] -> hsame st st' -> inv k st -> uses m = [] -> result m k st st' [] [].
Proof.
  intros m k st st' Hd Hs Hi Hu. apply result_same; auto. split.
  - intros c r x [].
  - intros h w. rewrite Hu. intros [].
  - intros c r o [].
  - intros id h [].
  - intros h o _ _ _ K. now destruct K.
  - intros _ _. now apply abs_hsame.
Qed.
(** A refusal: nothing is called and one failure is reported. *)
Lemma result_refused : forall m k id s t st st', did st st' [] [RStatus id s t] -> s <> FX_OK -> m_id m = Some id -> hsame st st' -> inv k st ->
  result m k st st' [] [RStatus id s t].
Proof.
  intros m k id s t st st' Hd Hn Hid Hs Hi. apply result_same; auto; [repeat constructor|]. split.
  - intros c r x [].
  - intros h w _ _. split; [reflexivity|]. exists id, (RStatus id s t). splits; auto. now apply refusal_status.
  - intros c r o [].
  - intros id' h [E|[]]. discriminate.
  - intros h o _ _ _ K. now destruct K.
  - intros _ _. now apply abs_hsame.
Qed.

Lemma m_args_cons : forall t tail id args, get_int 4 tail = Some (id, args) -> m_id (t :: tail) = Some id /\ m_args (t :: tail) = args.
Proof.
  intros t tail id args H. unfold m_id, m_args. split.
  - change (zdrop 1 (t :: tail)) with tail. now rewrite H.
  - apply get_int_drop in H. rewrite H. reflexivity.
Qed.

Lemma handler_result : forall cf k kk id tail args st st', In kk handlers -> is_bytes args -> get_int 4 tail = Some (id, args) -> env_ok st -> inv k st -> k < 2147483648 ->
  k_run kk cf id (set_in args st) = Go tt st' -> exists cs rs, result (k_type kk :: tail) k (set_in args st) st' cs rs.
Proof.
  intros cf k kk id tail args st st' Hk Hb Hid He Hi Hlim Hg.
  assert (Hi1 : inv k (set_in args st)) by (eapply hsame_inv; [|exact Hi]; now split).
  assert (He1 : env_ok (set_in args st)) by exact He.
  pose proof (one_handlers cf kk Hk id) as Hone. pose proof (path_handlers cf kk Hk) as Hpath.
  destruct (m_args_cons (k_type kk) tail id args Hid) as [Mid Margs].
  cbn [handlers In] in Hk.
  repeat (destruct Hk as [<- | Hk]; [cbn [k_type k_run] in *|]); try contradiction;
    try (eapply path_result; [apply Hpath; cbn; auto 12|reflexivity|discriminate|exact Hi1|exact Hg]; fail).
  - eapply open_result; eauto; discriminate.
  - unfold process_close in Hg. destruct (get_str args) as [[s l]|] eqn:Es; [|exfalso; unfold bind, get_handle in Hg; cbn [s_in set_in] in Hg; rewrite Es in Hg; discriminate].
    assert (Bs : is_bytes s) by (apply get_str_spec in Es; [tauto|assumption]).
    assert (Us : uses (FXP_CLOSE :: tail) = [(s, WAny)]) by (unfold uses; cbn [m_type]; rewrite Margs; unfold first_string; rewrite Es; reflexivity).
    eapply close_result with (s := s) (l := l); eauto.
  - destruct (user_read id) as (body & E & U). rewrite E in *. eapply user_result; eauto; [discriminate|].
    intros s l Es. cbn [s_in set_in] in Es. unfold uses. cbn [m_type]. rewrite Margs. unfold first_string. now rewrite Es.
  - destruct (user_write id) as (body & E & U). rewrite E in *. eapply user_result; eauto; [discriminate|].
    intros s l Es. cbn [s_in set_in] in Es. unfold uses. cbn [m_type]. rewrite Margs. unfold first_string. now rewrite Es.
  - destruct (user_fstat id) as (body & E & U). rewrite E in *. eapply user_result; eauto; [discriminate|].
    intros s l Es. cbn [s_in set_in] in Es. unfold uses. cbn [m_type]. rewrite Margs. unfold first_string. now rewrite Es.
  - destruct (user_fsetstat id) as (body & E & U). rewrite E in *. eapply user_result; eauto; [discriminate|].
    intros s l Es. cbn [s_in set_in] in Es. unfold uses. cbn [m_type]. rewrite Margs. unfold first_string. now rewrite Es.
  - eapply opendir_result; eauto; discriminate.
  - destruct (user_readdir cf id) as (body & E & U). rewrite E in *. eapply user_result; eauto; [discriminate|].
    intros s l Es. cbn [s_in set_in] in Es. unfold uses. cbn [m_type]. rewrite Margs. unfold first_string. now rewrite Es.
Qed.

Lemma ext_uses : forall tail args e r, m_args (200 :: tail) = args -> get_cstr args = Some (e, r) -> m_ext (200 :: tail) = Some e /\ m_ext_args (200 :: tail) = r.
Proof. intros tail args e r Ha He. unfold m_ext, m_ext_args. now rewrite Ha, He. Qed.

Lemma extended_result : forall cf k kk id tail args e r st st', In kk extended_handlers -> get_int 4 tail = Some (id, args) -> get_cstr args = Some (e, r) -> e = k_ext kk ->
  env_ok st -> inv k st -> k_run kk cf id (set_in r st) = Go tt st' -> exists cs rs, result (200 :: tail) k (set_in r st) st' cs rs.
Proof.
  intros cf k kk id tail args e r st st' Hk Hid Hex He0 He Hi Hg.
  assert (Hi1 : inv k (set_in r st)) by (eapply hsame_inv; [|exact Hi]; now split).
  assert (He1 : env_ok (set_in r st)) by exact He.
  pose proof (one_extended cf kk Hk id) as Hone. pose proof (path_extended cf kk Hk) as Hpath.
  destruct (m_args_cons 200 tail id args Hid) as [Mid Margs]. destruct (ext_uses tail args e r Margs Hex) as [Mx Mr].
  cbn [extended_handlers In] in Hk.
  repeat (destruct Hk as [<- | Hk]; [cbn [k_ext k_run] in *; subst e|]); try contradiction;
    try (eapply path_result; [apply Hpath; intros K; vm_compute in K; intuition discriminate|unfold uses; cbn [m_type]; rewrite Mx; reflexivity|discriminate|exact Hi1|exact Hg]; fail).
  - destruct (user_fstatvfs id) as (body & E & U). rewrite E in *. eapply user_result; eauto; [discriminate|].
    intros s l Es. cbn [s_in set_in] in Es. unfold uses. cbn [m_type]. rewrite Mx, Mr. unfold first_string. rewrite Es. reflexivity.
  - destruct (user_fsync id) as (body & E & U). rewrite E in *. eapply user_result; eauto; [discriminate|].
    intros s l Es. cbn [s_in set_in] in Es. unfold uses. cbn [m_type]. rewrite Mx, Mr. unfold first_string. rewrite Es. reflexivity.
  - destruct (get_str r) as [[h1 r1]|] eqn:Es; [|exfalso; unfold process_copy_data, bind, get_handle in Hg; cbn [s_in set_in] in Hg; rewrite Es in Hg; discriminate].
    eapply copy_result with (h1 := h1) (r1 := r1); eauto; [|discriminate]. unfold uses. cbn [m_type]. rewrite Mx, Mr, Es. reflexivity.
Qed.

Lemma unknown_uses : forall t tail, handler_bytype t = None -> (t =? FXP_EXTENDED) = false -> uses (t :: tail) = [].
Proof.
  intros t tail H E. unfold uses. cbn [m_type]. unfold handler_bytype in H.
  assert (K : forall k, In k handlers -> (t =? k_type k) = false) by (intros k Hk; exact (find_none _ _ H k Hk)).
  pose proof (K (nth 1 handlers (mkHandler [] 0 [] false (fun _ _ => ret tt))) ltac:(cbn; tauto)) as K4.
  pose proof (K (nth 2 handlers (mkHandler [] 0 [] false (fun _ _ => ret tt))) ltac:(cbn; tauto)) as K5.
  pose proof (K (nth 3 handlers (mkHandler [] 0 [] false (fun _ _ => ret tt))) ltac:(cbn; tauto)) as K6.
  pose proof (K (nth 5 handlers (mkHandler [] 0 [] false (fun _ _ => ret tt))) ltac:(cbn; tauto)) as K8.
  pose proof (K (nth 7 handlers (mkHandler [] 0 [] false (fun _ _ => ret tt))) ltac:(cbn; tauto)) as K10.
  pose proof (K (nth 9 handlers (mkHandler [] 0 [] false (fun _ _ => ret tt))) ltac:(cbn; tauto)) as K12.
  cbn [nth handlers k_type] in *. unfold FXP_CLOSE, FXP_READ, FXP_WRITE, FXP_FSTAT, FXP_FSETSTAT, FXP_READDIR, FXP_EXTENDED in *.
  rewrite K4, K5, K6, K8, K10, K12, E. reflexivity.
Qed.

Lemma result_back : forall m k i st st' cs rs, result m k (set_in i st) st' cs rs -> result m k st st' cs rs.
Proof. intros m k i st st' cs rs [R1 R2 R3]. split; assumption. Qed.

Lemma dispatch_result : forall cf t tail k st st', is_bytes tail -> env_ok st -> inv k st -> k < 2147483648 ->
  dispatch cf t (set_in tail st) = Go tt st' -> exists cs rs, result (t :: tail) k st st' cs rs.
Proof.
  intros cf t tail k st st' Hb He Hi Hlim Hg. unfold dispatch in Hg. destruct (t =? FXP_INIT) eqn:Et.
  - assert (t = 1) as -> by (unfold FXP_INIT in Et; lia). unfold process_init, bind, parse in Hg. cbn [s_in set_in] in Hg.
    destruct (get_int 4 tail) as [[v l]|]; [|discriminate]. apply go_inj in Hg; subst st'. exists [], [RVersion (filter (compose_extension cf) advertised)].
    apply result_same; auto; [split; cbn [s_calls s_out set_init add_out set_version set_in]; now rewrite ?app_nil_r|now split|repeat constructor|].
    split.
    + intros c r x [].
    + intros h w [].
    + intros c r o [].
    + intros id h [E|[]]. discriminate.
    + intros h o K. discriminate.
    + intros _ _. apply abs_hsame. now split.
  - cbn [s_init set_in] in Hg. destruct (negb (s_init st)); [discriminate|]. unfold bind at 1 in Hg. unfold parse at 1 in Hg. cbn [s_in set_in] in Hg.
    destruct (get_int 4 tail) as [[id args]|] eqn:Ei; [|discriminate]. rewrite set_in_in in Hg.
    assert (Hb' : is_bytes args) by (apply get_int_spec in Ei; tauto).
    destruct (t =? FXP_EXTENDED) eqn:Ex.
    + assert (t = 200) as -> by (unfold FXP_EXTENDED in Ex; lia). destruct (m_args_cons 200 tail id args Ei) as [Mid Margs].
      unfold process_extended, bind in Hg. unfold parse in Hg. cbn [s_in set_in] in Hg.
      destruct (get_cstr args) as [[e r]|] eqn:Ee; [|discriminate]. rewrite set_in_in in Hg. destruct (ext_uses tail args e r Margs Ee) as [Mx Mr].
      destruct (extended_handler_byname e) as [kk|] eqn:Ek.
      * apply find_in in Ek. destruct Ek as [Ek1 Ek2]. apply beqb_eq in Ek2. destruct (request_permitted cf kk).
        { destruct (extended_result cf k kk id tail args e r st st') as (cs & rs & R); auto. exists cs, rs. eapply result_back; eauto. }
        { apply go_inj in Hg; subst st'. eexists _, _. eapply result_refused; eauto; [split; [cbn [s_calls add_out set_in]; now rewrite app_nil_r|reflexivity]|discriminate|now split]. }
      * apply go_inj in Hg; subst st'. eexists _, _. eapply result_refused; eauto; [split; [cbn [s_calls add_out set_in]; now rewrite app_nil_r|reflexivity]|discriminate|now split].
    + destruct (m_args_cons t tail id args Ei) as [Mid Margs]. destruct (handler_bytype t) as [kk|] eqn:Ek.
      * apply find_in in Ek. destruct Ek as [Ek1 Ek2]. assert (t = k_type kk) as -> by lia. destruct (request_permitted cf kk).
        { destruct (handler_result cf k kk id tail args st st') as (cs & rs & R); auto. exists cs, rs. eapply result_back; eauto. }
        { apply go_inj in Hg; subst st'. eexists _, _. eapply result_refused; eauto; [split; [cbn [s_calls add_out set_in]; now rewrite app_nil_r|reflexivity]|discriminate|now split]. }
      * apply go_inj in Hg; subst st'. exists [], []. apply result_none; auto; [split; cbn [s_calls s_out set_in]; now rewrite app_nil_r|now split|]. now apply unknown_uses.
Qed.
Lemma dispatch_env : forall cf t st st', env_ok st -> dispatch cf t st = Go tt st' -> env_ok st'.
Proof.
  intros cf t st st' He Hg. unfold dispatch in Hg. destruct (t =? FXP_INIT).
  - unfold process_init, bind, parse in Hg. destruct (get_int 4 _) as [[v l]|]; [|discriminate]. apply go_inj in Hg; subst st'. exact He.
  - destruct (negb (s_init st)); [discriminate|]. unfold bind at 1 in Hg. unfold parse at 1 in Hg.
    destruct (get_int 4 _) as [[id args]|]; [|discriminate]. destruct (t =? FXP_EXTENDED).
    + unfold process_extended, bind in Hg. unfold parse in Hg. destruct (get_cstr _) as [[e r]|]; [|discriminate].
      destruct (extended_handler_byname e) as [kk|] eqn:Ek; [|apply go_inj in Hg; subst st'; exact He]. apply find_in in Ek. destruct (request_permitted cf kk); [|apply go_inj in Hg; subst st'; exact He].
      match type of Hg with _ _ _ _ ?s = _ => pose proof (one_extended cf kk (proj1 Ek) id s He) as O end. rewrite Hg in O. apply O.
    + destruct (handler_bytype t) as [kk|] eqn:Ek; [|apply go_inj in Hg; subst st'; exact He]. apply find_in in Ek. destruct (request_permitted cf kk); [|apply go_inj in Hg; subst st'; exact He].
      match type of Hg with _ _ _ _ ?s = _ => pose proof (one_handlers cf kk (proj1 Ek) id s He) as O end. rewrite Hg in O. apply O.
Qed.

Lemma process_false : forall cf st st', process cf st = Go false st' -> st' = st.
Proof.
  intros cf st st' H. unfold process in H. cbv zeta in H. destruct (_ <? 5); [congruence|]. destruct (_ >? _); [discriminate|]. destruct (_ <? _ + 4); [congruence|].
  destruct (zdrop 4 (s_in st)); [discriminate|]. destruct (dispatch _ _ _); [|discriminate]. destruct (_ <? _); discriminate.
Qed.
Lemma skipn_did : forall A (a b : list A), skipn (length a) (a ++ b) = b.
Proof. intros. rewrite skipn_app, skipn_all, Nat.sub_diag. reflexivity. Qed.

Definition entry_of (st st' : state) : entry := (message (s_in st), skipn (length (s_calls st)) (s_calls st'), skipn (length (s_out st)) (s_out st')).
Lemma process_result : forall cf k st st', is_bytes (s_in st) -> env_ok st -> inv k st -> k < 2147483648 -> process cf st = Go true st' ->
  is_bytes (s_in st') /\ env_ok st' /\ exists cs rs, entry_of st st' = (message (s_in st), cs, rs) /\ result (message (s_in st)) k st st' cs rs.
Proof.
  intros cf k st st' Hb He Hi Hk H. destruct (process_alone cf st st' Hb H) as (t & tail & rest & y & st1 & Hin & Hm & _ & Hd & ->). cbv zeta in *.
  rewrite Hin in Hb. apply is_bytes_app in Hb. destruct Hb as [_ Hb]. apply is_bytes_app in Hb. destruct Hb as [Hbm Hbr].
  assert (Hbt : is_bytes tail) by (now inversion Hbm).
  pose proof (dispatch_env _ _ _ _ (He : env_ok (set_in tail st)) Hd) as He'.
  destruct (dispatch_result cf t tail k st (set_in y st1) Hbt He Hi Hk Hd) as (cs & rs & [[R1 R1'] R2 R3]).
  split; [exact Hbr|]. split; [exact He'|]. exists cs, rs. unfold entry_of. cbn [s_calls s_out set_in] in *. split.
  - rewrite R1, R1', !skipn_did. reflexivity.
  - rewrite Hm. split; [split; assumption| |].
    + exact R2.
    + eapply hsame_inv; [|exact R3]. now split.
Qed.

Lemma session_cons : forall cf c chunks st, session cf (c :: chunks) st =
  match process cf (set_in (s_in st ++ c) st) with
  | Go took st' => (if took then [entry_of (set_in (s_in st ++ c) st) st'] else []) ++ session cf chunks st'
  | Halt _ _ => []
  end.
Proof. intros. cbn [session]. destruct (process _ _) as [[] st'|]; reflexivity. Qed.

(** Any relation established step by step holds along the session. *)
Lemma session_chain : forall (R : list Z -> table -> list (call * option sysres) -> list reply -> table -> Prop) cf,
  (forall k st st' cs rs, is_bytes (s_in st) -> env_ok st -> inv k st -> process cf st = Go true st' -> result (message (s_in st)) k st st' cs rs -> R (message (s_in st)) (abs st) cs rs (abs st')) ->
  forall chunks k st, Forall is_bytes chunks -> is_bytes (s_in st) -> env_ok st -> inv k st -> (forall p q, session cf chunks st = p ++ q -> k + live p < 2147483648) ->
  chain R (abs st) (session cf chunks st).
Proof.
  intros R cf HR. induction chunks as [|c chunks IH]; intros k st Hc Hb He Hi Hl; [exact I|]. inversion Hc as [|? ? Hc1 Hc2]; subst.
  rewrite session_cons in *. set (st0 := set_in (s_in st ++ c) st) in *.
  assert (Hb0 : is_bytes (s_in st0)) by (now apply is_bytes_app). assert (Hi0 : inv k st0) by (eapply hsame_inv; [|exact Hi]; now split).
  destruct (process cf st0) as [[] st'|] eqn:E; [| |exact I].
  - assert (Hk : k < 2147483648). { specialize (Hl [] _ eq_refl). cbn [live] in Hl. lia. }
    destruct (process_result cf k st0 st' Hb0 He Hi0 Hk E) as (Hb' & He' & cs & rs & Ee & Hr). rewrite Ee in *. cbn [app chain].
    exists (abs st'). split; [now apply (HR k st0 st')|]. eapply IH; [assumption|assumption|assumption|apply (r_inv _ _ _ _ _ _ Hr)|].
    intros p q Hpq. specialize (Hl ((message (s_in st0), cs, rs) :: p) q). rewrite Hpq in Hl. specialize (Hl eq_refl). cbn [live] in Hl. lia.
  - apply process_false in E. subst st'. cbn [app] in *. change (abs st) with (abs st0). eapply IH; eauto.
Qed.
