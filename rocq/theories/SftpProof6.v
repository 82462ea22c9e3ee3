(** Replies, permission lists, data transfer and renaming. *)
From Coq Require Import String.
From Verif Require Import Base SshbufModel SshbufSpec WireSpec WireProof Dec Text MatchModel MatchSpec MatchProof.
From Verif Require Import SftpModel SftpSpec SftpProof SftpProof2 SftpProof3 SftpProof4 SftpProof5.

(** * Records only grow *)
Definition grow {A} (m : M A) : Prop := forall st, exists cs rs, did st (final (m st)) cs rs.
Lemma grow_nothing : forall A (m : M A), (forall st, s_calls (final (m st)) = s_calls st /\ s_out (final (m st)) = s_out st) -> grow m.
Proof. intros A m H st. exists [], []. destruct (H st). split; now rewrite app_nil_r. Qed.
Lemma grow_bind : forall A B (m : M A) (f : A -> M B), grow m -> (forall a, grow (f a)) -> grow (bind m f).
Proof.
  intros A B m f Hm Hf st. unfold bind. destruct (Hm st) as (cs & rs & H1 & H2). destruct (m st) as [a st'|h st']; cbn [final] in *; [|exists cs, rs; now split].
  destruct (Hf a st') as (cs' & rs' & G1 & G2). exists (cs ++ cs'), (rs ++ rs'). split; [now rewrite G1, H1, app_assoc|now rewrite G2, H2, app_assoc].
Qed.
Lemma eff_grow : forall A (m : M A), eff any_state (fun _ => True) (fun _ => True) m -> grow m.
Proof. intros A m H st. destruct (H st I) as (cs & rs & H1 & H2 & _). exists cs, rs. now split. Qed.
Lemma grow_new : forall u n fd fl d, grow (handle_new u n fd fl d).
Proof.
  intros u n fd fl d. apply grow_nothing. intros st. unfold handle_new. cbv zeta. destruct (s_first st =? -1).
  - destruct (u32 _ <=? _); [now split|]. unfold handle_unused. destruct (hget _ _) as [h|]; [|now split]. destruct (hget _ _); now split.
  - destruct (hget _ _); now split.
Qed.
Lemma grow_unused : forall i, grow (handle_unused i).
Proof. intros i. apply grow_nothing. intros st. unfold handle_unused. destruct (hget _ _); now split. Qed.
Lemma grow_close : forall i, grow (handle_close i).
Proof.
  intros i st. unfold handle_close. destruct (handle_is_ok i HFile st); [|destruct (handle_is_ok i HDir st)].
  - revert st. intros st. generalize (CClose (handle_to_fd i st)). intros c. revert st.
    change (grow (do r <- sys c; run handle_unused i; ret (rs_ret r, rs_errno r))). apply grow_bind; [apply eff_grow, eff_sys; exact I|intros r].
    apply grow_bind; [apply grow_unused|intros _]. apply eff_grow, eff_ret.
  - revert st. intros st. generalize (CClosedir match handle_to_dir i st with Some d => d | None => 0 end). intros c. revert st.
    change (grow (do r <- sys c; run handle_unused i; ret (rs_ret r, rs_errno r))). apply grow_bind; [apply eff_grow, eff_sys; exact I|intros r].
    apply grow_bind; [apply grow_unused|intros _]. apply eff_grow, eff_ret.
  - exists [], []. split; cbn; now rewrite app_nil_r.
Qed.
Ltac grow_step :=
  first
  [ lazymatch goal with
    | |- grow (bind _ _) => apply grow_bind; [|intros ?]
    | |- grow (let _ := _ in _) => cbv zeta
    end
  | apply grow_new | apply grow_close | apply grow_unused
  | (apply eff_grow; first [apply eff_ret | apply eff_stop | apply eff_parse | apply eff_get_handle | apply eff_update | (apply eff_send; exact I) | (apply eff_sys; exact I)
      | (apply eff_attr; [apply stable_any|intros; exact I])
      | (apply eff_readdir; intros; exact I) | (apply eff_copy; [apply stable_any|..]; intros; exact I)
      | (eapply eff_names; [apply stable_any| |apply le_n]; intros; exact I)])
  | (apply grow_nothing; intros ?; now split)
  | match goal with
    | |- grow (if ?b then _ else _) => destruct b
    | |- grow (match ?x with _ => _ end) => destruct x
    end ].
Lemma grow_handlers : forall cf k, In k handlers -> forall id, grow (k_run k cf id).
Proof.
  intros cf k Hk id. cbn [handlers In] in Hk. repeat (destruct Hk as [<- | Hk]; [cbn [k_run]|]); try contradiction;
    unfold process_open, process_close, process_read, process_write, process_do_stat, process_fstat, process_setstat, process_fsetstat, process_opendir,
      process_readdir, process_remove, process_mkdir, process_rmdir, process_realpath, realpath_reply, process_rename, process_readlink, process_symlink; unf; repeat grow_step.
Qed.
Lemma grow_extended : forall cf k, In k extended_handlers -> forall id, grow (k_run k cf id).
Proof.
  intros cf k Hk id. cbn [extended_handlers In] in Hk. repeat (destruct Hk as [<- | Hk]; [cbn [k_run]|]); try contradiction;
    unfold process_posix_rename, process_statvfs, process_fstatvfs, process_hardlink, process_fsync, process_lsetstat, process_limits, process_expand,
      process_copy_data, process_home, process_users_groups, realpath_reply; unf; repeat grow_step.
Qed.
Lemma grow_dispatch : forall cf t, grow (dispatch cf t).
Proof.
  intros cf t. unfold dispatch. destruct (t =? FXP_INIT).
  - unfold process_init. repeat grow_step.
  - intros st. destruct (negb (s_init st)); [exists [], []; split; cbn; now rewrite app_nil_r|]. revert st.
    match goal with |- forall st, exists cs rs, did st (final (?m st)) cs rs => change (grow m) end.
    grow_step; [grow_step|]. destruct (t =? FXP_EXTENDED).
    + unfold process_extended. grow_step; [grow_step|]. destruct (extended_handler_byname _) as [k|] eqn:E; [|unf; grow_step].
      apply find_in in E. destruct (request_permitted cf k); [now apply grow_extended|unf; grow_step].
    + destruct (handler_bytype t) as [k|] eqn:E; [|grow_step]. apply find_in in E. destruct (request_permitted cf k); [now apply grow_handlers|unf; grow_step].
Qed.

(** * A property of every entry, from one of every dispatched message *)
Lemma process_entry : forall cf st st', is_bytes (s_in st) -> env_ok st -> process cf st = Go true st' ->
  is_bytes (s_in st') /\ env_ok st' /\ exists t tail y st1 cs rs, message (s_in st) = t :: tail /\ is_bytes tail /\ zlen (t :: tail) <= MAX_MSG /\
    dispatch cf t (set_in tail st) = Go tt (set_in y st1) /\ did st (set_in y st1) cs rs /\ entry_of st st' = (t :: tail, cs, rs) /\ s_init st' = s_init st1 /\ s_out st' = s_out st ++ rs /\ s_calls st' = s_calls st ++ cs.
Proof.
  intros cf st st' Hb He H. destruct (process_alone cf st st' Hb H) as (t & tail & rest & y & st1 & Hin & Hm & Hlen & Hd & ->). cbv zeta in *.
  rewrite Hin in Hb. apply is_bytes_app in Hb. destruct Hb as [_ Hb]. apply is_bytes_app in Hb. destruct Hb as [Hbm Hbr].
  assert (Hbt : is_bytes tail) by (now inversion Hbm).
  pose proof (dispatch_env _ _ _ _ (He : env_ok (set_in tail st)) Hd) as He'.
  destruct (grow_dispatch cf t (set_in tail st)) as (cs & rs & Hg). rewrite Hd in Hg. cbn [final] in Hg.
  split; [exact Hbr|]. split; [exact He'|]. exists t, tail, y, st1, cs, rs. split; [exact Hm|]. split; [exact Hbt|]. split; [exact Hlen|]. split; [exact Hd|]. split; [exact Hg|].
  destruct Hg as [G1 G2]. cbn [s_calls s_out set_in] in *. split; [|split; [reflexivity|split; assumption]].
  unfold entry_of. rewrite Hm. cbn [s_calls s_out set_in]. now rewrite G1, G2, !skipn_did.
Qed.
Lemma session_forall : forall (Q : entry -> Prop) cf,
  (forall st t tail st' cs rs, is_bytes tail -> env_ok st -> dispatch cf t (set_in tail st) = Go tt st' -> did st st' cs rs -> Q (t :: tail, cs, rs)) ->
  forall chunks st, Forall is_bytes chunks -> is_bytes (s_in st) -> env_ok st -> Forall Q (session cf chunks st).
Proof.
  intros Q cf HQ. induction chunks as [|c chunks IH]; intros st Hc Hb He; [constructor|]. inversion Hc as [|? ? Hc1 Hc2]; subst.
  rewrite session_cons. set (st0 := set_in (s_in st ++ c) st) in *. assert (Hb0 : is_bytes (s_in st0)) by (now apply is_bytes_app).
  destruct (process cf st0) as [[] st'|] eqn:E; [| |constructor].
  - destruct (process_entry cf st0 st' Hb0 He E) as (Hb' & He' & t & tail & y & st1 & cs & rs & _ & Hbt & _ & Hd & Hg & Ee & _). cbn [app]. constructor; [|now apply IH].
    rewrite Ee. apply (HQ st0 t tail (set_in y st1) cs rs); auto.
  - apply process_false in E. subst st'. cbn [app]. now apply IH.
Qed.

(** * One reply each *)
Lemma type_names_table : type_names = map (fun k => (k_type k, k_name k)) handlers.
Proof. reflexivity. Qed.
Lemma ext_names_table : ext_names = map (fun k => (k_ext k, k_name k)) extended_handlers.
Proof. reflexivity. Qed.
Lemma known_type : forall t, (exists n, In (t, n) type_names) <-> handler_bytype t <> None.
Proof.
  intros t. rewrite type_names_table. split.
  - intros (n & H). apply in_map_iff in H. destruct H as (k & E & Hk). injection E as E _. unfold handler_bytype. intros K.
    apply find_none with (x := k) in K; [|assumption]. lia.
  - intros H. destruct (handler_bytype t) as [k|] eqn:E; [|congruence]. apply find_in in E. destruct E as [E1 E2].
    exists (k_name k). apply in_map_iff. exists k. split; [f_equal; lia|assumption].
Qed.

Lemma dispatch_answered : forall cf t tail st st' cs rs, is_bytes tail -> env_ok st -> dispatch cf t (set_in tail st) = Go tt st' -> did st st' cs rs -> answered (t :: tail) rs.
Proof.
  intros cf t tail st st' cs rs Hb He Hg [_ Hd]. unfold answered. cbn [m_type]. unfold dispatch in Hg. destruct (t =? FXP_INIT) eqn:Et.
  - unfold FXP_INIT in Et. rewrite Et. unfold process_init, bind, parse in Hg. cbn [s_in set_in] in Hg. destruct (get_int 4 tail) as [[v l]|]; [|discriminate].
    apply go_inj in Hg. subst st'. cbn [s_out set_init add_out set_version set_in] in Hd. apply app_inv_head in Hd. subst rs. eauto.
  - unfold FXP_INIT in Et. rewrite Et. cbn [s_init set_in] in Hg. destruct (negb (s_init st)); [discriminate|]. unfold bind at 1 in Hg. unfold parse at 1 in Hg. cbn [s_in set_in] in Hg.
    destruct (get_int 4 tail) as [[id args]|] eqn:Ei; [|discriminate]. rewrite set_in_in in Hg. destruct (m_args_cons t tail id args Ei) as [Mid Margs]. rewrite Mid.
    destruct (t =? FXP_EXTENDED) eqn:Ex.
    + unfold FXP_EXTENDED in Ex. rewrite Ex. cbn [orb]. assert (One : one id (process_extended cf id)).
      { unfold process_extended. eapply one_bind; [apply quiet_parse|]. intros e _. destruct (extended_handler_byname e) as [k|] eqn:Ek; [|apply one_status].
        apply find_in in Ek. destruct (request_permitted cf k); [now apply one_extended|apply one_status]. }
      specialize (One (set_in args st) He). rewrite Hg in One. destruct One as [(r & Hr & Hrid) _]. cbn [s_out set_in] in Hr. rewrite Hd in Hr. apply app_inv_head in Hr. eauto.
    + unfold FXP_EXTENDED in Ex. rewrite Ex. destruct (handler_bytype t) as [k|] eqn:Ek.
      * replace (existsb (fun p => fst p =? t) type_names) with true; [cbn [orb]|].
        2:{ destruct (proj2 (known_type t)) as (n & Hn); [congruence|]. symmetry. apply existsb_exists. exists (t, n). split; [assumption|cbn; lia]. }
        assert (One : one id (if request_permitted cf k then k_run k cf id else send_status id FX_PERMISSION_DENIED)).
        { apply find_in in Ek. destruct (request_permitted cf k); [now apply one_handlers|apply one_status]. }
        specialize (One (set_in args st) He). rewrite Hg in One. destruct One as [(r & Hr & Hrid) _]. cbn [s_out set_in] in Hr. rewrite Hd in Hr. apply app_inv_head in Hr. eauto.
      * replace (existsb (fun p => fst p =? t) type_names) with false.
        2:{ symmetry. destruct (existsb _ _) eqn:Ee; [|reflexivity]. apply existsb_exists in Ee. destruct Ee as ([t' n] & Hn & E'). cbn in E'. assert (t' = t) by lia. subst t'.
            exfalso. apply (proj1 (known_type t)); [eauto|assumption]. }
        cbn [orb]. apply go_inj in Hg. subst st'. cbn [s_out set_in] in Hd. rewrite <- (app_nil_r (s_out st)) in Hd at 1. now apply app_inv_head in Hd.
Qed.

Lemma dispatch_init : forall cf t st st', dispatch cf t st = Go tt st' -> s_init st = false -> t = 1.
Proof.
  intros cf t st st' H Hi. unfold dispatch in H. destruct (t =? FXP_INIT) eqn:E; [unfold FXP_INIT in E; lia|]. rewrite Hi in H. discriminate.
Qed.
