From Coq Require Import String.
From Verif Require Import Base SshbufModel SshbufSpec WireSpec Dec Text MatchModel MatchSpec MatchProof.
From Verif Require Import SftpModel SftpSpec.

(** * What a computation adds to the record of calls *)
Definition adds {A} (P : call -> Prop) (m : M A) : Prop :=
  forall st, exists cs, s_calls (final (m st)) = s_calls st ++ cs /\ Forall (fun c => P (fst c)) cs.

Lemma adds_bind : forall A B P (m : M A) (f : A -> M B), adds P m -> (forall a, adds P (f a)) -> adds P (bind m f).
Proof.
  intros A B P m f Hm Hf st. unfold bind. destruct (Hm st) as (cs & H1 & H2). destruct (m st) as [a st'|h st'] eqn:E; cbn [final] in *.
  - destruct (Hf a st') as (cs' & H3 & H4). exists (cs ++ cs'). split; [now rewrite H3, H1, app_assoc|]. now apply Forall_app.
  - now exists cs.
Qed.
Lemma adds_none : forall A P (m : M A), (forall st, s_calls (final (m st)) = s_calls st) -> adds P m.
Proof. intros A P m H st. exists []. split; [now rewrite H, app_nil_r|constructor]. Qed.
Lemma adds_ret : forall A P (a : A), adds P (ret a).
Proof. intros. now apply adds_none. Qed.
Lemma adds_stop : forall A P h, adds P (@stop A h).
Proof. intros. now apply adds_none. Qed.
Lemma adds_send : forall P r, adds P (send r).
Proof. intros. now apply adds_none. Qed.
Lemma adds_look : forall A P (f : state -> A), adds P (look f).
Proof. intros. now apply adds_none. Qed.
Lemma adds_parse : forall A P (f : list Z -> option (A * list Z)), adds P (parse f).
Proof. intros A P f. apply adds_none. intros st. unfold parse. now destruct (f (s_in st)) as [[? ?]|]. Qed.
Lemma adds_get_handle : forall P, adds P get_handle.
Proof. intros P. apply adds_none. intros st. unfold get_handle. now destruct (get_str (s_in st)) as [[? ?]|]. Qed.
Lemma adds_update : forall P w i n, adds P (handle_update w i n).
Proof. intros P w i n. apply adds_none. intros st. unfold handle_update. destruct (_ && _); [|reflexivity]. now destruct (hget _ _). Qed.
Lemma adds_unused : forall P i, adds P (handle_unused i).
Proof. intros P i. apply adds_none. intros st. unfold handle_unused. now destruct (hget _ _). Qed.
Lemma adds_new : forall P u n fd fl d, adds P (handle_new u n fd fl d).
Proof.
  intros P u n fd fl d. apply adds_none. intros st. unfold handle_new. cbv zeta. destruct (s_first st =? -1).
  - destruct (u32 _ <=? _); [reflexivity|]. unfold handle_unused. destruct (hget _ _) as [h|]; [|reflexivity]. now destruct (hget _ _).
  - now destruct (hget _ _).
Qed.
Lemma adds_sys : forall (P : call -> Prop) c, P c -> adds P (sys c).
Proof.
  intros P c H st. unfold sys. destruct (s_env st) as [|r env]; cbn [final add_calls s_calls]; eexists; split; try reflexivity; repeat constructor; exact H.
Qed.
Lemma adds_attr : forall (P : call -> Prop) b c s, P c -> adds P (attr_call b c s).
Proof. intros P b c s H. unfold attr_call. destruct b; [|apply adds_ret]. apply adds_bind; [now apply adds_sys|intros; apply adds_ret]. Qed.
Lemma adds_status : forall P id s, adds P (send_status id s).
Proof. intros. apply adds_send. Qed.
Lemma adds_status_msg : forall P id s t, adds P (send_status_errmsg id s t).
Proof. intros. apply adds_send. Qed.
Lemma adds_unless : forall P id s, adds P (send_unless_ok id s).
Proof. intros. unfold send_unless_ok. destruct (_ =? _); [apply adds_ret|apply adds_send]. Qed.
Lemma adds_result : forall P id r, adds P (send_result id r).
Proof. intros. apply adds_send. Qed.
Lemma adds_close : forall (P : call -> Prop) i, (forall fd, P (CClose fd)) -> (forall d, P (CClosedir d)) -> adds P (handle_close i).
Proof.
  intros P i H1 H2 st. unfold handle_close. destruct (handle_is_ok i HFile st); [|destruct (handle_is_ok i HDir st)].
  - apply adds_bind; [now apply adds_sys|]. intros r. apply adds_bind; [apply adds_unused|intros; apply adds_ret].
  - apply adds_bind; [now apply adds_sys|]. intros r. apply adds_bind; [apply adds_unused|intros; apply adds_ret].
  - exists []. cbn. rewrite app_nil_r. split; [reflexivity|constructor].
Qed.

Lemma readdir_loop_calls : forall (P : call -> Prop) cf d path, P (CReaddir d) -> (forall p, P (CLstat p)) ->
  forall n env count names calls o cs env', (length env <= n)%nat -> readdir_loop cf d path count env names calls = (o, cs, env') ->
  exists new, cs = calls ++ new /\ Forall (fun c => P (fst c)) new.
Proof.
  intros P cf d path H1 H2. induction n as [|n IH]; intros env count names calls o cs env' Hn H.
  - destruct env; [|cbn in Hn; lia]. cbn in H. injection H as <- <- <-. eexists; split; [reflexivity|]. repeat constructor. exact H1.
  - destruct env as [|r1 env]; cbn [readdir_loop] in H.
    { injection H as <- <- <-. eexists; split; [reflexivity|]. repeat constructor. exact H1. }
    destruct (rs_ret r1 =? -1). { injection H as <- <- <-. eexists; split; [reflexivity|]. repeat constructor. exact H1. }
    destruct env as [|r2 env]. { injection H as <- <- <-. rewrite <- app_assoc. eexists; split; [reflexivity|]. repeat (constructor; cbn [fst]; auto). }
    cbn in Hn. destruct (rs_ret r2 =? -1); [|destruct (count + 1 =? 100)].
    2:{ injection H as <- <- <-. rewrite <- app_assoc. eexists; split; [reflexivity|]. repeat (constructor; cbn [fst]; auto). }
    all: apply IH in H; [|lia]; destruct H as (new & -> & Hf); rewrite <- !app_assoc; eexists; split; [reflexivity|]; cbn [app]; repeat (constructor; cbn [fst]; auto).
Qed.
Lemma adds_readdir : forall (P : call -> Prop) cf id, (forall d, P (CReaddir d)) -> (forall p, P (CLstat p)) -> adds P (process_readdir cf id).
Proof.
  intros P cf id H1 H2. unfold process_readdir. apply adds_bind; [apply adds_get_handle|intros h].
  apply adds_bind; [apply adds_look|intros d]. apply adds_bind; [apply adds_look|intros p].
  destruct d as [d|]; [|apply adds_status]. destruct p as [p|]; [|apply adds_status].
  intros st. destruct (readdir_loop cf d p 0 (s_env st) [] []) as [[o cs] env'] eqn:E.
  destruct (readdir_loop_calls P cf d p (H1 d) H2 _ _ _ _ _ _ _ _ (le_n _) E) as (new & -> & Hf). cbn [app] in *.
  destruct o as [names|]; [destruct (zlen names >? 0)|]; cbn; eexists; split; try reflexivity; exact Hf.
Qed.

Lemma copy_loop_calls : forall (P : call -> Prop) rfd wfd eof, (forall n, P (CReadFull rfd n)) -> (forall x, P (CWriteFull wfd x)) ->
  forall n env todo status rd wr calls o rd' wr' cs env', (length env <= n)%nat ->
  copy_loop rfd wfd eof todo status env rd wr calls = (o, rd', wr', cs, env') ->
  exists new, cs = calls ++ new /\ Forall (fun c => P (fst c)) new.
Proof.
  intros P rfd wfd eof H1 H2. induction n as [|n IH]; intros env todo status rd wr calls o rd' wr' cs env' Hn H.
  - destruct env; [|cbn in Hn; lia]. cbn [copy_loop] in H. destruct (_ || _); [|injection H as <- <- <- <- <-; exists []; rewrite app_nil_r; auto].
    cbv zeta in H. destruct (_ =? 0); injection H as <- <- <- <- <-; [exists []; rewrite app_nil_r; auto|]. eexists; split; [reflexivity|]. repeat constructor. apply H1.
  - destruct env as [|r1 env]; cbn [copy_loop] in H; (destruct (_ || _); [|injection H as <- <- <- <- <-; exists []; rewrite app_nil_r; auto]); cbv zeta in H;
      (destruct (Z.min COPY_BUF todo =? 0); [injection H as <- <- <- <- <-; exists []; rewrite app_nil_r; auto|]).
    { injection H as <- <- <- <- <-. eexists; split; [reflexivity|]. repeat constructor. apply H1. }
    destruct (_ && _). { injection H as <- <- <- <- <-. eexists; split; [reflexivity|]. repeat constructor. apply H1. }
    destruct (rs_ret r1 =? 0). { injection H as <- <- <- <- <-. eexists; split; [reflexivity|]. repeat constructor. apply H1. }
    destruct env as [|r2 env]. { injection H as <- <- <- <- <-. rewrite <- app_assoc. eexists; split; [reflexivity|]. repeat constructor; [apply H1|apply H2]. }
    cbn in Hn. destruct (negb _). { injection H as <- <- <- <- <-. rewrite <- app_assoc. eexists; split; [reflexivity|]. repeat constructor; [apply H1|apply H2]. }
    apply IH in H; [|lia]. destruct H as (new & -> & Hf). rewrite <- !app_assoc. eexists; split; [reflexivity|]. cbn [app]. repeat constructor; auto; [apply H1|apply H2].
Qed.

Lemma names_of_adds : forall (P : call -> Prop) mk, (forall n, P (mk n)) -> forall n ids acc, (length ids <= n)%nat -> adds P (names_of mk ids acc).
Proof.
  intros P mk H. induction n as [|n IH]; intros ids acc Hn.
  - destruct ids; [apply adds_ret|cbn in Hn; lia].
  - destruct ids as [|a [|b [|c [|d r]]]]; cbn [names_of]; try apply adds_ret; try apply adds_stop.
    apply adds_bind; [apply adds_sys, H|]. intros x. apply IH. cbn in Hn. lia.
Qed.

Ltac adds_step :=
  first
  [ lazymatch goal with |- adds _ (bind _ _) => apply adds_bind; [|intros ?] end
  | apply adds_ret | apply adds_stop | apply adds_status | apply adds_status_msg | apply adds_unless | apply adds_result | apply adds_send
  | apply adds_look | apply adds_parse | apply adds_get_handle | apply adds_update | apply adds_unused | apply adds_new
  | apply adds_sys | apply adds_attr
  | match goal with
    | |- adds _ (if ?b then _ else _) => destruct b eqn:?
    | |- adds _ (match ?x with _ => _ end) => destruct x eqn:?
    | |- adds _ (let _ := _ in _) => cbv zeta
    end ].
Ltac adds_walk := repeat adds_step.

(** * Read-only mode *)
Definition calm (c : call) : Prop := ~ modifying c.

Lemma calm_handlers : forall cf k, In k handlers -> k_writes k = false -> c_readonly cf = true -> forall id, adds calm (k_run k cf id).
Proof.
  intros cf k Hk Hw Hr id. cbn [handlers In] in Hk.
  repeat (destruct Hk as [<- | Hk]; [try (vm_compute in Hw; discriminate Hw); cbn [k_run]|]); try contradiction.
  - (* open *)
    unfold process_open. adds_walk; try (intros K; exact K).
    rewrite Hr in Heqb. cbn [andb] in Heqb. apply orb_false_iff in Heqb. destruct Heqb as [A B].
    apply negb_false_iff, Z.eqb_eq in A. apply negb_false_iff, Z.eqb_eq in B. cbn [modifying calm]. unfold calm. cbn [modifying].
    rewrite Z.land_lor_distr_r in B. apply Z.lor_eq_0_iff in B. destruct B as [B C]. intros [K | [K | K]]; congruence.
  - unfold process_close. adds_walk. apply adds_close; intros ? K; exact K.
  - unfold process_read. adds_walk; intros K; exact K.
  - unfold process_do_stat. adds_walk; intros K; exact K.
  - unfold process_fstat. adds_walk; intros K; exact K.
  - unfold process_opendir. adds_walk; intros K; exact K.
  - apply adds_readdir; intros ? K; exact K.
  - unfold process_realpath, realpath_reply. adds_walk; intros K; exact K.
  - unfold process_do_stat. adds_walk; intros K; exact K.
  - unfold process_readlink. adds_walk; intros K; exact K.
Qed.
Lemma calm_extended : forall cf k, In k extended_handlers -> k_writes k = false -> forall id, adds calm (k_run k cf id).
Proof.
  intros cf k Hk Hw id. cbn [extended_handlers In] in Hk.
  repeat (destruct Hk as [<- | Hk]; [try (vm_compute in Hw; discriminate Hw); cbn [k_run]|]); try contradiction.
  - unfold process_statvfs, send_statvfs. adds_walk; intros K; exact K.
  - unfold process_fstatvfs, send_statvfs. adds_walk; intros K; exact K.
  - unfold process_limits. adds_walk; intros K; exact K.
  - unfold process_expand, realpath_reply. adds_walk; intros K; exact K.
  - unfold process_home, send_name1. adds_walk; intros K; exact K.
  - unfold process_users_groups. adds_walk; (eapply names_of_adds; [|apply le_n]); intros n K; exact K.
Qed.

Lemma find_in : forall A (f : A -> bool) l x, find f l = Some x -> In x l /\ f x = true.
Proof. intros. split; [eapply find_some; eauto|eapply find_some; eauto]. Qed.

Lemma permitted_calm : forall cf k, request_permitted cf k = true -> c_readonly cf = true -> k_writes k = false.
Proof. intros cf k H R. unfold request_permitted in H. rewrite R in H. destruct (k_writes k); [discriminate|reflexivity]. Qed.

Lemma dispatch_calm : forall cf t, c_readonly cf = true -> adds calm (dispatch cf t).
Proof.
  intros cf t R. unfold dispatch. destruct (t =? FXP_INIT).
  - unfold process_init. adds_walk; apply adds_none; reflexivity.
  - assert (G : adds calm (do id <- parse (get_int 4);
          if t =? FXP_EXTENDED then process_extended cf id
          else match handler_bytype t with
               | None => ret tt
               | Some k => if request_permitted cf k then k_run k cf id else send_status id FX_PERMISSION_DENIED
               end)).
    { adds_step; [apply adds_parse|]. destruct (t =? FXP_EXTENDED).
      - unfold process_extended. adds_step; [apply adds_parse|]. destruct (extended_handler_byname _) as [k|] eqn:E; [|apply adds_status].
        destruct (request_permitted cf k) eqn:Ep; [|apply adds_status]. apply find_in in E. apply calm_extended; [apply E|eapply permitted_calm; eauto].
      - destruct (handler_bytype t) as [k|] eqn:E; [|apply adds_ret].
        destruct (request_permitted cf k) eqn:Ep; [|apply adds_status]. apply find_in in E. apply calm_handlers; [apply E|eapply permitted_calm; eauto|assumption]. }
    intros st. destruct (negb (s_init st)); [exists []; cbn; rewrite app_nil_r; auto|]. apply G.
Qed.

Lemma process_adds : forall (P : call -> Prop) cf, (forall t, adds P (dispatch cf t)) -> adds P (process cf).
Proof.
  intros P cf H st. unfold process. cbv zeta.
  destruct (_ <? 5); [exists []; cbn; rewrite app_nil_r; auto|]. destruct (_ >? _); [exists []; cbn; rewrite app_nil_r; auto|].
  destruct (_ <? _ + 4); [exists []; cbn; rewrite app_nil_r; auto|]. destruct (zdrop 4 (s_in st)) as [|t rest]; [exists []; cbn; rewrite app_nil_r; auto|].
  specialize (H t (set_in rest st)). destruct (dispatch cf t (set_in rest st)) as [a st'|h st']; cbn [final] in *; [|exact H].
  destruct (_ <? _); cbn [final set_in s_calls] in *; exact H.
Qed.

Lemma serve_adds : forall (P : call -> Prop) cf, (forall t, adds P (dispatch cf t)) -> forall chunks st,
  exists cs, s_calls (final (serve cf chunks st)) = s_calls st ++ cs /\ Forall (fun c => P (fst c)) cs.
Proof.
  intros P cf H. induction chunks as [|c chunks IH]; intros st.
  - exists []. cbn. rewrite app_nil_r. auto.
  - cbn [serve]. pose proof (process_adds P cf H (set_in (s_in st ++ c) st)) as K. destruct (process cf _) as [b st'|h st']; cbn [final] in *.
    + destruct K as (cs & K1 & K2). destruct (IH st') as (cs' & K3 & K4). exists (cs ++ cs'). split; [|now apply Forall_app].
      rewrite K3, K1. cbn [s_calls set_in]. now rewrite app_assoc.
    + exact K.
Qed.

(** * Replies *)
Definition env_ok (st : state) : Prop := Forall res_ok (s_env st).
(** No reply is added; the value has property [R]; failures stay described. *)
Definition quiet {A} (R : A -> Prop) (m : M A) : Prop := forall st, env_ok st ->
  match m st with
  | Go a st' => s_out st' = s_out st /\ env_ok st' /\ R a
  | Halt _ st' => s_out st' = s_out st
  end.
Definition one (id : Z) (m : M unit) : Prop := forall st, env_ok st ->
  match m st with
  | Go _ st' => (exists r, s_out st' = s_out st ++ [r] /\ reply_id r = Some id) /\ env_ok st'
  | Halt _ st' => s_out st' = s_out st \/ exists r, s_out st' = s_out st ++ [r] /\ reply_id r = Some id
  end.
Definition any {A} : A -> Prop := fun _ => True.

Lemma one_bind : forall A (R : A -> Prop) id (m : M A) f, quiet R m -> (forall a, R a -> one id (f a)) -> one id (bind m f).
Proof.
  intros A R id m f Hm Hf st He. unfold bind. specialize (Hm st He). destruct (m st) as [a st'|h st']; [|now left].
  destruct Hm as (H1 & H2 & H3). specialize (Hf a H3 st' H2). rewrite H1 in Hf. exact Hf.
Qed.
Lemma one_then : forall id m (f : unit -> M unit), one id m -> quiet any (f tt) -> one id (bind m f).
Proof.
  intros id m f Hm Hf st He. unfold bind. specialize (Hm st He). destruct (m st) as [[] st'|h st']; [|exact Hm].
  destruct Hm as (H1 & H2). specialize (Hf st' H2). destruct (f tt st') as [a st''|h st'']; cbn in *.
  - destruct Hf as (H3 & H4 & _). rewrite H3. auto.
  - rewrite Hf. auto.
Qed.
Lemma quiet_bind : forall A B (R : A -> Prop) (S : B -> Prop) (m : M A) f, quiet R m -> (forall a, R a -> quiet S (f a)) -> quiet S (bind m f).
Proof.
  intros A B R S m f Hm Hf st He. unfold bind. specialize (Hm st He). destruct (m st) as [a st'|h st']; [|exact Hm].
  destruct Hm as (H1 & H2 & H3). specialize (Hf a H3 st' H2). rewrite H1 in Hf. exact Hf.
Qed.
Lemma quiet_ret : forall A (R : A -> Prop) a, R a -> quiet R (ret a).
Proof. intros A R a H st He. cbn. auto. Qed.
Lemma quiet_look : forall A (f : state -> A), quiet any (look f).
Proof. intros A f st He. cbn. unfold any. auto. Qed.
Lemma quiet_parse : forall A (f : list Z -> option (A * list Z)), quiet any (parse f).
Proof. intros A f st He. unfold parse. destruct (f (s_in st)) as [[? ?]|]; cbn; unfold any; auto. Qed.
Lemma quiet_get_handle : quiet any get_handle.
Proof. intros st He. unfold get_handle. destruct (get_str (s_in st)) as [[? ?]|]; cbn; unfold any; auto. Qed.
Lemma quiet_sys : forall c, quiet res_ok (sys c).
Proof.
  intros c st He. unfold sys. destruct (s_env st) as [|r env] eqn:E; cbn; [reflexivity|].
  unfold env_ok in *. rewrite E in He. inversion He; subst. auto.
Qed.
Lemma quiet_update : forall w i n, quiet any (handle_update w i n).
Proof. intros w i n st He. unfold handle_update, any. destruct (_ && _); [|cbn; auto]. destruct (hget _ _); cbn; auto. Qed.
Lemma quiet_unused : forall i, quiet any (handle_unused i).
Proof. intros i st He. unfold handle_unused, any. destruct (hget _ _); cbn; auto. Qed.
Lemma quiet_new : forall u n fd fl d, quiet any (handle_new u n fd fl d).
Proof.
  intros u n fd fl d st He. unfold handle_new, any. cbv zeta. destruct (s_first st =? -1).
  - destruct (u32 _ <=? _); [cbn; auto|]. unfold handle_unused. destruct (hget _ _) as [h|]; [|cbn; auto]. destruct (hget _ _); cbn; auto.
  - destruct (hget _ _); cbn; auto.
Qed.
Lemma quiet_attr : forall b c s, quiet any (attr_call b c s).
Proof. intros b c s. unfold attr_call. destruct b; [|now apply quiet_ret]. eapply quiet_bind; [apply quiet_sys|]. intros a _. now apply quiet_ret. Qed.
Lemma quiet_close : forall i, quiet (fun r => fst r = -1 -> snd r <> 0) (handle_close i).
Proof.
  intros i st He. unfold handle_close. destruct (handle_is_ok i HFile st); [|destruct (handle_is_ok i HDir st)].
  - revert st He. set (c := fun st => CClose (handle_to_fd i st)). intros st He. change (CClose (handle_to_fd i st)) with (c st). generalize (c st). intros x. clear c.
    revert st He. change (quiet (fun r => fst r = -1 -> snd r <> 0) (do r <- sys x; run handle_unused i; ret (rs_ret r, rs_errno r))).
    eapply quiet_bind; [apply quiet_sys|]. intros r Hr. eapply quiet_bind; [apply quiet_unused|]. intros _ _. apply quiet_ret. exact (proj2 Hr).
  - generalize (CClosedir match handle_to_dir i st with Some d => d | None => 0 end). intros x. revert st He.
    change (quiet (fun r => fst r = -1 -> snd r <> 0) (do r <- sys x; run handle_unused i; ret (rs_ret r, rs_errno r))).
    eapply quiet_bind; [apply quiet_sys|]. intros r Hr. eapply quiet_bind; [apply quiet_unused|]. intros _ _. apply quiet_ret. exact (proj2 Hr).
  - cbn. splits; auto. lia.
Qed.

Lemma one_send : forall id r, reply_id r = Some id -> one id (send r).
Proof. intros id r H st He. cbn. split; eauto. Qed.
Lemma one_status : forall id s, one id (send_status id s).
Proof. intros. now apply one_send. Qed.
Lemma one_status_msg : forall id s t, one id (send_status_errmsg id s t).
Proof. intros. now apply one_send. Qed.
Lemma one_result : forall id r, one id (send_result id r).
Proof. intros. now apply one_send. Qed.
Lemma one_unless : forall id s, s <> FX_OK -> one id (send_unless_ok id s).
Proof. intros id s H. unfold send_unless_ok. destruct (s =? FX_OK) eqn:E; [lia|]. apply one_status. Qed.
Lemma errno_portable_ok : forall e, errno_to_portable e = FX_OK <-> e = 0.
Proof.
  intros e. unfold errno_to_portable. destruct (e =? 0) eqn:E; [split; intros; [lia|reflexivity]|].
  split; intros H; [|lia]. repeat match type of H with (if ?b then _ else _) = _ => destruct b end; discriminate.
Qed.
Lemma one_unless_errno : forall id r, res_ok r -> (rs_ret r =? -1) = true -> one id (send_unless_ok id (errno_to_portable (rs_errno r))).
Proof. intros id r H E. apply one_unless. rewrite errno_portable_ok. apply (proj2 H). lia. Qed.

Ltac one_step :=
  first
  [ eapply one_bind; [first [apply quiet_parse | apply quiet_look | apply quiet_get_handle | apply quiet_sys | apply quiet_new | apply quiet_attr | apply quiet_update | apply quiet_close]|intros ? ?]
  | apply one_status | apply one_status_msg | apply one_result | (apply one_send; reflexivity) | (apply one_unless; discriminate)
  | (apply one_unless_errno; assumption)
  | match goal with
    | |- one _ (if ?b then _ else _) => destruct b eqn:?
    | |- one _ (match ?x with _ => _ end) => destruct x eqn:?
    | |- one _ (let _ := _ in _) => cbv zeta
    end ].
Ltac one_walk := repeat one_step.

Lemma quiet_if_sys : forall (b : bool) c, quiet res_ok (if b then ret (mkRes 0 0 [] stat0) else sys c).
Proof. intros b c. destruct b; [|apply quiet_sys]. apply quiet_ret. split; cbn; lia. Qed.

Lemma readdir_loop_env : forall cf d path n env count names calls o cs env', (length env <= n)%nat ->
  readdir_loop cf d path count env names calls = (o, cs, env') -> Forall res_ok env -> Forall res_ok env'.
Proof.
  intros cf d path. induction n as [|n IH]; intros env count names calls o cs env' Hn H Hf.
  - destruct env; [|cbn in Hn; lia]. cbn in H. now injection H as <- <- <-.
  - destruct env as [|r1 env]; cbn [readdir_loop] in H; [now injection H as <- <- <-|]. inversion Hf as [|? ? F1 F2]; subst.
    destruct (rs_ret r1 =? -1); [now injection H as <- <- <-|]. destruct env as [|r2 env]; [injection H as <- <- <-; constructor|].
    inversion F2; subst. cbn in Hn. destruct (rs_ret r2 =? -1); [|destruct (count + 1 =? 100)]; [|now injection H as <- <- <-|].
    all: eapply IH in H; eauto; lia.
Qed.
Lemma copy_loop_env : forall rfd wfd eof n env todo status rd wr calls o rd' wr' cs env', (length env <= n)%nat ->
  copy_loop rfd wfd eof todo status env rd wr calls = (o, rd', wr', cs, env') -> Forall res_ok env -> Forall res_ok env'.
Proof.
  intros rfd wfd eof. induction n as [|n IH]; intros env todo status rd wr calls o rd' wr' cs env' Hn H Hf.
  - destruct env; [|cbn in Hn; lia]. cbn [copy_loop] in H. destruct (_ || _); [|now injection H as <- <- <- <- <-].
    cbv zeta in H. destruct (_ =? 0); now injection H as <- <- <- <- <-.
  - destruct env as [|r1 env]; cbn [copy_loop] in H; (destruct (_ || _); [|now injection H as <- <- <- <- <-]); cbv zeta in H;
      (destruct (Z.min COPY_BUF todo =? 0); [now injection H as <- <- <- <- <-|]); [now injection H as <- <- <- <- <-|].
    inversion Hf as [|? ? F1 F2]; subst. destruct (_ && _); [now injection H as <- <- <- <- <-|]. destruct (rs_ret r1 =? 0); [now injection H as <- <- <- <- <-|].
    destruct env as [|r2 env]; [injection H as <- <- <- <- <-; constructor|]. inversion F2; subst.
    cbn in Hn. destruct (negb _); [now injection H as <- <- <- <- <-|]. eapply IH in H; eauto; lia.
Qed.

Lemma one_readdir : forall cf id, one id (process_readdir cf id).
Proof.
  intros cf id. unfold process_readdir. do 3 one_step. destruct a0 as [d|]; [|apply one_status]. destruct a1 as [p|]; [|apply one_status].
  intros st He. destruct (readdir_loop cf d p 0 (s_env st) [] []) as [[o cs] env'] eqn:E.
  assert (E' : Forall res_ok env') by (eapply readdir_loop_env; [apply le_n|exact E|exact He]).
  destruct o as [names|]; [destruct (zlen names >? 0)|]; cbn; auto; split; eauto.
Qed.
Lemma one_copy : forall id, one id (process_copy_data id).
Proof.
  intros id. unfold process_copy_data. do 5 one_step. cbv zeta. do 4 one_step. destruct (_ || _); [apply one_status|]. one_step. destruct (_ <? 0); [apply one_status|].
  one_step. eapply one_bind; [apply quiet_if_sys|intros t Ht]. destruct (_ <? 0); [apply one_status|].
  intros st He. destruct (copy_loop _ _ _ _ _ _ _ _ _) as [[[[o rd] wr] cs] env'] eqn:E.
  assert (E' : Forall res_ok env') by (eapply copy_loop_env; [apply le_n|exact E|exact He]).
  destruct o as [[todo status]|]; [|cbn; auto].
  match goal with |- match ?m ?s with _ => _ end => assert (O : one id m) by one_walk; specialize (O s E') end. exact O.
Qed.
Lemma quiet_names : forall mk n ids acc, (length ids <= n)%nat -> quiet any (names_of mk ids acc).
Proof.
  intros mk. induction n as [|n IH]; intros ids acc Hn.
  - destruct ids; [now apply quiet_ret|cbn in Hn; lia].
  - destruct ids as [|a [|b [|c [|d r]]]]; cbn [names_of]; try (now apply quiet_ret); try (intros st He; reflexivity).
    eapply quiet_bind; [apply quiet_sys|]. intros x _. apply IH. cbn in Hn. lia.
Qed.

Lemma one_handlers : forall cf k, In k handlers -> forall id, one id (k_run k cf id).
Proof.
  intros cf k Hk id. cbn [handlers In] in Hk. repeat (destruct Hk as [<- | Hk]; [cbn [k_run]|]); try contradiction.
  - unfold process_open. one_walk.
  - unfold process_close. one_walk.
  - unfold process_read. one_walk. apply one_then; [apply one_send; reflexivity|apply quiet_update].
  - unfold process_write. do 3 one_step. one_step. destruct (_ <? 0); [apply one_status|]. one_step. eapply one_bind; [apply quiet_if_sys|intros t Ht]. one_walk.
  - unfold process_do_stat. one_walk.
  - unfold process_fstat. one_walk.
  - unfold process_setstat. one_walk.
  - unfold process_fsetstat. one_walk.
  - unfold process_opendir. one_walk.
  - apply one_readdir.
  - unfold process_remove. one_walk.
  - unfold process_mkdir. one_walk.
  - unfold process_rmdir. one_walk.
  - unfold process_realpath, realpath_reply, send_name1. one_walk.
  - unfold process_do_stat. one_walk.
  - unfold process_rename. one_walk.
  - unfold process_readlink, send_name1. one_walk.
  - unfold process_symlink. one_walk.
Qed.
Lemma one_extended : forall cf k, In k extended_handlers -> forall id, one id (k_run k cf id).
Proof.
  intros cf k Hk id. cbn [extended_handlers In] in Hk. repeat (destruct Hk as [<- | Hk]; [cbn [k_run]|]); try contradiction.
  - unfold process_posix_rename. one_walk.
  - unfold process_statvfs, send_statvfs. one_walk.
  - unfold process_fstatvfs, send_statvfs. one_walk.
  - unfold process_hardlink. one_walk.
  - unfold process_fsync. one_walk.
  - unfold process_lsetstat. one_walk.
  - unfold process_limits. one_walk.
  - unfold process_expand, realpath_reply, send_name1. one_walk.
  - apply one_copy.
  - unfold process_home, send_name1. one_walk.
  - unfold process_users_groups. do 2 one_step. do 2 (eapply one_bind; [eapply quiet_names; apply le_n|intros ? ?]). one_walk.
Qed.
