(** Permission lists, data transfer and renaming. *)
From Coq Require Import String.
From Verif Require Import Base SshbufModel SshbufSpec WireSpec WireProof Dec Text MatchModel MatchSpec MatchProof.
From Verif Require Import SftpModel SftpSpec SftpProof SftpProof2 SftpProof3 SftpProof4 SftpProof5 SftpProof6.

(** * Inverting successful steps *)
Lemma bind_go : forall A B (m : M A) (f : A -> M B) st b st', bind m f st = Go b st' -> exists a st1, m st = Go a st1 /\ f a st1 = Go b st'.
Proof. intros A B m f st b st' H. unfold bind in H. destruct (m st) as [a st1|]; [eauto|discriminate]. Qed.
Lemma sys_go : forall c st r st', sys c st = Go r st' -> exists env, s_env st = r :: env /\ st' = add_calls [(c, Some r)] env st.
Proof. intros c st r st' H. unfold sys in H. destruct (s_env st) as [|x env]; [discriminate|]. exists env. split; congruence. Qed.
Lemma parse_go : forall A (f : list Z -> option (A * list Z)) st a st', parse f st = Go a st' -> exists l, f (s_in st) = Some (a, l) /\ st' = set_in l st.
Proof. intros A f st a st' H. unfold parse in H. destruct (f (s_in st)) as [[x l]|]; [|discriminate]. exists l. split; congruence. Qed.
Lemma look_go : forall A (f : state -> A) st a st', look f st = Go a st' -> a = f st /\ st' = st.
Proof. intros A f st a st' H. unfold look in H. split; congruence. Qed.
Lemma send_go : forall r st u st', send r st = Go u st' -> st' = add_out r st.
Proof. intros r st u st' H. unfold send in H. congruence. Qed.
Lemma update_go : forall w i n st u st', handle_update w i n st = Go u st' -> s_calls st' = s_calls st /\ s_out st' = s_out st /\ s_env st' = s_env st.
Proof.
  intros w i n st u st' H. unfold handle_update in H. destruct (_ && _); [|apply go_inj in H; subst; auto]. destruct (hget _ _); [|discriminate]. apply go_inj in H. subst. auto.
Qed.
Lemma did_unique : forall st st' cs rs cs' rs', did st st' cs rs -> did st st' cs' rs' -> cs = cs' /\ rs = rs'.
Proof. intros st st' cs rs cs' rs' [H1 H2] [H3 H4]. rewrite H1 in H3. rewrite H2 in H4. split; eapply app_inv_head; eauto. Qed.
Lemma did_set_in : forall i st st' cs rs, did (set_in i st) st' cs rs <-> did st st' cs rs.
Proof. intros. reflexivity. Qed.

(** * Which requests are refused *)
Lemma listed_spec : forall n l, n <> [] -> ~ In 44 n -> list_ok l -> (listed n l = true <-> In n (split 44 l)).
Proof.
  intros n l Hn Hc [Hl He]. unfold listed. pose proof (match_list_spec n l) as S.
  assert (Nn : names n = [n]). { unfold names. rewrite split_single by assumption. apply names_of_all. now repeat constructor. }
  assert (Nl : names l = split 44 l). { unfold names. apply names_of_all. apply Forall_forall. intros x Hx ->. now apply He. }
  rewrite Nn, Nl, (firstn_all2 (split 44 l)) in S by assumption. destruct (match_list n l) as [x|].
  - split; [intros _|reflexivity]. destruct S as (pre & post & E & Hx & _). destruct pre as [|? [|? ?]]; cbn in E; try discriminate. now injection E as <- _.
  - split; [discriminate|]. intros K. exfalso. apply (S n); [now left|assumption].
Qed.
Definition name_ok (n : list Z) : Prop := n <> [] /\ ~ In 44 n.
Lemma table_names_ok : Forall (fun k => name_ok (k_name k)) (handlers ++ extended_handlers).
Proof. rewrite <- Forall_map. cbn [handlers extended_handlers map app k_name]. repeat (constructor; [split; [discriminate|intros K; vm_compute in K; intuition discriminate]|]). constructor. Qed.

Definition banned (cf : config) (n : list Z) : Prop := (c_readonly cf = true /\ In n write_names) \/ refused_by_lists cf n.
Lemma mem_spec : forall n l, existsb (beqb n) l = true <-> In n l.
Proof.
  intros n l. rewrite existsb_exists. split.
  - intros (x & Hx & E). apply beqb_eq in E. now subst.
  - intros H. exists n. split; [assumption|apply beqb_refl].
Qed.
Lemma writes_names : Forall (fun k => k_writes k = true <-> In (k_name k) write_names) (handlers ++ extended_handlers).
Proof.
  assert (K : map (fun k => (k_writes k, k_name k)) (handlers ++ extended_handlers) =
    map (fun n => (existsb (beqb n) write_names, n)) (map snd type_names ++ map snd ext_names)) by reflexivity.
  apply Forall_forall. intros k Hk. apply (in_map (fun k => (k_writes k, k_name k))) in Hk. rewrite K in Hk. apply in_map_iff in Hk. destruct Hk as (n & E & _).
  pose proof (f_equal snd E) as E2. pose proof (f_equal fst E) as E1. cbn [fst snd] in E1, E2. rewrite <- E1, E2. apply mem_spec.
Qed.
Lemma permitted_spec : forall cf k, In k (handlers ++ extended_handlers) -> lists_ok cf -> (request_permitted cf k = false <-> banned cf (k_name k)).
Proof.
  intros cf k Hk [L1 L2]. pose proof (proj1 (Forall_forall _ _) table_names_ok k Hk) as [N1 N2]. pose proof (proj1 (Forall_forall _ _) writes_names k Hk) as W. cbv beta in *.
  unfold request_permitted, banned, refused_by_lists. destruct (c_readonly cf && k_writes k) eqn:E.
  - apply andb_prop in E. destruct E as [E1 E2]. split; [intros _; left; tauto|reflexivity].
  - assert (NW : ~ (c_readonly cf = true /\ In (k_name k) write_names)) by (rewrite <- W; intros [A B]; rewrite A, B in E; discriminate).
    destruct (c_deny cf) as [d|]; [specialize (L1 d eq_refl); pose proof (listed_spec (k_name k) d N1 N2 L1) as S1; destruct (listed (k_name k) d)|].
    + split; [intros _; right; left; exists d; split; [reflexivity|now apply S1]|reflexivity].
    + destruct (c_allow cf) as [a|]; [specialize (L2 a eq_refl); pose proof (listed_spec (k_name k) a N1 N2 L2) as S2|].
      * split; [intros H; right; right; exists a; split; [reflexivity|]; rewrite <- S2; congruence|].
        intros [H|[(l & H & K)|(l & H & K)]]; [now elim NW|injection H as <-; apply S1 in K; discriminate|injection H as <-; rewrite <- S2 in K; now apply not_true_is_false].
      * split; [discriminate|]. intros [H|[(l & H & K)|(l & H & K)]]; [now elim NW|injection H as <-; apply S1 in K; discriminate|discriminate].
    + destruct (c_allow cf) as [a|]; [specialize (L2 a eq_refl); pose proof (listed_spec (k_name k) a N1 N2 L2) as S2|].
      * split; [intros H; right; right; exists a; split; [reflexivity|]; rewrite <- S2; congruence|].
        intros [H|[(l & H & K)|(l & H & K)]]; [now elim NW|discriminate|injection H as <-; rewrite <- S2 in K; now apply not_true_is_false].
      * split; [discriminate|]. intros [H|[(l & H & K)|(l & H & K)]]; [now elim NW|discriminate|discriminate].
Qed.
(** In read-only mode the lists do not matter for writing requests. *)
Lemma permitted_readonly : forall cf k, In k (handlers ++ extended_handlers) -> c_readonly cf = true -> In (k_name k) write_names -> request_permitted cf k = false.
Proof.
  intros cf k Hk H1 H2. pose proof (proj1 (Forall_forall _ _) writes_names k Hk) as W. cbv beta in W. unfold request_permitted. rewrite H1. apply W in H2. now rewrite H2.
Qed.

(** The handler a message goes to. *)
Lemma nodup_find : forall (f : handler -> bool) l k, In k l -> f k = true -> (forall k', In k' l -> f k' = true -> k' = k) -> find f l = Some k.
Proof.
  intros f l k Hk Hf Hu. destruct (find f l) as [k'|] eqn:E; [|exfalso; pose proof (find_none _ _ E k Hk); congruence].
  apply find_in in E. destruct E as [E1 E2]. f_equal. now apply Hu.
Qed.
Lemma type_name_handler : forall t n, In (t, n) type_names -> exists k, handler_bytype t = Some k /\ In k handlers /\ k_name k = n /\ t <> 1 /\ t <> 200.
Proof.
  intros t n H. destruct (handler_bytype t) as [k|] eqn:E.
  - pose proof E as E0. apply find_in in E. destruct E as [E1 E2]. exists k. split; [reflexivity|]. split; [assumption|].
    assert (Hk : In (t, k_name k) type_names). { rewrite type_names_table. apply in_map_iff. exists k. split; [f_equal; lia|assumption]. }
    assert (Hr : 3 <= t <= 20). { clear - H. apply (in_map fst) in H. cbn in H. intuition lia. }
    assert (ND : NoDup (map fst type_names)). { cbn. repeat (constructor; [cbn; intuition lia|]). constructor. }
    split; [|lia]. clear - H Hk ND. induction type_names as [|[a b] l IH]; [destruct H|]. cbn [map fst] in ND. apply NoDup_cons_iff in ND. destruct ND as [N1 N2].
    destruct H as [H|H], Hk as [Hk|Hk].
    + congruence.
    + injection H as <- <-. exfalso. apply N1. now apply (in_map fst) in Hk.
    + injection Hk as -> _. exfalso. apply N1. now apply (in_map fst) in H.
    + now apply IH.
  - exfalso. apply (proj1 (known_type t)); [eauto|assumption].
Qed.
Lemma ext_name_handler : forall e n, In (e, n) ext_names -> exists k, extended_handler_byname e = Some k /\ In k extended_handlers /\ k_name k = n.
Proof.
  intros e n H. rewrite ext_names_table in H. apply in_map_iff in H. destruct H as (k & E & Hk). injection E as E1 E2. exists k. split; [|now split].
  assert (ND : NoDup (map k_ext extended_handlers)).
  { change (map k_ext extended_handlers) with (map fst ext_names). unfold ext_names. rewrite map_map. cbn [map fst]. repeat (constructor; [intros K; vm_compute in K; intuition discriminate|]). constructor. }
  apply nodup_find; [assumption|rewrite E1; apply beqb_refl|]. intros k' Hk' Hb. apply beqb_eq in Hb. rewrite <- E1 in Hb. clear E1 E2.
  induction extended_handlers as [|x l IH]; [destruct Hk|]. cbn [map] in ND. apply NoDup_cons_iff in ND. destruct ND as [N1 N2]. destruct Hk as [->|Hk], Hk' as [->|Hk'].
  - reflexivity.
  - exfalso. apply N1. rewrite Hb. now apply in_map.
  - exfalso. apply N1. rewrite <- Hb. now apply in_map.
  - now apply IH.
Qed.

(** What dispatch does with a named request. *)
Lemma dispatch_named : forall cf t tail n st st', request_named (t :: tail) n -> dispatch cf t (set_in tail st) = Go tt st' ->
  exists id k i, m_id (t :: tail) = Some id /\ In k (handlers ++ extended_handlers) /\ k_name k = n /\ s_init st = true /\
    (forall cf', dispatch cf' t (set_in tail st) = if request_permitted cf' k then k_run k cf' id (set_in i st) else send_status id FX_PERMISSION_DENIED (set_in i st)).
Proof.
  intros cf t tail n st st' Hn Hg.
  assert (Hi : t <> 1 -> s_init st = true /\ exists id args, get_int 4 tail = Some (id, args)).
  { intros Ht. unfold dispatch in Hg. replace (t =? FXP_INIT) with false in Hg by (unfold FXP_INIT; lia). cbn [s_init set_in] in Hg. destruct (s_init st); [|discriminate]. split; [reflexivity|].
    cbn [negb] in Hg. apply bind_go in Hg. destruct Hg as (id & st1 & Hp & _). apply parse_go in Hp. destruct Hp as (l & Hp & _). eauto. }
  destruct Hn as [(t' & Ht & Hin) | (Ht & e & He & Hin)]; cbn [m_type] in Ht; injection Ht as Ht.
  - subst t'. destruct (type_name_handler t n Hin) as (k & Ek & Hk & Hkn & H1 & H2). destruct (Hi H1) as (HI & id & args & Ei). destruct (m_args_cons t tail id args Ei) as [Mid _].
    exists id, k, args. split; [assumption|]. split; [now apply in_or_app; left|]. split; [assumption|]. split; [assumption|]. intros cf'. unfold dispatch.
    replace (t =? FXP_INIT) with false by (unfold FXP_INIT; lia). cbn [s_init set_in]. rewrite HI. cbn [negb]. unfold bind at 1. unfold parse at 1. cbn [s_in set_in]. rewrite Ei.
    replace (t =? FXP_EXTENDED) with false by (unfold FXP_EXTENDED; lia). rewrite Ek. rewrite set_in_in. now destruct (request_permitted cf' k).
  - subst t. destruct (ext_name_handler e n Hin) as (k & Ek & Hk & Hkn). destruct (Hi ltac:(lia)) as (HI & id & args & Ei). destruct (m_args_cons 200 tail id args Ei) as [Mid Ma].
    unfold m_ext in He. rewrite Ma in He. destruct (get_cstr args) as [[e' r]|] eqn:Ee; [|discriminate]. cbn in He. injection He as ->.
    exists id, k, r. split; [assumption|]. split; [now apply in_or_app; right|]. split; [assumption|]. split; [assumption|]. intros cf'. unfold dispatch.
    change (200 =? FXP_INIT) with false. cbn [s_init set_in]. rewrite HI. cbn [negb]. unfold bind at 1. unfold parse at 1. cbn [s_in set_in]. rewrite Ei.
    change (200 =? FXP_EXTENDED) with true. unfold process_extended. unfold bind at 1. unfold parse at 1. cbn [s_in set_in]. rewrite Ee, Ek. rewrite !set_in_in. now destruct (request_permitted cf' k).
Qed.
Lemma dispatch_refused : forall cf t tail n st st' cs rs, request_named (t :: tail) n ->
  (lists_ok cf /\ refused_by_lists cf n) \/ (c_readonly cf = true /\ In n write_names) ->
  dispatch cf t (set_in tail st) = Go tt st' -> did st st' cs rs -> cs = [] /\ exists id x, m_id (t :: tail) = Some id /\ rs = [RStatus id 3 x].
Proof.
  intros cf t tail n st st' cs rs Hn Hr Hg Hd. destruct (dispatch_named cf t tail n st st' Hn Hg) as (id & k & i & Mid & Hk & Hkn & _ & E). rewrite E in Hg.
  replace (request_permitted cf k) with false in Hg.
  2:{ symmetry. subst n. destruct Hr as [[L R]|[R W]]; [apply permitted_spec; [assumption|assumption|now right]|now apply permitted_readonly]. }
  apply send_go in Hg. subst st'. destruct Hd as [D1 D2]. cbn [s_calls s_out add_out set_in] in *.
  rewrite <- (app_nil_r (s_calls st)) in D1 at 1. apply app_inv_head in D1. apply app_inv_head in D2. subst. split; [reflexivity|]. exists id. eauto.
Qed.

(** Requests that are not refused do the same as without lists. *)
Definition without_lists (cf : config) : config := mkConfig (c_readonly cf) None None (c_ls cf) (c_home cf).
Lemma readdir_lists : forall cf d path n env count names calls, (length env <= n)%nat -> readdir_loop (without_lists cf) d path count env names calls = readdir_loop cf d path count env names calls.
Proof.
  intros cf d path. induction n as [|n IH]; intros env count names calls H.
  - destruct env; [reflexivity|cbn in H; lia].
  - destruct env as [|r1 [|r2 env]]; cbn [readdir_loop]; try reflexivity. cbn [length] in H. destruct (rs_ret r1 =? -1); [reflexivity|]. destruct (rs_ret r2 =? -1); [apply IH; lia|].
    destruct (count + 1 =? 100); [reflexivity|]. apply IH. lia.
Qed.
Lemma run_lists : forall cf k id st, In k (handlers ++ extended_handlers) -> k_run k (without_lists cf) id st = k_run k cf id st.
Proof.
  intros cf k id st Hk. cbn [handlers extended_handlers In app] in Hk. repeat (destruct Hk as [<- | Hk]; [cbn [k_run]; try reflexivity|]); [|destruct Hk].
  unfold process_readdir, bind. destruct (get_handle st) as [h st1|]; [|reflexivity]. unfold look. destruct (handle_to_dir h st1) as [d|]; [|reflexivity].
  destruct (handle_to_name h st1) as [p|]; [|reflexivity]. now rewrite (readdir_lists cf d p (length (s_env st1))) by apply le_n.
Qed.
Lemma dispatch_allowed : forall cf t tail n st st', request_named (t :: tail) n -> lists_ok cf -> ~ refused_by_lists cf n ->
  dispatch (without_lists cf) t (set_in tail st) = Go tt st' -> dispatch cf t (set_in tail st) = Go tt st'.
Proof.
  intros cf t tail n st st' Hn L Hr Hg. destruct (dispatch_named _ t tail n st st' Hn Hg) as (id & k & i & Mid & Hk & Hkn & _ & E). rewrite E in *.
  assert (P : request_permitted cf k = request_permitted (without_lists cf) k).
  { assert (L' : lists_ok (without_lists cf)) by (split; discriminate).
    pose proof (permitted_spec cf k Hk L) as P1. pose proof (permitted_spec _ k Hk L') as P2. rewrite Hkn in *. unfold banned in *.
    assert (R' : ~ refused_by_lists (without_lists cf) n) by (intros [(l & K & _)|(l & K & _)]; discriminate). cbn [without_lists c_readonly] in P2.
    destruct (request_permitted cf k), (request_permitted (without_lists cf) k); try reflexivity.
    - apply P1. left. destruct (proj1 P2 eq_refl) as [K|K]; [exact K|contradiction].
    - symmetry. apply P2. left. destruct (proj1 P1 eq_refl) as [K|K]; [exact K|contradiction]. }
  rewrite P, <- run_lists by assumption. exact Hg.
Qed.

(** * Reading *)
Lemma errno_fail : forall r, res_ok r -> (rs_ret r =? -1) = true -> errno_to_portable (rs_errno r) <> FX_OK.
Proof. intros r [_ H] E K. apply H; [lia|exact (proj1 (errno_portable_ok _) K)]. Qed.

Lemma get_str_enc' : forall l s r, is_bytes l -> get_str l = Some (s, r) -> l = enc_string s ++ r /\ is_bytes r.
Proof. intros l s r Hb H. apply get_str_spec in H; [|assumption]. tauto. Qed.

Lemma read_transferred : forall id m st st' cs d id', is_bytes (m_args m) -> env_ok st -> process_read id (set_in (m_args m) st) = Go tt st' -> did st st' cs [RData id' d] ->
  exists h off len fd fl n s, read_args m h off len /\ abs st h = Some (OFile fd fl n) /\ rs_ret s <> -1 /\
    ((len = 0 /\ d = [] /\ cs = [(CLseek fd off, Some s)]) \/
     exists r, cs = [(CLseek fd off, Some s); (CRead fd (Z.min len MAX_READ), Some r)] /\ 0 < rs_ret r /\ d = ztake (rs_ret r) (rs_data r)).
Proof.
  intros id m st st' cs d id' Hb He Hg Hd. set (args := m_args m) in *. unfold process_read in Hg.
  apply bind_go in Hg. destruct Hg as (h & st1 & Hh & Hg). apply get_handle_at in Hh. destruct Hh as (s & l & Es & -> & Ho). cbn [s_in set_in] in Es. rewrite set_in_in in Hg.
  apply bind_go in Hg. destruct Hg as (off & st2 & Hp & Hg). apply parse_go in Hp. destruct Hp as (l2 & E2 & ->). cbn [s_in set_in] in E2. rewrite set_in_in in Hg.
  apply bind_go in Hg. destruct Hg as (len & st3 & Hp & Hg). apply parse_go in Hp. destruct Hp as (l3 & E3 & ->). cbn [s_in set_in] in E3. rewrite set_in_in in Hg.
  apply bind_go in Hg. destruct Hg as (fd & st4 & Hl & Hg). apply look_go in Hl. destruct Hl as [-> ->].
  rewrite to_fd_at in Hg. change (obj_at (set_in l3 st) h) with (obj_at st h) in Hg. change (obj_at (set_in args st) h) with (obj_at st h) in Ho.
  change (abs (set_in args st) s) with (abs st s) in Ho. rewrite Ho in Hg.
  destruct (get_str_enc' _ _ _ Hb Es) as [A1 B1]. destruct (get_int_spec 8 l off l2 B1 E2) as (A2 & R2 & B2). destruct (get_int_spec 4 l2 len l3 B2 E3) as (A3 & R3 & _).
  assert (RA : read_args m s off len). { exists l3. fold args. rewrite A1, A2, A3. split; [reflexivity|]. split; [exact R2|exact R3]. }
  assert (Dead : forall s', s' <> FX_OK -> send_unless_ok id s' (set_in l3 st) = Go tt st' -> False).
  { intros s' Hs Hx. unfold send_unless_ok in Hx. destruct (s' =? FX_OK) eqn:E; [unfold FX_OK in *; lia|]. apply send_go in Hx. subst st'. destruct Hd as [_ D2]. cbn [s_out add_out set_in] in D2. apply app_inv_head in D2. discriminate. }
  destruct (abs st s) as [[fd fl n|d0 n]|] eqn:Ea; [|exfalso; apply (Dead FX_FAILURE); [discriminate|exact Hg]|exfalso; apply (Dead FX_FAILURE); [discriminate|exact Hg]].
  destruct (fd =? -1); [exfalso; apply (Dead FX_FAILURE); [discriminate|exact Hg]|].
  cbv zeta in Hg. apply bind_go in Hg. destruct Hg as (r0 & st5 & Hs & Hg). apply sys_go in Hs. destruct Hs as (env & Ee & ->).
  assert (Tag : forall st0 z, (if z =? FX_OK then Go tt st0 else Go tt (add_out (RStatus id z (status_to_message z)) st0)) = Go tt st' -> s_out st0 = s_out st -> False).
  { intros st0 z Hx Ho'. destruct Hd as [_ D2]. destruct (z =? FX_OK); apply go_inj in Hx; subst st'; cbn [s_out add_out] in D2; rewrite Ho' in D2.
    - rewrite <- (app_nil_r (s_out st)) in D2 at 1. apply app_inv_head in D2. discriminate.
    - apply app_inv_head in D2. discriminate. }
  assert (Tag' : forall st0 z, send_unless_ok id z st0 = Go tt st' -> s_out st0 = s_out st -> False).
  { intros st0 z Hx. apply (Tag st0 z). unfold send_unless_ok in Hx. now destruct (z =? FX_OK). }
  destruct (rs_ret r0 =? -1) eqn:E0; [exfalso; apply (Tag' _ _ Hg); reflexivity|].
  set (len' := if len >? MAX_READ then MAX_READ else len) in *.
  assert (EL : len' = Z.min len MAX_READ) by (unfold len'; destruct (len >? MAX_READ) eqn:E; lia). clearbody len'. subst len'.
  exists s, off, len, fd, fl, n, r0. split; [exact RA|]. split; [exact Ea|]. split; [lia|].
  destruct (Z.min len MAX_READ =? 0) eqn:E4.
  - apply send_go in Hg. subst st'. destruct Hd as [D1 D2]. cbn [s_out s_calls add_out add_calls set_in] in *. apply app_inv_head in D1, D2. injection D2 as _ <-. left. split; [change MAX_READ with 261120 in E4; lia|]. now split.
  - right. apply bind_go in Hg. destruct Hg as (r & st6 & Hs & Hg). apply sys_go in Hs. destruct Hs as (env' & Ee' & ->). exists r.
    destruct (rs_ret r =? -1) eqn:E5; [exfalso; apply (Tag' _ _ Hg); reflexivity|]. destruct (rs_ret r =? 0) eqn:E6; [exfalso; apply (Tag' _ _ Hg); reflexivity|].
    apply bind_go in Hg. destruct Hg as (u & st7 & Hs & Hg). apply send_go in Hs. subst st7. apply update_go in Hg. destruct Hg as (C1 & C2 & _).
    destruct Hd as [D1 D2]. rewrite C1 in D1. rewrite C2 in D2. cbn [s_out s_calls add_out add_calls set_in] in *. rewrite <- app_assoc in D1. apply app_inv_head in D1, D2.
    cbn [s_env set_in add_calls] in Ee, Ee'. unfold env_ok in He. rewrite Ee, Ee' in He. apply Forall_inv_tail, Forall_inv in He. destruct He as [K _].
    split; [now rewrite <- D1|]. split; [lia|congruence].
Qed.

Lemma destruct_last : forall (A : Type) (l : list A), l = [] \/ exists p x, l = p ++ [x].
Proof. intros A l. destruct l as [|a l]; [now left|right]. destruct (exists_last (l := a :: l)) as (p & x & E); [discriminate|]. eauto. Qed.
Lemma cons_last : forall (A : Type) (pre : list A) x y, pre ++ [x] = [y] -> pre = [] /\ x = y.
Proof. intros A pre x y H. apply (app_inj_tail pre [] x y) in H. exact H. Qed.

Lemma write_transferred : forall id m st st' cs rs id' z t, is_bytes (m_args m) -> env_ok st -> process_write id (set_in (m_args m) st) = Go tt st' -> did st st' cs rs -> rs = [RStatus id' z t] ->
  (z = FX_OK <-> exists h off data fd fl n pre r, write_args m h off data /\ abs st h = Some (OFile fd fl n) /\
        cs = pre ++ [(CWrite fd data, Some r)] /\ positioned fd fl off pre /\ rs_ret r = zlen data).
Proof.
  intros id m st st' cs rs id' z t Hb He Hg Hd Hrs. subst rs. set (args := m_args m) in *. unfold process_write in Hg.
  apply bind_go in Hg. destruct Hg as (h & st1 & Hh & Hg). apply get_handle_at in Hh. destruct Hh as (s & l & Es & -> & Ho). cbn [s_in set_in] in Es. rewrite set_in_in in Hg.
  apply bind_go in Hg. destruct Hg as (off & st2 & Hp & Hg). apply parse_go in Hp. destruct Hp as (l2 & E2 & ->). cbn [s_in set_in] in E2. rewrite set_in_in in Hg.
  apply bind_go in Hg. destruct Hg as (data & st3 & Hp & Hg). apply parse_go in Hp. destruct Hp as (l3 & E3 & ->). cbn [s_in set_in] in E3. rewrite set_in_in in Hg.
  apply bind_go in Hg. destruct Hg as (fd & st4 & Hl & Hg). apply look_go in Hl. destruct Hl as [-> ->].
  rewrite to_fd_at in Hg. change (obj_at (set_in l3 st) h) with (obj_at st h) in Hg. change (obj_at (set_in args st) h) with (obj_at st h) in Ho.
  change (abs (set_in args st) s) with (abs st s) in Ho. rewrite Ho in Hg.
  destruct (get_str_enc' _ _ _ Hb Es) as [A1 B1]. destruct (get_int_spec 8 l off l2 B1 E2) as (A2 & R2 & B2). destruct (get_str_enc' _ _ _ B2 E3) as [A3 B3].
  assert (WA : write_args m s off data). { exists l3. fold args. rewrite A1, A2, A3. split; [reflexivity|exact R2]. }
  assert (NW : z <> FX_OK -> (forall fd d r, ~ In (CWrite fd d, Some r) cs) -> (z = FX_OK <-> exists h off data fd fl n pre r, write_args m h off data /\ abs st h = Some (OFile fd fl n) /\
        cs = pre ++ [(CWrite fd data, Some r)] /\ positioned fd fl off pre /\ rs_ret r = zlen data)).
  { intros Hz Hn. split; [intros K; contradiction|]. intros (h' & off' & data' & fd' & fl' & n' & pre & r & _ & _ & K & _). exfalso. apply (Hn fd' data' r). rewrite K. apply in_or_app. right. now left. }
  assert (No : cs = [] -> forall fd d r, ~ In (CWrite fd d, Some r) cs) by (intros ->; auto).
  assert (Fin : forall st0 cs0 w, did st st0 cs0 [] -> send_status id w st0 = Go tt st' -> z = w /\ cs = cs0).
  { intros st0 cs0 w [F1 F2] Hx. apply send_go in Hx. subst st'. destruct Hd as [D1 D2]. cbn [s_out s_calls add_out] in *. rewrite F1 in D1. rewrite F2, app_nil_r in D2. apply app_inv_head in D1, D2. split; congruence. }
  assert (Fail : send_status id FX_FAILURE (set_in l3 st) = Go tt st' -> z = FX_FAILURE /\ cs = []).
  { apply Fin. split; cbn [s_calls s_out set_in]; now rewrite app_nil_r. }
  destruct (abs st s) as [[fd fl n|d0 n]|] eqn:Ea; [|destruct (Fail Hg) as [-> ->]; apply NW; [discriminate|auto]|destruct (Fail Hg) as [-> ->]; apply NW; [discriminate|auto]].
  destruct (fd <? 0); [destruct (Fail Hg) as [-> ->]; apply NW; [discriminate|auto]|].
  apply bind_go in Hg. destruct Hg as (fl' & st5 & Hl & Hg). apply look_go in Hl. destruct Hl as [-> ->]. rewrite to_flags_at in Hg. change (obj_at (set_in l3 st) h) with (obj_at st h) in Hg. rewrite Ho in Hg.
  apply bind_go in Hg. destruct Hg as (s0 & st6 & Hs & Hg).
  assert (Pos : exists pre env, did st st6 pre [] /\ s_env st6 = env /\ Forall res_ok env /\ res_ok s0 /\ (rs_ret s0 <> -1 -> positioned fd fl off pre) /\ (forall fd d r, ~ In (CWrite fd d, Some r) pre)).
  { unfold positioned. unfold has in Hs. destruct (Z.land fl O_APPEND =? 0) eqn:Ef.
    - cbn [negb] in Hs. apply sys_go in Hs. destruct Hs as (env & Ee & ->). exists [(CLseek fd off, Some s0)], env. cbn [s_env set_in] in Ee. unfold env_ok in He. rewrite Ee in He. inversion He; subst.
      split; [split; cbn [s_calls s_out add_calls set_in]; now rewrite ?app_nil_r|]. split; [reflexivity|]. split; [assumption|]. split; [assumption|]. split; [eauto|]. intros ? ? ? [K|[]]. discriminate.
    - cbn [negb] in Hs. unfold ret in Hs. injection Hs as <- <-. exists [], (s_env st). split; [split; cbn [s_calls s_out set_in]; now rewrite ?app_nil_r|]. split; [reflexivity|]. split; [exact He|].
      split; [split; cbn; lia|]. split; [reflexivity|]. intros ? ? ? []. }
  destruct Pos as (pre & env & Hpre & Eenv & Fenv & Rs0 & Ppos & Pn).
  destruct (rs_ret s0 =? -1) eqn:E0.
  { destruct (Fin _ _ _ Hpre Hg) as [-> ->]. apply NW; [now apply errno_fail|exact Pn]. }
  apply bind_go in Hg. destruct Hg as (r & st7 & Hs' & Hg). apply sys_go in Hs'. destruct Hs' as (env' & Ee' & ->).
  assert (Rr : res_ok r). { rewrite Eenv in Ee'. rewrite Ee' in Fenv. now inversion Fenv. }
  assert (D7 : did st (add_calls [(CWrite fd data, Some r)] env' st6) (pre ++ [(CWrite fd data, Some r)]) []).
  { destruct Hpre as [P1 P2]. split; cbn [s_calls s_out add_calls]; [now rewrite P1, app_assoc|now rewrite P2, app_nil_r]. }
  assert (Only : forall z', z' <> FX_OK -> rs_ret r <> zlen data -> z = z' /\ cs = pre ++ [(CWrite fd data, Some r)] -> (z = FX_OK <-> exists h off data fd fl n pre r, write_args m h off data /\ abs st h = Some (OFile fd fl n) /\
        cs = pre ++ [(CWrite fd data, Some r)] /\ positioned fd fl off pre /\ rs_ret r = zlen data)).
  { intros z' Hz' Hr [-> ->]. split; [intros K; contradiction|]. intros (h' & off' & data' & fd' & fl' & n' & pre' & r' & _ & _ & K & _ & K2). exfalso. apply app_inj_tail in K. destruct K as [_ K]. injection K as _ <- <-. contradiction. }
  pose proof (zlen_nonneg _ data).
  destruct (rs_ret r =? -1) eqn:E1; [apply (Only _ (errno_fail r Rr E1)); [lia|]; now apply (Fin _ _ _ D7)|].
  destruct (rs_ret r =? zlen data) eqn:E2'.
  - apply bind_go in Hg. destruct Hg as (u & st8 & Hu & Hg). apply update_go in Hu. destruct Hu as (U1 & U2 & _).
    assert (D8 : did st st8 (pre ++ [(CWrite fd data, Some r)]) []) by (destruct D7 as [D7a D7b]; split; congruence). destruct (Fin _ _ _ D8 Hg) as [-> ->]. split; [intros _|reflexivity].
    exists s, off, data, fd, fl, n, pre, r. split; [exact WA|]. split; [exact Ea|]. split; [reflexivity|]. split; [apply Ppos; lia|lia].
  - apply (Only FX_FAILURE); [discriminate|lia|now apply (Fin _ _ _ D7)].
Qed.

(** The handler a numbered request goes to, when it is not refused. *)
Lemma dispatch_type : forall cf t tail st st', dispatch cf t (set_in tail st) = Go tt st' -> t <> 1 -> t <> 200 -> forall k, handler_bytype t = Some k ->
  exists id, m_id (t :: tail) = Some id /\ s_init st = true /\ (if request_permitted cf k then k_run k cf id (set_in (m_args (t :: tail)) st) else send_status id FX_PERMISSION_DENIED (set_in (m_args (t :: tail)) st)) = Go tt st'.
Proof.
  intros cf t tail st st' Hg H1 H2 k Hk. unfold dispatch in Hg. replace (t =? FXP_INIT) with false in Hg by (unfold FXP_INIT; lia). cbn [s_init set_in] in Hg. destruct (s_init st); [|discriminate].
  cbn [negb] in Hg. apply bind_go in Hg. destruct Hg as (id & st1 & Hp & Hg). apply parse_go in Hp. destruct Hp as (args & Hp & ->). cbn [s_in set_in] in Hp. rewrite set_in_in in Hg.
  destruct (m_args_cons t tail id args Hp) as [Mid Ma]. exists id. split; [exact Mid|]. split; [reflexivity|]. replace (t =? FXP_EXTENDED) with false in Hg by (unfold FXP_EXTENDED; lia). rewrite Hk in Hg.
  change (m_args (t :: tail) = args) in Ma. rewrite Ma. now destruct (request_permitted cf k).
Qed.
Lemma refused_reply : forall id s st st' cs rs r, send_status id s st = Go tt st' -> did st st' cs rs -> In r rs -> cs = [] /\ r = RStatus id s (status_to_message s).
Proof.
  intros id s st st' cs rs r H [D1 D2] Hr. apply send_go in H. subst st'. cbn [s_calls s_out add_out] in *. rewrite <- (app_nil_r (s_calls st)) in D1 at 1. apply app_inv_head in D1, D2. subst.
  split; [reflexivity|]. destruct Hr as [<-|[]]. reflexivity.
Qed.
Lemma args_bytes : forall t tail, is_bytes tail -> is_bytes (m_args (t :: tail)).
Proof. intros t tail H. change (is_bytes (zdrop 4 tail)). now apply is_bytes_zdrop. Qed.

Lemma dispatch_transferred : forall cf t tail st st' cs rs, is_bytes tail -> env_ok st -> dispatch cf t (set_in tail st) = Go tt st' -> did st st' cs rs ->
  transferred (t :: tail) (abs st) cs rs.
Proof.
  intros cf t tail st st' cs rs Hb He Hg Hd. split.
  - intros id d Ht Hr. cbn [m_type] in Ht. injection Ht as ->. destruct (dispatch_type cf 5 tail st st' Hg ltac:(lia) ltac:(lia) _ eq_refl) as (id' & Mid & _ & Hk).
    destruct (request_permitted cf _).
    + subst rs. cbn [k_run] in Hk. eapply read_transferred; eauto. now apply args_bytes.
    + exfalso. destruct (refused_reply _ _ _ _ cs rs (RData id d) Hk) as [_ K]; [exact Hd|subst rs; now left|discriminate].
  - intros id z x Ht Hr. cbn [m_type] in Ht. injection Ht as ->. destruct (dispatch_type cf 6 tail st st' Hg ltac:(lia) ltac:(lia) _ eq_refl) as (id' & Mid & _ & Hk).
    destruct (request_permitted cf _).
    + cbn [k_run] in Hk. eapply write_transferred; eauto. now apply args_bytes.
    + destruct (refused_reply _ _ _ _ cs rs (RStatus id z x) Hk) as [-> K]; [exact Hd|subst rs; now left|]. injection K as _ -> _. split; [discriminate|].
      intros (h & off & data & fd & fl & n & pre & r & _ & _ & K & _). now destruct pre.
Qed.

(** * Renaming *)
Lemma rename_renamed : forall id m st st' cs rs, is_bytes (m_args m) -> env_ok st -> process_rename id (set_in (m_args m) st) = Go tt st' -> did st st' cs rs -> renamed m cs rs.
Proof.
  intros id m st st' cs rs Hb He Hg Hd. set (args := m_args m) in *. unfold process_rename in Hg.
  apply bind_go in Hg. destruct Hg as (old & st2 & Hp & Hg). apply parse_go in Hp. destruct Hp as (l2 & E2 & ->). cbn [s_in set_in] in E2. rewrite set_in_in in Hg.
  apply bind_go in Hg. destruct Hg as (new & st3 & Hp & Hg). apply parse_go in Hp. destruct Hp as (l3 & E3 & ->). cbn [s_in set_in] in E3. rewrite set_in_in in Hg.
  apply get_cstr_str in E2. destruct E2 as (o' & E2 & Eo & _). destruct (get_str_enc' _ _ _ Hb E2) as [A2 B2].
  apply get_cstr_str in E3. destruct E3 as (n' & E3 & En & _). destruct (get_str_enc' _ _ _ B2 E3) as [A3 _].
  assert (Args : m_args m = enc_string o' ++ enc_string n' ++ l3) by (fold args; now rewrite A2, A3).
  assert (Fin : forall w st0 cs0 , did st st0 cs0 [] -> send_status id w st0 = Go tt st' -> rs = [RStatus id w (status_to_message w)] /\ cs = cs0).
  { intros w st0 cs0 [F1 F2] Hx. apply send_go in Hx. subst st'. destruct Hd as [D1 D2]. cbn [s_out s_calls add_out] in *. rewrite F1 in D1. rewrite F2, app_nil_r in D2. apply app_inv_head in D1, D2. split; congruence. }
  assert (Step : forall c st0 r st1 cs0, did st st0 cs0 [] -> Forall res_ok (s_env st0) -> sys c st0 = Go r st1 -> did st st1 (cs0 ++ [(c, Some r)]) [] /\ Forall res_ok (s_env st1) /\ res_ok r).
  { intros c st0 r st1 cs0 [F1 F2] Fe Hx. apply sys_go in Hx. destruct Hx as (env & Ee & ->). rewrite Ee in Fe. inversion Fe; subst. cbn [add_calls s_env]. splits; auto. split; cbn [s_calls s_out add_calls]; [now rewrite F1, app_assoc|assumption]. }
  assert (D0 : did st (set_in l3 st) [] []) by (split; cbn [s_calls s_out set_in]; now rewrite app_nil_r).
  assert (E0 : Forall res_ok (s_env (set_in l3 st))) by exact He.
  cbv zeta in Hg. apply bind_go in Hg. destruct Hg as (s & st4 & Hs & Hg). destruct (Step _ _ _ _ _ D0 E0 Hs) as (D4 & E4 & Rs). cbn [app] in D4.
  (* the replacing rename *)
  assert (ByRename : forall stx csx t, did st stx (csx ++ [(CStat new, Some t)]) [] -> Forall res_ok (s_env stx) -> rs_ret t = -1 -> (forall a b r, ~ In (CRename a b, r) csx) -> (forall a r, ~ In (CUnlink a, r) csx) ->
    bind (sys (CRename old new)) (fun r => send_result id r) stx = Go tt st' -> renamed m cs rs).
  { intros stx csx x Dx Ex Hx N1 N2 Hy. apply bind_go in Hy. destruct Hy as (r & st5 & Hs5 & Hy). destruct (Step _ _ _ _ _ Dx Ex Hs5) as (D5 & _ & Rr). unfold send_result in Hy.
    destruct (Fin _ _ _ D5 Hy) as [Ers Ecs]. split.
    - intros pre a b r1 post _ K. rewrite Ecs in K. exists x. split; [|assumption].
      assert (Hin : pre = csx ++ [(CStat new, Some x)] /\ (CRename a b, r1) = (CRename old new, Some r) /\ post = []).
      { destruct (destruct_last _ post) as [Ep|(post' & y & Ep)].
        - subst post. apply app_inj_tail in K. destruct K as [K1 K2]. now rewrite <- K1, K2.
        - exfalso. subst post. rewrite app_comm_cons, app_assoc in K. apply app_inj_tail in K. destruct K as [K _].
          assert (Hi : In (CRename a b, r1) (csx ++ [(CStat new, Some x)])) by (rewrite K; apply in_or_app; right; now left).
          apply in_app_or in Hi. destruct Hi as [Hi|[Hi|[]]]; [now apply (N1 _ _ _ Hi)|discriminate]. }
      destruct Hin as (-> & Hin & _). injection Hin as -> -> _. apply in_or_app. right. now left.
    - intros pre a r1 post _ K. exfalso. rewrite Ecs in K. assert (Hi : In (CUnlink a, r1) ((csx ++ [(CStat new, Some x)]) ++ [(CRename old new, Some r)])) by (rewrite K; apply in_or_app; right; now left).
      apply in_app_or in Hi. destruct Hi as [Hi|[Hi|[]]]; [|discriminate]. apply in_app_or in Hi. destruct Hi as [Hi|[Hi|[]]]; [now apply (N2 _ _ Hi)|discriminate].
    - intros id' t' _ K. rewrite Ers in K. exists o', n', l3. split; [exact Args|]. right. exists r. rewrite <- Eo, <- En. split; [rewrite Ecs; apply in_or_app; right; now left|].
      destruct (rs_ret r =? -1) eqn:E; [|lia]. exfalso. injection K as _ K _. now apply (errno_fail r Rr E). }
  assert (Simple : forall w st0 cs0, did st st0 cs0 [] -> send_status id w st0 = Go tt st' -> w <> FX_OK -> (forall a b r, ~ In (CRename a b, r) cs0) -> (forall a r, ~ In (CUnlink a, r) cs0) -> renamed m cs rs).
  { intros w st0 cs0 Dx Hx Hw N1 N2. destruct (Fin _ _ _ Dx Hx) as [-> ->]. split.
    - intros pre a b r post _ K. exfalso. apply (N1 a b r). rewrite K. apply in_or_app. right. now left.
    - intros pre a r post _ K. exfalso. apply (N2 a r). rewrite K. apply in_or_app. right. now left.
    - intros id' t' _ K. exfalso. injection K as _ K _. contradiction. }
  destruct (rs_ret s =? -1) eqn:Es.
  { apply (Simple _ _ _ D4 Hg); [now apply errno_fail|intros ? ? ? [K|[]]; discriminate|intros ? ? [K|[]]; discriminate]. }
  destruct (s_isreg (st_mode (rs_st s))).
  - apply bind_go in Hg. destruct Hg as (l & st5 & Hl & Hg). destruct (Step _ _ _ _ _ D4 E4 Hl) as (D5 & E5 & Rl). cbn [app] in D5. destruct (rs_ret l =? -1) eqn:El.
    + destruct (_ || _ || _).
      * apply bind_go in Hg. destruct Hg as (x & st6 & Hx & Hg). destruct (Step _ _ _ _ _ D5 E5 Hx) as (D6 & E6 & Rx). destruct (rs_ret x =? -1) eqn:Ex.
        { eapply ByRename; [exact D6|exact E6|lia| | |exact Hg]; [intros ? ? ? [K|[K|[]]]; discriminate|intros ? ? [K|[K|[]]]; discriminate]. }
        { apply (Simple _ _ _ D6 Hg); [discriminate|intros ? ? ? [K|[K|[K|[]]]]; discriminate|intros ? ? [K|[K|[K|[]]]]; discriminate]. }
      * apply (Simple _ _ _ D5 Hg); [now apply errno_fail|intros ? ? ? [K|[K|[]]]; discriminate|intros ? ? [K|[K|[]]]; discriminate].
    + apply bind_go in Hg. destruct Hg as (u & st6 & Hu & Hg). destruct (Step _ _ _ _ _ D5 E5 Hu) as (D6 & E6 & Ru). cbn [app] in D6. destruct (rs_ret u =? -1) eqn:Eu.
      * apply bind_go in Hg. destruct Hg as (u2 & st7 & Hu2 & Hg). destruct (Step _ _ _ _ _ D6 E6 Hu2) as (D7 & _ & _). cbn [app] in D7.
        destruct (Fin _ _ _ D7 Hg) as [-> ->]. split.
        { intros pre a b r post _ K. exfalso. apply (f_equal (In (CRename a b, r))) in K. assert (Hi : In (CRename a b, r) (pre ++ (CRename a b, r) :: post)) by (apply in_or_app; right; now left). rewrite <- K in Hi. cbn in Hi. intuition discriminate. }
        { intros pre a r post _ K. exists old, new, l. destruct pre as [|p1 [|p2 [|p3 [|? ?]]]]; cbn [app] in K; try discriminate K.
          - injection K as <- <- <- _ _. split; [right; now left|]. split; [lia|]. now left.
          - injection K as <- <- <- <- _ _. split; [right; now left|]. split; [lia|]. right. split; [reflexivity|]. exists u. split; [do 2 right; now left|lia].
          - exfalso. apply (f_equal (@length _)) in K. cbn [length] in K. rewrite app_length in K. cbn [length] in K. lia. }
        { intros id' t' _ K. exfalso. injection K as _ K _. now apply (errno_fail u Ru Eu). }
      * destruct (Fin _ _ _ D6 Hg) as [-> ->]. split.
        { intros pre a b r post _ K. exfalso. apply (f_equal (In (CRename a b, r))) in K. assert (Hi : In (CRename a b, r) (pre ++ (CRename a b, r) :: post)) by (apply in_or_app; right; now left). rewrite <- K in Hi. cbn in Hi. intuition discriminate. }
        { intros pre a r post _ K. exists old, new, l. destruct pre as [|p1 [|p2 [|p3 ?]]]; cbn [app] in K; try discriminate K.
          - injection K as <- <- <- _ _. split; [right; now left|]. split; [lia|]. now left.
          - exfalso. apply (f_equal (@length _)) in K. cbn [length] in K. rewrite app_length in K. cbn [length] in K. lia. }
        { intros id' t' _ _. exists o', n', l3. split; [exact Args|]. left. exists l, u. rewrite <- Eo, <- En. split; [right; now left|]. split; [do 2 right; now left|lia]. }
  - apply bind_go in Hg. destruct Hg as (x & st5 & Hx & Hg). destruct (Step _ _ _ _ _ D4 E4 Hx) as (D5 & E5 & Rx). destruct (rs_ret x =? -1) eqn:Ex.
    + eapply ByRename; [exact D5|exact E5|lia| | |exact Hg]; [intros ? ? ? [K|[]]; discriminate|intros ? ? [K|[]]; discriminate].
    + apply (Simple _ _ _ D5 Hg); [discriminate|intros ? ? ? [K|[K|[]]]; discriminate|intros ? ? [K|[K|[]]]; discriminate].
Qed.
Lemma dispatch_renamed : forall cf t tail st st' cs rs, is_bytes tail -> env_ok st -> dispatch cf t (set_in tail st) = Go tt st' -> did st st' cs rs -> renamed (t :: tail) cs rs.
Proof.
  intros cf t tail st st' cs rs Hb He Hg Hd. destruct (Z.eq_dec t 18) as [->|Ht].
  - destruct (dispatch_type cf 18 tail st st' Hg ltac:(lia) ltac:(lia) _ eq_refl) as (id' & Mid & _ & Hk). destruct (request_permitted cf _).
    + cbn [k_run] in Hk. eapply rename_renamed; eauto. now apply args_bytes.
    + assert (cs = []) as ->. { destruct Hd as [D1 _]. apply send_go in Hk. subst st'. cbn [s_calls add_out set_in] in D1. rewrite <- (app_nil_r (s_calls st)) in D1 at 1. now apply app_inv_head in D1. }
      split; [intros [|]; discriminate|intros [|]; discriminate|]. intros id x _ ->. exfalso. destruct (refused_reply _ _ _ _ [] _ (RStatus id FX_OK x) Hk Hd) as [_ K]; [now left|discriminate].
  - split; intros; cbn [m_type] in *; congruence.
Qed.
