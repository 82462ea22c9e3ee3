(** Requests are understood from their own bytes: what a message is taken to say
    does not depend on what follows it in the input queue. *)
From Coq Require Import String.
From Verif Require Import Base SshbufModel SshbufSpec WireSpec WireProof Dec Text MatchModel MatchSpec MatchProof.
From Verif Require Import SftpModel SftpSpec SftpProof.

Definition local {A} (f : list Z -> option (A * list Z)) : Prop :=
  forall l a r, is_bytes l -> f l = Some (a, r) -> exists p, l = p ++ r /\ forall q, f (p ++ q) = Some (a, q).

Lemma local_int : forall w, local (get_int w).
Proof.
  intros w l a r Hb H. apply get_int_spec in H; [|assumption]. destruct H as (-> & Hv & _).
  exists (be_enc w a). split; [reflexivity|]. intros q. now apply get_int_enc.
Qed.
Lemma local_str : local get_str.
Proof.
  intros l a r Hb H. apply get_str_spec in H; [|assumption]. destruct H as (-> & Hv & _).
  exists (enc_string a). split; [reflexivity|]. intros q. now apply get_str_enc.
Qed.
Lemma local_cstr : local get_cstr.
Proof.
  intros l a r Hb H. unfold get_cstr, dec_cstring in H. destruct (dec_string l) as [[v' r']|e] eqn:E; [|discriminate].
  destruct (nul_ok v') eqn:En; [|discriminate]. injection H as <- <-.
  assert (G : get_str l = Some (v', r')) by (unfold get_str; now rewrite E).
  apply get_str_spec in G; [|assumption]. destruct G as (-> & Hv & _). exists (enc_string v'). split; [reflexivity|].
  intros q. pose proof (get_str_enc v' q Hv) as G. unfold get_str in G. unfold get_cstr, dec_cstring.
  destruct (dec_string (enc_string v' ++ q)) as [[x y]|]; [|discriminate]. injection G as -> ->. now rewrite En.
Qed.
Lemma local_opt : forall b w, local (opt_int b w).
Proof.
  intros b w l a r Hb H. unfold opt_int in *. destruct b; [now apply local_int in H|].
  injection H as <- <-. exists []. split; [reflexivity|]. reflexivity.
Qed.
Lemma local_exts : forall f c l r, is_bytes l -> dec_exts f c l = Some r ->
  exists p, l = p ++ r /\ (Z.to_nat c <= length p)%nat /\ forall q f', (Z.to_nat c <= f')%nat -> dec_exts f' c (p ++ q) = Some q.
Proof.
  induction f as [|f IH]; intros c l r Hb H; cbn [dec_exts] in H; (destruct (c <=? 0) eqn:E;
    [injection H as <-; exists []; split; [reflexivity|]; split; [cbn; lia|]; intros q f' _; destruct f'; cbn [dec_exts]; now rewrite E|]); [discriminate|].
  destruct (get_cstr l) as [[a1 l1]|] eqn:E1; [|discriminate]. destruct (get_str l1) as [[a2 l2]|] eqn:E2; [|discriminate].
  destruct (local_cstr _ _ _ Hb E1) as (p1 & -> & G1). apply is_bytes_app in Hb. destruct Hb as [_ Hb].
  destruct (local_str _ _ _ Hb E2) as (p2 & -> & G2). apply is_bytes_app in Hb. destruct Hb as [_ Hb].
  destruct (IH _ _ _ Hb H) as (p3 & -> & Hl & G3). exists (p1 ++ p2 ++ p3). split; [now rewrite <- !app_assoc|]. split.
  - rewrite !app_length. assert ((length p2 >= 4)%nat); [|lia].
    pose proof (G2 []) as K. rewrite app_nil_r in K. unfold get_str in K. destruct (dec_string p2) as [[x y]|] eqn:D; [|discriminate].
    unfold dec_string in D. destruct (zlen p2 <? 4) eqn:Z4; [discriminate|]. unfold zlen in Z4. lia.
  - intros q f' Hf. destruct f' as [|f']; [lia|]. cbn [dec_exts]. rewrite E, <- !app_assoc, G1, G2. apply G3. lia.
Qed.
Lemma local_attrib : local decode_attrib.
Proof.
  intros l a r Hb H. unfold decode_attrib in H.
  destruct (get_int 4 l) as [[fl l0]|] eqn:E0; [|discriminate]. destruct (local_int _ _ _ _ Hb E0) as (p0 & -> & G0). apply is_bytes_app in Hb; destruct Hb as [_ Hb].
  destruct (opt_int _ 8 l0) as [[x1 l1]|] eqn:E1; [|discriminate]. destruct (local_opt _ _ _ _ _ Hb E1) as (p1 & -> & G1). apply is_bytes_app in Hb; destruct Hb as [_ Hb].
  destruct (opt_int _ 4 l1) as [[x2 l2]|] eqn:E2; [|discriminate]. destruct (local_opt _ _ _ _ _ Hb E2) as (p2 & -> & G2). apply is_bytes_app in Hb; destruct Hb as [_ Hb].
  destruct (opt_int _ 4 l2) as [[x3 l3]|] eqn:E3; [|discriminate]. destruct (local_opt _ _ _ _ _ Hb E3) as (p3 & -> & G3). apply is_bytes_app in Hb; destruct Hb as [_ Hb].
  destruct (opt_int _ 4 l3) as [[x4 l4]|] eqn:E4; [|discriminate]. destruct (local_opt _ _ _ _ _ Hb E4) as (p4 & -> & G4). apply is_bytes_app in Hb; destruct Hb as [_ Hb].
  destruct (opt_int _ 4 l4) as [[x5 l5]|] eqn:E5; [|discriminate]. destruct (local_opt _ _ _ _ _ Hb E5) as (p5 & -> & G5). apply is_bytes_app in Hb; destruct Hb as [_ Hb].
  destruct (opt_int _ 4 l5) as [[x6 l6]|] eqn:E6; [|discriminate]. destruct (local_opt _ _ _ _ _ Hb E6) as (p6 & -> & G6). apply is_bytes_app in Hb; destruct Hb as [_ Hb].
  cbv zeta in H. destruct (has fl ATTR_EXTENDED) eqn:EE.
  - destruct (get_int 4 l6) as [[c l7]|] eqn:E7; [|discriminate]. destruct (local_int _ _ _ _ Hb E7) as (p7 & -> & G7). apply is_bytes_app in Hb; destruct Hb as [_ Hb].
    destruct (c >? 1048576) eqn:Ec; [discriminate|]. destruct (dec_exts _ _ l7) as [l8|] eqn:E8; [|discriminate]. injection H as <- <-.
    destruct (local_exts _ _ _ _ Hb E8) as (p8 & -> & Hl & G8).
    exists (p0 ++ p1 ++ p2 ++ p3 ++ p4 ++ p5 ++ p6 ++ p7 ++ p8). split; [now rewrite <- !app_assoc|]. intros q. unfold decode_attrib.
    rewrite <- !app_assoc, G0, G1, G2, G3, G4, G5, G6. cbv zeta. rewrite EE, G7, Ec, G8; [reflexivity|]. rewrite app_length. lia.
  - injection H as <- <-. exists (p0 ++ p1 ++ p2 ++ p3 ++ p4 ++ p5 ++ p6). split; [now rewrite <- !app_assoc|]. intros q. unfold decode_attrib.
    rewrite <- !app_assoc, G0, G1, G2, G3, G4, G5, G6. cbv zeta. now rewrite EE.
Qed.

Lemma set_in_in : forall a b st, set_in a (set_in b st) = set_in a st.
Proof. reflexivity. Qed.
Lemma set_in_id : forall st, set_in (s_in st) st = st.
Proof. now intros []. Qed.

(** A computation that reads the queue only through local parsers. *)
Definition loc {A} (m : M A) : Prop :=
  (forall st a st', is_bytes (s_in st) -> m st = Go a st' -> zlen (s_in st') <= zlen (s_in st) /\ is_bytes (s_in st')) /\
  (forall st x rest a st', is_bytes (x ++ rest) -> m (set_in (x ++ rest) st) = Go a st' -> zlen rest <= zlen (s_in st') ->
     exists y, s_in st' = y ++ rest /\ m (set_in x st) = Go a (set_in y st')).

Lemma loc_bind : forall A B (m : M A) (f : A -> M B), loc m -> (forall a, loc (f a)) -> loc (bind m f).
Proof.
  intros A B m f [Hm1 Hm2] Hf. split.
  - intros st b st' Hb H. unfold bind in H. destruct (m st) as [a st1|] eqn:E; [|discriminate].
    destruct (Hm1 _ _ _ Hb E) as [L1 B1]. destruct (proj1 (Hf a) _ _ _ B1 H) as [L2 B2]. split; [lia|assumption].
  - intros st x rest b st' Hb H Hl. unfold bind in *. destruct (m (set_in (x ++ rest) st)) as [a st1|] eqn:E; [|discriminate].
    destruct (Hm1 _ _ _ (Hb : is_bytes (s_in (set_in (x ++ rest) st))) E) as [L1 B1]. destruct (proj1 (Hf a) _ _ _ B1 H) as [L2 B2].
    destruct (Hm2 _ _ _ _ _ Hb E) as (y & Y1 & Y2); [lia|]. rewrite Y2.
    rewrite Y1 in B1. assert (H' : f a (set_in (y ++ rest) st1) = Go b st') by (rewrite <- Y1, set_in_id; exact H).
    destruct (proj2 (Hf a) _ _ _ _ _ B1 H' Hl) as (z & Z1 & Z2). exists z. split; assumption.
Qed.

(** The queue is neither read nor changed. *)
Definition in_res {A} (i : list Z) (r : res A) : res A := match r with Go a st => Go a (set_in i st) | Halt h st => Halt h (set_in i st) end.
Definition blind {A} (m : M A) : Prop := forall st i, m (set_in i st) = in_res i (m st).
Lemma blind_loc : forall A (m : M A), blind m -> loc m.
Proof.
  intros A m Hm. assert (K : forall st a st', m st = Go a st' -> s_in st' = s_in st).
  { intros st a st' H. pose proof (Hm st (s_in st)) as G. rewrite set_in_id, H in G. cbn in G. injection G as G. rewrite G. reflexivity. }
  split.
  - intros st a st' Hb H. apply K in H. rewrite H. split; [lia|assumption].
  - intros st x rest a st' Hb H Hl. pose proof (K _ _ _ H) as Hs. cbn [s_in set_in] in Hs. exists x. split; [assumption|].
    rewrite (Hm st x). rewrite (Hm st (x ++ rest)) in H. destruct (m st) as [a1 st1|]; cbn [in_res] in *; [|discriminate]. injection H as <- <-. reflexivity.
Qed.
Lemma blind_bind : forall A B (m : M A) (f : A -> M B), blind m -> (forall a, blind (f a)) -> blind (bind m f).
Proof. intros A B m f Hm Hf st i. unfold bind. rewrite Hm. destruct (m st) as [a st'|]; cbn; [apply Hf|reflexivity]. Qed.
Lemma blind_ret : forall A (a : A), blind (ret a). Proof. intros A a st i. reflexivity. Qed.
Lemma blind_stop : forall A h, blind (@stop A h). Proof. intros A h st i. reflexivity. Qed.
Lemma blind_send : forall r, blind (send r). Proof. intros r st i. reflexivity. Qed.
Lemma blind_sys : forall c, blind (sys c). Proof. intros c st i. unfold sys. cbn [s_env set_in]. now destruct (s_env st). Qed.
Lemma blind_unused : forall h, blind (handle_unused h). Proof. intros h st i. unfold handle_unused. cbn [s_handles set_in]. now destruct (hget _ _). Qed.
Lemma blind_is_ok : forall h u st i, handle_is_ok h u (set_in i st) = handle_is_ok h u st. Proof. reflexivity. Qed.
Lemma blind_update : forall w h n, blind (handle_update w h n).
Proof. intros w h n st i. unfold handle_update. rewrite blind_is_ok. cbn [s_handles set_in]. destruct (_ && _); [|reflexivity]. now destruct (hget _ _). Qed.
Lemma blind_new : forall u n fd fl d, blind (handle_new u n fd fl d).
Proof.
  intros u n fd fl d st i. unfold handle_new. cbv zeta. cbn [s_first s_handles set_in].
  destruct (s_first st =? -1).
  - destruct (u32 _ <=? _); [reflexivity|]. unfold handle_unused. cbn [s_handles set_handles set_in].
    destruct (hget _ (i32 _)); [|reflexivity]. cbn [s_handles set_handles set_in s_first]. now destruct (hget _ _).
  - now destruct (hget _ _).
Qed.
Lemma blind_attr : forall b c s, blind (attr_call b c s).
Proof. intros b c s. unfold attr_call. destruct b; [|apply blind_ret]. apply blind_bind; [apply blind_sys|intros; apply blind_ret]. Qed.
Lemma blind_close : forall h, blind (handle_close h).
Proof.
  intros h st i. unfold handle_close. rewrite !blind_is_ok. destruct (handle_is_ok h HFile st); [|destruct (handle_is_ok h HDir st); [|reflexivity]].
  - change (handle_to_fd h (set_in i st)) with (handle_to_fd h st). generalize (CClose (handle_to_fd h st)). intros x. revert st i.
    apply blind_bind; [apply blind_sys|]. intros r. apply blind_bind; [apply blind_unused|intros; apply blind_ret].
  - change (handle_to_dir h (set_in i st)) with (handle_to_dir h st). generalize (CClosedir match handle_to_dir h st with Some d => d | None => 0 end). intros x. revert st i.
    apply blind_bind; [apply blind_sys|]. intros r. apply blind_bind; [apply blind_unused|intros; apply blind_ret].
Qed.
Lemma blind_names : forall mk n ids acc, (length ids <= n)%nat -> blind (names_of mk ids acc).
Proof.
  intros mk. induction n as [|n IH]; intros ids acc Hn.
  - destruct ids; [apply blind_ret|cbn in Hn; lia].
  - destruct ids as [|a [|b [|c [|d r]]]]; cbn [names_of]; try (apply blind_ret); try apply blind_stop.
    apply blind_bind; [apply blind_sys|]. intros x. apply IH. cbn in Hn. lia.
Qed.
Lemma loc_parse : forall A (f : list Z -> option (A * list Z)), local f -> loc (parse f).
Proof.
  intros A f Hf. split.
  - intros st a st' Hb H. unfold parse in H. destruct (f (s_in st)) as [[b l]|] eqn:E; [|discriminate]. injection H as <- <-.
    destruct (Hf _ _ _ Hb E) as (p & Hp & _). cbn [s_in set_in]. rewrite Hp in Hb |- *. apply is_bytes_app in Hb. rewrite zlen_app. pose proof (zlen_nonneg _ p). split; [lia|tauto].
  - intros st x rest a st' Hb H Hl. unfold parse in *. cbn [s_in set_in] in *. destruct (f (x ++ rest)) as [[b l]|] eqn:E; [|discriminate]. injection H as <- <-.
    cbn [s_in set_in] in *. destruct (Hf _ _ _ Hb E) as (p & Hp & G).
    assert (Hx : x = ztake (zlen x) (p ++ l)) by (rewrite <- Hp; now rewrite ztake_app_exact).
    assert (Hr : rest = zdrop (zlen x) (p ++ l)) by (rewrite <- Hp; now rewrite zdrop_app_exact).
    assert (Ll : zlen p <= zlen x) by (apply (f_equal zlen) in Hp; rewrite !zlen_app in Hp; lia).
    rewrite ztake_app_r in Hx by assumption. rewrite zdrop_app_r in Hr by assumption.
    exists (ztake (zlen x - zlen p) l). split; [rewrite Hr; symmetry; apply ztake_zdrop|]. rewrite Hx at 1. now rewrite G.
Qed.
Lemma loc_get_handle : loc get_handle.
Proof.
  assert (E : forall st, get_handle st = (do s <- parse get_str; look (fun st => if zlen s <? 256 then handle_from_string s st else -1)) st).
  { intros st. unfold get_handle, bind, parse, look. destruct (get_str (s_in st)) as [[s l]|]; reflexivity. }
  assert (L : loc (do s <- parse get_str; look (fun st => if zlen s <? 256 then handle_from_string s st else -1))).
  { apply loc_bind; [apply loc_parse, local_str|]. intros s. apply blind_loc. intros st i. unfold look. cbn. destruct (_ <? 256); reflexivity. }
  destruct L as [L1 L2]. split.
  - intros st a st' Hb H. rewrite E in H. eauto.
  - intros st x rest a st' Hb H Hl. rewrite E in *. eauto.
Qed.
Lemma blind_look : forall A (f : state -> A), (forall st i, f (set_in i st) = f st) -> blind (look f).
Proof. intros A f H st i. unfold look. now rewrite H. Qed.
Lemma blind_unless : forall id s, blind (send_unless_ok id s).
Proof. intros. unfold send_unless_ok. destruct (_ =? _); [apply blind_ret|apply blind_send]. Qed.
Lemma blind_readdir : forall cf id d path, blind (fun st =>
      match readdir_loop cf d path 0 (s_env st) [] [] with
      | (None, calls, env) => Halt HBlocked (add_calls calls env st)
      | (Some names, calls, env) =>
          (if zlen names >? 0 then send (RNames id names) else send_status id FX_EOF) (add_calls calls env st)
      end).
Proof.
  intros cf id d path st i. cbn [s_env set_in]. destruct (readdir_loop _ _ _ _ _ _ _) as [[[names|] calls] env]; [|reflexivity]. now destruct (zlen names >? 0).
Qed.
Lemma blind_copy : forall id rh wh rfd wfd eof rlen, blind (fun st =>
    match copy_loop rfd wfd eof rlen FX_OP_UNSUPPORTED (s_env st) 0 0 [] with
    | (None, rd, wr, calls, env) => Halt HBlocked (add_calls calls env st)
    | (Some (todo, status), rd, wr, calls, env) =>
        (run handle_update false rh rd; run handle_update true wh wr;
         send_status id (if todo =? 0 then FX_OK else status)) (add_calls calls env st)
    end).
Proof.
  intros id rh wh rfd wfd eof rlen st i. cbn [s_env set_in]. destruct (copy_loop _ _ _ _ _ _ _ _ _) as [[[[[[todo status]|] rd] wr] calls] env]; [|reflexivity].
  change (add_calls calls env (set_in i st)) with (set_in i (add_calls calls env st)).
  apply blind_bind; [apply blind_update|]. intros _. apply blind_bind; [apply blind_update|]. intros _. apply blind_send.
Qed.

Ltac blind_one :=
  first [ apply blind_ret | apply blind_stop | apply blind_send | apply blind_sys | apply blind_unused | apply blind_update | apply blind_new
        | apply blind_attr | apply blind_close | apply blind_unless | apply blind_readdir | apply blind_copy
        | (apply blind_look; reflexivity) | (eapply blind_names; apply le_n) ].
Ltac loc_step :=
  first
  [ lazymatch goal with |- loc (bind _ _) => apply loc_bind; [|intros ?] end
  | (apply loc_parse; first [apply local_int | apply local_str | apply local_cstr | apply local_attrib])
  | apply loc_get_handle
  | match goal with
    | |- loc (if ?b then _ else _) => destruct b
    | |- loc (match ?x with _ => _ end) => destruct x
    | |- loc (let _ := _ in _) => cbv zeta
    end
  | (apply blind_loc; blind_one) ].
Ltac loc_walk := repeat loc_step.

Lemma loc_handlers : forall cf k, In k handlers -> forall id, loc (k_run k cf id).
Proof.
  intros cf k Hk id. cbn [handlers In] in Hk. repeat (destruct Hk as [<- | Hk]; [cbn [k_run]|]); try contradiction;
    unfold process_open, process_close, process_read, process_write, process_do_stat, process_fstat, process_setstat, process_fsetstat, process_opendir,
      process_readdir, process_remove, process_mkdir, process_rmdir, process_realpath, realpath_reply, process_rename, process_readlink, process_symlink, send_name1, send_result, send_status, send_status_errmsg; loc_walk.
Qed.
Lemma loc_extended : forall cf k, In k extended_handlers -> forall id, loc (k_run k cf id).
Proof.
  intros cf k Hk id. cbn [extended_handlers In] in Hk. repeat (destruct Hk as [<- | Hk]; [cbn [k_run]|]); try contradiction;
    unfold process_posix_rename, process_statvfs, process_fstatvfs, process_hardlink, process_fsync, process_lsetstat, process_limits, process_expand,
      process_copy_data, process_home, process_users_groups, realpath_reply, send_statvfs, send_name1, send_result, send_status, send_status_errmsg; loc_walk.
Qed.
Lemma loc_dispatch : forall cf t, loc (dispatch cf t).
Proof.
  intros cf t. unfold dispatch. destruct (t =? FXP_INIT).
  - unfold process_init. loc_walk; apply blind_loc; intros st i; reflexivity.
  - assert (G : loc (do id <- parse (get_int 4);
          if t =? FXP_EXTENDED then process_extended cf id
          else match handler_bytype t with
               | None => ret tt
               | Some k => if request_permitted cf k then k_run k cf id else send_status id FX_PERMISSION_DENIED
               end)).
    { loc_step; [loc_step|]. loc_step.
      - unfold process_extended. loc_step; [loc_step|]. destruct (extended_handler_byname _) as [k|] eqn:E; [|unfold send_status, send_status_errmsg; loc_step].
        apply find_in in E. destruct (request_permitted cf k); [now apply loc_extended|unfold send_status, send_status_errmsg; loc_step].
      - destruct (handler_bytype t) as [k|] eqn:E; [|loc_step]. apply find_in in E. destruct (request_permitted cf k); [now apply loc_handlers|unfold send_status, send_status_errmsg; loc_step]. }
    destruct G as [G1 G2]. split.
    + intros st a st' Hb H. destruct (negb (s_init st)); [discriminate|]. eauto.
    + intros st x rest a st' Hb H Hl. cbn [s_init set_in] in *. destruct (negb (s_init st)); [discriminate|]. eauto.
Qed.

(** A message that is processed, on its own. *)
Lemma process_alone : forall cf st st', is_bytes (s_in st) -> process cf st = Go true st' ->
  exists t tail rest y st1, let m := t :: tail in
    s_in st = be_enc 4 (zlen m) ++ m ++ rest /\ message (s_in st) = m /\ zlen m <= MAX_MSG /\
    dispatch cf t (set_in tail st) = Go tt (set_in y st1) /\ st' = set_in rest st1.
Proof.
  intros cf st st' Hb H. unfold process in H. cbv zeta in H. destruct (zlen (s_in st) <? 5) eqn:E5; [discriminate|].
  destruct (be_dec (ztake 4 (s_in st)) >? MAX_MSG) eqn:EM; [discriminate|]. destruct (zlen (s_in st) <? _ + 4) eqn:EL; [discriminate|].
  destruct (zdrop 4 (s_in st)) as [|t all] eqn:ED; [discriminate|].
  destruct (dispatch cf t (set_in all st)) as [[] st1|] eqn:Ed; [|discriminate]. set (n := be_dec (ztake 4 (s_in st))) in *.
  destruct (n <? _) eqn:En; [discriminate|]. injection H as <-.
  assert (B4 : is_bytes (ztake 4 (s_in st))) by now apply is_bytes_ztake.
  assert (T4 : zlen (ztake 4 (s_in st)) = 4) by (apply zlen_ztake; lia).
  pose proof (be_dec_bound _ B4) as Bn. fold n in Bn. rewrite T4 in Bn. change (256 ^ 4) with 4294967296 in Bn.
  assert (Lall : zlen (s_in st) - 4 = zlen all + 1) by (rewrite <- (zlen_zdrop _ 4 (s_in st)) by lia; rewrite ED; apply zlen_cons).
  assert (Hball : is_bytes all). { pose proof (is_bytes_zdrop 4 _ Hb) as K. rewrite ED in K. now inversion K. }
  pose proof (proj1 (loc_dispatch cf t) _ _ _ (Hball : is_bytes (s_in (set_in all st))) Ed) as [Lsh Bsh]. cbn [s_in set_in] in Lsh.
  set (tail := ztake (n - 1) all). set (rest := zdrop (n - 1) all).
  assert (Hn1 : 0 <= n - 1 <= zlen all) by lia.
  assert (Hall : all = tail ++ rest) by (symmetry; apply ztake_zdrop).
  assert (Lr : zlen rest = zlen all - (n - 1)) by (apply zlen_zdrop; lia).
  rewrite Hall in Ed, Hball. destruct (proj2 (loc_dispatch cf t) _ _ _ _ _ Hball Ed) as (y & Y1 & Y2); [lia|].
  assert (Lt : zlen (t :: tail) = n) by (rewrite zlen_cons; unfold tail; rewrite zlen_ztake by lia; lia).
  exists t, tail, rest, y, st1. cbv zeta. splits.
  - rewrite <- (ztake_zdrop _ 4 (s_in st)) at 1. rewrite ED, Lt. f_equal.
    + unfold n. replace 4%nat with (length (ztake 4 (s_in st))) by (unfold zlen in T4; lia). now rewrite be_enc_dec.
    + cbn [app]. now rewrite <- Hall.
  - unfold message. fold n. rewrite ED. rewrite Hall. change (t :: tail ++ rest) with ((t :: tail) ++ rest). now rewrite ztake_app_exact.
  - lia.
  - exact Y2.
  - rewrite Y1. f_equal. apply (f_equal zlen) in Y1. rewrite zlen_app in Y1. apply zdrop_app_exact. rewrite ?zlen_app. lia.
Qed.
