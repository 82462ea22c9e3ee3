(** Live handles are usable; from single messages to sessions. *)
From Coq Require Import String.
From Verif Require Import Base SshbufModel SshbufSpec WireSpec WireProof Dec Text MatchModel MatchSpec MatchProof.
From Verif Require Import SftpModel SftpSpec SftpProof SftpProof2 SftpProof3 SftpProof4 SftpProof5 SftpProof6 SftpProof7 SftpProof8.

Lemma first_call : forall A c (f : sysres -> M A) a st0 st st' cs rs, (forall r, grow (f r)) -> bind (sys c) f st0 = Go a st' -> s_calls st0 = s_calls st -> did st st' cs rs -> cs <> [].
Proof.
  intros A c f a st0 st st' cs rs Hf Hg Hc [D1 _]. apply bind_go in Hg. destruct Hg as (r & st1 & Hs & Hg). apply sys_go in Hs. destruct Hs as (env & _ & ->).
  destruct (Hf r (add_calls [(c, Some r)] env st0)) as (cs' & rs' & G1 & _). rewrite Hg in G1. cbn [final s_calls add_calls] in G1. rewrite Hc, D1, <- app_assoc in G1. apply app_inv_head in G1. subst cs. discriminate.
Qed.
Ltac grows := intros; cbv beta; unfold attr_call; unf; repeat grow_step.
Ltac is_first Hg Hd := left; eapply first_call; [|exact Hg|reflexivity|exact Hd]; grows.

Lemma handle_head : forall (body : Z -> M unit) args st st' s r, get_str args = Some (s, r) -> bind get_handle body (set_in args st) = Go tt st' ->
  exists h, obj_at st h = abs st s /\ (forall i, abs st s <> None -> h = i32 (be_dec s) /\ obj_at (set_in i st) h = abs st s) /\ body h (set_in r st) = Go tt st'.
Proof.
  intros body args st st' s r Es Hg. apply bind_go in Hg. destruct Hg as (h & st1 & Hh & Hg). pose proof Hh as Hh0. apply get_handle_at in Hh. destruct Hh as (s' & l & Es' & -> & Ho).
  cbn [s_in set_in] in Es'. rewrite Es in Es'. injection Es' as <- <-. rewrite set_in_in in Hg. exists h. split; [exact Ho|]. split; [|exact Hg].
  intros i Ha. split; [|exact Ho]. unfold get_handle in Hh0. cbn [s_in set_in] in Hh0. rewrite Es in Hh0. injection Hh0 as Hh0. destruct (abs st s) as [o|] eqn:E; [|congruence].
  destruct (from_string_live s st o E) as [L1 L2]. rewrite L1 in Hh0. change (4 <? 256) with true in Hh0. rewrite <- Hh0. exact L2.
Qed.

Lemma attr_send : forall b c s (f : Z -> M unit) st0 st st' cs rs, s = FX_OK -> (forall z, grow (f z)) -> s_calls st0 = s_calls st -> did st st' cs rs ->
  (f s st0 = Go tt st' -> cs <> [] \/ exists id t, rs = [RStatus id FX_OK t]) -> bind (attr_call b c s) f st0 = Go tt st' -> cs <> [] \/ exists id t, rs = [RStatus id FX_OK t].
Proof.
  intros b c s f st0 st st' cs rs -> Hf Hc Hd Hn Hg. unfold attr_call in Hg. destruct b; [|now apply Hn].
  left. apply bind_go in Hg. destruct Hg as (z & st1 & H1 & H2). apply bind_go in H1. destruct H1 as (r & st2 & H1 & H3). apply sys_go in H1. destruct H1 as (env & _ & ->). unfold ret in H3. injection H3 as _ <-.
  destruct (Hf z (add_calls [(c, Some r)] env st0)) as (cs' & rs' & G1 & _). rewrite H2 in G1. destruct Hd as [D1 _]. cbn [final s_calls add_calls] in G1. rewrite Hc, D1, <- app_assoc in G1. apply app_inv_head in G1. subst cs. discriminate.
Qed.

Lemma handle_served : forall cf k id args s r st st' cs rs o w, In k handlers \/ In k extended_handlers -> get_str args = Some (s, r) -> abs st s = Some o ->
  (forall fd fl n, o = OFile fd fl n -> 0 <= fd) -> k_run k cf id (set_in args st) = Go tt st' -> did st st' cs rs -> fits_want w o ->
  (w = WAny /\ k_name k = bs "close") \/ (w = WFile /\ In (k_name k) (map bs ["read"; "write"; "fstat"; "fsetstat"; "fstatvfs"; "fsync"]%string)) \/ (w = WDir /\ k_name k = bs "readdir") ->
  cs <> [] \/ exists id t, rs = [RStatus id FX_OK t].
Proof.
  intros cf k id args s r st st' cs rs o w Hk Es Ea Hfd Hg Hd Hw Hn.
  assert (Hne : abs st s <> None) by congruence.
  assert (Sel : forall n n', k_name k = bs n' -> bs n <> bs n' -> k_name k = bs n -> False) by congruence.
  cbn [handlers extended_handlers In] in Hk. destruct Hk as [Hk|Hk]; cbn [In] in Hk;
  repeat (destruct Hk as [<- | Hk]; [cbn [k_run k_name] in *; try (exfalso; clear - Hn; vm_compute in Hn; intuition discriminate)|]); try destruct Hk.
  - (* close *) destruct (handle_head _ _ _ _ _ _ Es Hg) as (h & Ho & Hi & Hb). destruct (Hi r Hne) as [_ Ho'].
    apply bind_go in Hb. destruct Hb as (x & st1 & Hc & Hb). unfold handle_close in Hc. rewrite is_ok_file, is_ok_dir in Hc. change (obj_at (set_in r st) h) with (obj_at st h) in *. rewrite Ho, Ea in Hc.
    assert (K : exists cl cs1, did st st1 ((cl, Some cs1) :: []) []).
    { destruct o; apply bind_go in Hc; destruct Hc as (x1 & st2 & Hc & Hc'); apply sys_go in Hc; destruct Hc as (env & _ & ->); apply bind_go in Hc'; destruct Hc' as (u & st3 & Hu & Hr); unfold ret in Hr; injection Hr as _ <-;
      unfold handle_unused in Hu; destruct (hget _ _); try discriminate; apply go_inj in Hu; subst st3; eexists _, _; split; cbn [s_calls s_out set_handles add_calls set_in]; now rewrite ?app_nil_r. }
    destruct K as (cl & c1 & K1 & K2). left. apply send_go in Hb. subst st'. destruct Hd as [D1 _]. cbn [s_calls add_out] in D1. rewrite K1 in D1. apply app_inv_head in D1. subst. discriminate.
  - (* read *) destruct o as [fd fl nm|]; [|exfalso; clear - Hw Hn; vm_compute in Hn; intuition (subst; auto; discriminate)]. destruct (handle_head _ _ _ _ _ _ Es Hg) as (h & Ho & Hi & Hb). 
    apply bind_go in Hb. destruct Hb as (off & st2 & Hp & Hb). apply parse_go in Hp. destruct Hp as (l2 & E2 & ->).
    apply bind_go in Hb. destruct Hb as (len & st3 & Hp & Hb). apply parse_go in Hp. destruct Hp as (l3 & E3 & ->).
    apply bind_go in Hb. destruct Hb as (f' & st4 & Hl & Hb). apply look_go in Hl. destruct Hl as [-> ->]. rewrite to_fd_at in Hb. rewrite !set_in_in in Hb. change (obj_at (set_in l3 st) h) with (obj_at st h) in Hb. rewrite Ho, Ea in Hb.
    specialize (Hfd fd fl nm eq_refl). replace (fd =? -1) with false in Hb by lia. cbv zeta in Hb. is_first Hb Hd.
  - (* write *) destruct o as [fd fl nm|]; [|exfalso; clear - Hw Hn; vm_compute in Hn; intuition (subst; auto; discriminate)]. destruct (handle_head _ _ _ _ _ _ Es Hg) as (h & Ho & Hi & Hb). 
    apply bind_go in Hb. destruct Hb as (off & st2 & Hp & Hb). apply parse_go in Hp. destruct Hp as (l2 & E2 & ->).
    apply bind_go in Hb. destruct Hb as (len & st3 & Hp & Hb). apply parse_go in Hp. destruct Hp as (l3 & E3 & ->).
    apply bind_go in Hb. destruct Hb as (f' & st4 & Hl & Hb). apply look_go in Hl. destruct Hl as [-> ->]. rewrite to_fd_at in Hb. rewrite !set_in_in in Hb. change (obj_at (set_in l3 st) h) with (obj_at st h) in Hb. rewrite Ho, Ea in Hb.
    specialize (Hfd fd fl nm eq_refl). replace (fd <? 0) with false in Hb by lia.
    apply bind_go in Hb. destruct Hb as (f' & st4 & Hl & Hb). apply look_go in Hl. destruct Hl as [-> ->].
    destruct (has _ O_APPEND); [|is_first Hb Hd]. unfold ret in Hb. unfold bind at 1 in Hb. cbn [rs_ret] in Hb. change (0 =? -1) with false in Hb. is_first Hb Hd.
  - (* fstat *) destruct o as [fd fl nm|]; [|exfalso; clear - Hw Hn; vm_compute in Hn; intuition (subst; auto; discriminate)]. destruct (handle_head _ _ _ _ _ _ Es Hg) as (h & Ho & Hi & Hb). 
    apply bind_go in Hb. destruct Hb as (f' & st4 & Hl & Hb). apply look_go in Hl. destruct Hl as [-> ->]. rewrite to_fd_at in Hb. change (obj_at (set_in r st) h) with (obj_at st h) in Hb. rewrite Ho, Ea in Hb.
    specialize (Hfd fd fl nm eq_refl). replace (fd >=? 0) with true in Hb by lia. is_first Hb Hd.
  - (* fsetstat *) destruct o as [fd fl nm|]; [|exfalso; clear - Hw Hn; vm_compute in Hn; intuition (subst; auto; discriminate)]. destruct (handle_head _ _ _ _ _ _ Es Hg) as (h & Ho & Hi & Hb). 
    apply bind_go in Hb. destruct Hb as (a & st2 & Hp & Hb). apply parse_go in Hp. destruct Hp as (l2 & E2 & ->).
    apply bind_go in Hb. destruct Hb as (f' & st4 & Hl & Hb). apply look_go in Hl. destruct Hl as [-> ->]. rewrite to_fd_at in Hb. rewrite !set_in_in in Hb. change (obj_at (set_in l2 st) h) with (obj_at st h) in Hb. rewrite Ho, Ea in Hb.
    specialize (Hfd fd fl nm eq_refl). replace (fd <? 0) with false in Hb by lia.
    do 4 (eapply attr_send; [| | |exact Hd| |exact Hb]; [reflexivity|grows|reflexivity|]; clear Hb; intros Hb).
    apply send_go in Hb. subst st'. destruct Hd as [_ D2]. cbn [s_out add_out set_in] in D2. apply app_inv_head in D2. right. rewrite <- D2. eauto.
  - (* readdir *) destruct o as [|d nm]; [exfalso; clear - Hw Hn; vm_compute in Hn; intuition (subst; auto; discriminate)|]. destruct (handle_head _ _ _ _ _ _ Es Hg) as (h & Ho & Hi & Hb).
    apply bind_go in Hb. destruct Hb as (f' & st4 & Hl & Hb). apply look_go in Hl. destruct Hl as [-> ->]. rewrite to_dir_at in Hb. change (obj_at (set_in r st) h) with (obj_at st h) in Hb. rewrite Ho, Ea in Hb.
    apply bind_go in Hb. destruct Hb as (f' & st4 & Hl & Hb). apply look_go in Hl. destruct Hl as [-> ->]. rewrite to_name_at in Hb. change (obj_at (set_in r st) h) with (obj_at st h) in Hb. rewrite Ho, Ea in Hb.
    left. destruct (s_env (set_in r st)) as [|r1 env] eqn:Ee; [discriminate|]. intros ->.
    assert (L : forall env count names calls, calls <> [] -> snd (fst (readdir_loop cf d nm count env names calls)) <> []).
    { clear. intros env. remember (length env) as n eqn:En. assert (Hn : (length env <= n)%nat) by lia. clear En. revert env Hn.
      induction n as [|n IH]; intros [|r1 [|r2 env]] Hn count names calls Hc; cbn [length] in Hn; try lia; cbn [readdir_loop]; try (cbn [fst snd]; now destruct calls).
      - destruct (rs_ret r1 =? -1); cbn [fst snd]; now destruct calls.
      - destruct (rs_ret r1 =? -1); [cbn [fst snd]; now destruct calls|]. destruct (rs_ret r2 =? -1); [apply IH; [lia|now destruct calls]|].
        destruct (count + 1 =? 100); [cbn [fst snd]; now destruct calls|]. apply IH; [lia|now destruct calls]. }
    assert (L1 : snd (fst (readdir_loop cf d nm 0 (r1 :: env) [] [])) <> []).
    { cbn [readdir_loop]. destruct (rs_ret r1 =? -1); [discriminate|]. destruct env as [|r2 env]; [discriminate|]. destruct (rs_ret r2 =? -1); [apply L; discriminate|]. change (0 + 1 =? 100) with false. apply L. discriminate. }
    destruct (readdir_loop cf d nm 0 (r1 :: env) [] []) as [[[ns|] cls] env']; [|discriminate]. cbn [fst snd] in L1. apply L1. destruct Hd as [D1 _].
    destruct (zlen ns >? 0); apply send_go in Hb; subst st'; cbn [s_calls add_out add_calls set_in] in D1; now apply app_inv_head in D1.
  - (* fstatvfs *) destruct o as [fd fl nm|]; [|exfalso; clear - Hw Hn; vm_compute in Hn; intuition (subst; auto; discriminate)]. destruct (handle_head _ _ _ _ _ _ Es Hg) as (h & Ho & Hi & Hb). 
    apply bind_go in Hb. destruct Hb as (f' & st4 & Hl & Hb). apply look_go in Hl. destruct Hl as [-> ->]. rewrite to_fd_at in Hb. change (obj_at (set_in r st) h) with (obj_at st h) in Hb. rewrite Ho, Ea in Hb.
    specialize (Hfd fd fl nm eq_refl). replace (fd <? 0) with false in Hb by lia. is_first Hb Hd.
  - (* fsync *) destruct o as [fd fl nm|]; [|exfalso; clear - Hw Hn; vm_compute in Hn; intuition (subst; auto; discriminate)]. destruct (handle_head _ _ _ _ _ _ Es Hg) as (h & Ho & Hi & Hb). 
    apply bind_go in Hb. destruct Hb as (f' & st4 & Hl & Hb). apply look_go in Hl. destruct Hl as [-> ->]. rewrite to_fd_at in Hb. change (obj_at (set_in r st) h) with (obj_at st h) in Hb. rewrite Ho, Ea in Hb.
    specialize (Hfd fd fl nm eq_refl). replace (fd <? 0) with false in Hb by lia.
    apply bind_go in Hb. destruct Hb as (f' & st4 & Hl & Hb). apply look_go in Hl. destruct Hl as [-> ->]. rewrite is_ok_file in Hb. change (obj_at (set_in r st) h) with (obj_at st h) in Hb. rewrite Ho, Ea in Hb. is_first Hb Hd.
Qed.

(** The names of requests with a handle. *)
Lemma uses_one : forall m h w, ~ (m_type m = Some 200 /\ m_ext m = Some (bs "copy-data")) -> uses m = [(h, w)] -> exists n, request_named m n /\ first_string (if match m_type m with Some t => t =? 200 | None => false end then m_ext_args m else m_args m) = [h] /\
  ((w = WAny /\ n = bs "close") \/ (w = WFile /\ In n (map bs ["read"; "write"; "fstat"; "fsetstat"; "fstatvfs"; "fsync"]%string)) \/ (w = WDir /\ n = bs "readdir")).
Proof.
  intros m h w Hc H. unfold uses in H. destruct (m_type m) as [t|] eqn:Et; [|discriminate].
  assert (One : forall x l, map (fun h0 => (h0, x)) l = [(h, w)] -> l = [h] /\ w = x). { intros x [|a [|b l]] K; cbn in K; try discriminate. injection K as -> ->. auto. }
  assert (Nm : forall t' n, t = t' -> In (t', n) type_names -> request_named m n) by (intros t' n -> Hn; left; eauto).
  destruct (t =? 4) eqn:E4. { apply One in H. destruct H as [H ->]. replace (t =? 200) with false by lia. exists (bs "close"). split; [apply (Nm 4); [lia|cbn; tauto]|]. split; [assumption|]. now left. }
  destruct ((t =? 5) || (t =? 6) || (t =? 8) || (t =? 10)) eqn:E5.
  { apply One in H. destruct H as [H ->]. replace (t =? 200) with false by lia.
    assert (exists n, request_named m n /\ In n (map bs ["read"; "write"; "fstat"; "fsetstat"; "fstatvfs"; "fsync"]%string)) as (n & Hn & Hin).
    { destruct (t =? 5) eqn:A; [exists (bs "read"); split; [apply (Nm 5); [lia|cbn; tauto]|cbn; tauto]|]. destruct (t =? 6) eqn:B; [exists (bs "write"); split; [apply (Nm 6); [lia|cbn; tauto]|cbn; tauto]|].
      destruct (t =? 8) eqn:C; [exists (bs "fstat"); split; [apply (Nm 8); [lia|cbn; tauto]|cbn; tauto]|]. exists (bs "fsetstat"); split; [apply (Nm 10); [lia|cbn; tauto]|cbn; tauto]. }
    exists n. split; [assumption|]. split; [assumption|]. right. left. now split. }
  destruct (t =? 12) eqn:E12. { apply One in H. destruct H as [H ->]. replace (t =? 200) with false by lia. exists (bs "readdir"). split; [apply (Nm 12); [lia|cbn; tauto]|]. split; [assumption|]. right. right. now split. }
  destruct (t =? 200) eqn:E200; [|discriminate]. destruct (m_ext m) as [e|] eqn:Ee; [|discriminate]. assert (t = 200) as -> by lia.
  destruct (beqb e (bs "fstatvfs@openssh.com") || beqb e (bs "fsync@openssh.com")) eqn:Eb.
  - apply One in H. destruct H as [H ->]. apply orb_prop in Eb. destruct Eb as [Eb|Eb]; apply beqb_eq in Eb; subst e.
    + exists (bs "fstatvfs"). split; [right; split; [assumption|]; eexists; split; [exact Ee|cbn; tauto]|]. split; [assumption|]. right. left. split; [reflexivity|cbn; tauto].
    + exists (bs "fsync"). split; [right; split; [assumption|]; eexists; split; [exact Ee|cbn; tauto]|]. split; [assumption|]. right. left. split; [reflexivity|cbn; tauto].
  - destruct (beqb e (bs "copy-data")) eqn:Ecd; [|discriminate]. exfalso. apply Hc. apply beqb_eq in Ecd. subst e. now split.
Qed.

Lemma copy_two : forall id m st st', m_type m = Some 200 -> m_ext m = Some (bs "copy-data") -> process_copy_data id (set_in (m_ext_args m) st) = Go tt st' -> forall h w, uses m <> [(h, w)].
Proof.
  intros id m st st' Ht Hx Hg h w. set (args := m_ext_args m) in *. unfold process_copy_data in Hg.
  apply bind_go in Hg. destruct Hg as (rh & st1 & Hh & Hg). apply get_handle_at in Hh. destruct Hh as (h1 & l1 & E1 & -> & _). cbn [s_in set_in] in E1. rewrite set_in_in in Hg.
  apply bind_go in Hg. destruct Hg as (roff & st2 & Hp & Hg). apply parse_go in Hp. destruct Hp as (l2 & E2 & ->). cbn [s_in set_in] in E2. rewrite set_in_in in Hg.
  apply bind_go in Hg. destruct Hg as (rlen & st3 & Hp & Hg). apply parse_go in Hp. destruct Hp as (l3 & E3 & ->). cbn [s_in set_in] in E3. rewrite set_in_in in Hg.
  apply bind_go in Hg. destruct Hg as (wh & st4 & Hh & Hg). apply get_handle_at in Hh. destruct Hh as (h2 & l4 & E4 & -> & _). cbn [s_in set_in] in E4.
  assert (D : zdrop 16 l1 = l3).
  { apply get_int_drop in E2, E3. subst l2 l3. change (Z.of_nat 8) with 8. now rewrite zdrop_zdrop by lia. }
  unfold uses. rewrite Ht, Hx. change (200 =? 4) with false. change ((200 =? 5) || (200 =? 6) || (200 =? 8) || (200 =? 10)) with false. change (200 =? 12) with false. change (200 =? 200) with true.
  replace (beqb (bs "copy-data") (bs "fstatvfs@openssh.com") || beqb (bs "copy-data") (bs "fsync@openssh.com")) with false by reflexivity. rewrite beqb_refl. fold args. rewrite E1, D. unfold first_string. rewrite E4. discriminate.
Qed.

Lemma unrestricted_permitted : forall cf k, unrestricted cf -> request_permitted cf k = true.
Proof. intros cf k (H1 & H2 & H3). unfold request_permitted. now rewrite H1, H2, H3. Qed.

(** Like [dispatch_named], with the bytes handed to the handler. *)
Lemma dispatch_run : forall cf t tail n st st', request_named (t :: tail) n -> dispatch cf t (set_in tail st) = Go tt st' -> unrestricted cf ->
  exists id k, In k (handlers ++ extended_handlers) /\ k_name k = n /\ k_run k cf id (set_in (if t =? 200 then m_ext_args (t :: tail) else m_args (t :: tail)) st) = Go tt st'.
Proof.
  intros cf t tail n st st' Hn Hg Hu. destruct Hn as [(t' & Ht & Hin) | (Ht & e & He & Hin)]; cbn [m_type] in Ht; injection Ht as Ht.
  - subst t'. destruct (type_name_handler t n Hin) as (k & Ek & Hk & Hkn & H1 & H2). destruct (dispatch_type cf t tail st st' Hg H1 H2 k Ek) as (id & _ & _ & Hr).
    rewrite unrestricted_permitted in Hr by assumption. exists id, k. split; [now apply in_or_app; left|]. split; [assumption|]. now replace (t =? 200) with false by lia.
  - subst t. destruct (ext_name_handler e n Hin) as (k & Ek & Hk & Hkn). unfold dispatch in Hg. change (200 =? FXP_INIT) with false in Hg. cbn [s_init set_in] in Hg. destruct (s_init st); [|discriminate]. cbn [negb] in Hg.
    apply bind_go in Hg. destruct Hg as (id & st1 & Hp & Hg). apply parse_go in Hp. destruct Hp as (args & Hp & ->). cbn [s_in set_in] in Hp. rewrite set_in_in in Hg.
    destruct (m_args_cons 200 tail id args Hp) as [Mid Ma]. change (200 =? FXP_EXTENDED) with true in Hg. unfold process_extended in Hg.
    apply bind_go in Hg. destruct Hg as (e' & st2 & Hp2 & Hg). apply parse_go in Hp2. destruct Hp2 as (r & Hp2 & ->). cbn [s_in set_in] in Hp2. rewrite set_in_in in Hg.
    destruct (ext_uses tail args e' r Ma Hp2) as [Mx Mr]. rewrite Mx in He. assert (e' = e) by congruence. subst e'. rewrite Ek, unrestricted_permitted in Hg by assumption.
    exists id, k. split; [now apply in_or_app; right|]. split; [assumption|]. change (200 =? 200) with true. now rewrite Mr.
Qed.

Lemma dispatch_served : forall cf t tail st st' cs rs, unrestricted cf -> dispatch cf t (set_in tail st) = Go tt st' -> did st st' cs rs -> served (t :: tail) (abs st) cs rs.
Proof.
  intros cf t tail st st' cs rs Hu Hg Hd h w o Huse Ha Hw Hfd.
  assert (Hnc : ~ (m_type (t :: tail) = Some 200 /\ m_ext (t :: tail) = Some (bs "copy-data"))).
  { intros [Ht Hx]. cbn [m_type] in Ht. injection Ht as ->.
    assert (Hn : request_named (200 :: tail) (bs "copy-data")). { right. split; [reflexivity|]. exists (bs "copy-data"). split; [assumption|]. unfold ext_names. cbn [map fst snd]. auto 12 using in_eq, in_cons. }
    destruct (dispatch_run cf 200 tail _ st st' Hn Hg Hu) as (id & k & Hk & Hkn & Hr). change (200 =? 200) with true in Hr.
    assert (Hrun : k_run k = fun _ => process_copy_data).
    { clear - Hk Hkn. cbn [handlers extended_handlers In app] in Hk. repeat (destruct Hk as [<- | Hk]; [cbn [k_name k_run] in *; try (exfalso; vm_compute in Hkn; discriminate Hkn); try reflexivity|]). destruct Hk. }
    rewrite Hrun in Hr. eapply copy_two; eauto. reflexivity. }
  destruct (uses_one _ _ _ Hnc Huse) as (n & Hn & Hf & Hcase). destruct (dispatch_run cf t tail n st st' Hn Hg Hu) as (id & k & Hk & Hkn & Hr). cbn [m_type] in Hf.
  set (args := if t =? 200 then m_ext_args (t :: tail) else m_args (t :: tail)) in *. unfold first_string in Hf. destruct (get_str args) as [[s r]|] eqn:Es; [|discriminate]. injection Hf as ->.
  eapply handle_served with (w := w) (k := k); [| exact Es|exact Ha|exact Hfd|exact Hr|exact Hd|exact Hw|]; [now apply in_app_or in Hk|]. now rewrite Hkn.
Qed.

(** * Sessions *)
Lemma start_empty : forall env x, abs (start env) x = empty x.
Proof. intros env x. unfold abs, empty. destruct (zlen x =? 4); [|reflexivity]. unfold obj_at, obj_in, hget. cbn [s_handles start]. destruct (_ <? 0); [reflexivity|]. now destruct (Z.to_nat _). Qed.
Lemma handled_ext : forall m T T0 cs rs T', (forall x, T x = T0 x) -> handled m T cs rs T' -> handled m T0 cs rs T'.
Proof.
  intros m T T0 cs rs T' E [H1 H2 H3 H4 H5 H6]. split.
  - intros c r x A B. destruct (H1 c r x A B) as (h & w & o & K1 & K2 & K3). exists h, w, o. rewrite <- E. auto.
  - intros h w A B. apply (H2 h w A). intros o K. apply B. now rewrite <- E.
  - intros c r o A B. destruct (H3 c r o A B) as (id & h & K1 & K2 & K3 & K4). exists id, h. rewrite <- E. split; [assumption|]. split; [assumption|]. split; [assumption|].
    intros x Hx. rewrite (K4 x Hx). unfold add. now rewrite E.
  - exact H4.
  - intros h o A B C D. rewrite <- E in C. destruct (H5 h o A B C D) as [K1 K2]. split; [assumption|]. intros x Hx. rewrite (K2 x Hx). unfold remove. now rewrite E.
  - intros A B x Hx. rewrite (H6 A B x Hx). apply E.
Qed.
Definition whole (cf : config) (m : list Z) (T : table) (cs : list (call * option sysres)) (rs : list reply) (T' : table) : Prop :=
  handled m T cs rs T' /\ (unrestricted cf -> served m T cs rs) /\ transferred m T cs rs /\ copied m T cs rs.
Lemma whole_ext : forall cf m T T0 cs rs T', (forall x, T x = T0 x) -> whole cf m T cs rs T' -> whole cf m T0 cs rs T'.
Proof.
  intros cf m T T0 cs rs T' E (H1 & H2 & H3 & H4). split; [now apply (handled_ext m T)|]. split; [|split].
  - intros Hu h w o A B. rewrite <- E in B. now apply (H2 Hu h w o).
  - destruct H3 as [H3 H5]. split.
    + intros id d A B. destruct (H3 id d A B) as (h & off & len & fd & fl & n & s & K1 & K2 & K3). exists h, off, len, fd, fl, n, s. rewrite <- E. auto.
    + intros id z t A B. rewrite (H5 id z t A B). split; intros (h & off & data & fd & fl & n & pre & r & K1 & K2 & K3); exists h, off, data, fd, fl, n, pre, r; [rewrite <- E|rewrite E]; auto.
  - intros A B C. destruct (H4 A B C) as (rh & roff & len & wh & woff & rfd & rfl & rn & wfd & wfl & wn & s & pre & total & last & d & ccs & e & K1 & K2 & K3 & K4).
    exists rh, roff, len, wh, woff, rfd, rfl, rn, wfd, wfl, wn, s, pre, total, last, d, ccs, e. rewrite <- !E. auto.
Qed.
Lemma chain_start : forall (R : list Z -> table -> list (call * option sysres) -> list reply -> table -> Prop) T T0 l,
  (forall m cs rs T', R m T cs rs T' -> R m T0 cs rs T') -> chain R T l -> chain R T0 l.
Proof. intros R T T0 [|[[m cs] rs] l] H; [auto|]. cbn [chain]. intros (T' & H1 & H2). exists T'. auto. Qed.
Lemma chain_impl : forall (R S : list Z -> table -> list (call * option sysres) -> list reply -> table -> Prop) l T,
  (forall m T cs rs T', R m T cs rs T' -> S m T cs rs T') -> chain R T l -> chain S T l.
Proof. intros R S. induction l as [|[[m cs] rs] l IH]; intros T H; [auto|]. cbn [chain]. intros (T' & H1 & H2). exists T'. split; [now apply H|now apply IH]. Qed.

Lemma session_whole : forall cf chunks env, Forall is_bytes chunks -> Forall res_ok env -> few_live (session cf chunks (start env)) ->
  chain (whole cf) empty (session cf chunks (start env)).
Proof.
  intros cf chunks env Hc He Hl. apply chain_start with (T := abs (start env)); [intros m cs rs T'; apply whole_ext, start_empty|].
  apply session_chain with (k := 0); auto; [|constructor|apply start_inv].
  clear. intros k st st' cs rs Hb He Hi Hp Hr. destruct (process_entry cf st st' Hb He Hp) as (_ & _ & t & tail & y & st1 & cs' & rs' & Hm & Hbt & _ & Hd & Hg & Ee & _).
  assert (E : cs' = cs /\ rs' = rs).
  { destruct (r_did _ _ _ _ _ _ Hr) as [R1 R2]. unfold entry_of in Ee. rewrite R1, R2, !skipn_did in Ee. split; congruence. }
  destruct E as [-> ->]. split; [apply (r_ok _ _ _ _ _ _ Hr)|]. rewrite Hm. split; [|split].
  - intros Hu. eapply dispatch_served; eauto.
  - eapply dispatch_transferred; eauto.
  - eapply dispatch_copied; eauto.
Qed.

(** Everything recorded is in the session. *)
Lemma session_records : forall cf chunks st st', is_bytes (s_in st) -> Forall is_bytes chunks -> env_ok st -> serve cf chunks st = Go tt st' ->
  s_calls st' = s_calls st ++ concat (map (fun e => snd (fst e)) (session cf chunks st)) /\ s_out st' = s_out st ++ concat (map snd (session cf chunks st)).
Proof.
  intros cf. induction chunks as [|c chunks IH]; intros st st' Hb Hc He Hs.
  - cbn in Hs. apply go_inj in Hs. subst st'. cbn. now rewrite !app_nil_r.
  - inversion Hc as [|? ? Hc1 Hc2]; subst. cbn [serve] in Hs. rewrite session_cons. set (st0 := set_in (s_in st ++ c) st) in *. assert (Hb0 : is_bytes (s_in st0)) by (now apply is_bytes_app).
    destruct (process cf st0) as [[] st1|] eqn:E; [| |discriminate].
    + destruct (process_entry cf st0 st1 Hb0 He E) as (Hb1 & He1 & t & tail & y & st2 & cs & rs & _ & _ & _ & _ & Hg & Ee & _ & Ho & Hcs).
      destruct (IH st1 st' Hb1 Hc2 He1 Hs) as [I1 I2]. rewrite Ee. cbn [app map concat fst snd].
      rewrite I1, I2, Hcs, Ho, <- !app_assoc. now split.
    + apply process_false in E. subst st1. cbn [app]. apply (IH st0 st'); auto.
Qed.
