(** Copying between handles. *)
From Coq Require Import String.
From Verif Require Import Base SshbufModel SshbufSpec WireSpec WireProof Dec Text MatchModel MatchSpec MatchProof.
From Verif Require Import SftpModel SftpSpec SftpProof SftpProof2 SftpProof3 SftpProof4 SftpProof5 SftpProof6 SftpProof7.

Lemma copy_loop_spec : forall rfd wfd eof n env todo status rd wr calls todo' status' rd' wr' calls' env', (length env <= n)%nat -> 0 <= todo ->
  copy_loop rfd wfd eof todo status env rd wr calls = (Some (todo', status'), rd', wr', calls', env') ->
  exists total d cs last e, calls' = calls ++ cs ++ e /\ copying rfd wfd total d cs /\ ending rfd wfd last e /\ total + last = todo - todo' /\ 0 <= todo' /\
    (status' = FX_OK -> todo' = 0 \/ status = FX_OK \/ (eof = true /\ exists n r, e = [(CReadFull rfd n, Some r)]) \/ (exists c r, In (c, Some r) e /\ rs_errno r = 0)).
Proof.
  intros rfd wfd eof. induction n as [|n IH]; intros env todo status rd wr calls todo' status' rd' wr' calls' env' Hn Ht H;
    destruct env as [|r env]; try (cbn [length] in Hn; lia); cbn [copy_loop] in H; cbv zeta in H.
  all: destruct ((todo >? 0) || eof) eqn:E0;
    [|injection H as <- <- <- <- <- <-; exists 0, [], [], 0, []; rewrite app_nil_r; repeat (split; [first [reflexivity|constructor|lia]|]); auto].
  all: destruct (Z.min COPY_BUF todo =? 0) eqn:E1;
    [injection H as <- <- <- <- <- <-; exists 0, [], [], 0, []; assert (todo = 0) by (change COPY_BUF with 65536 in E1; lia); subst todo; change COPY_BUF with 65536; rewrite app_nil_r;
     repeat (split; [first [reflexivity|constructor|lia]|]); intros _; left; lia|].
  1,2: discriminate.
  set (len := Z.min COPY_BUF todo) in *. assert (Hlen : 0 < len <= todo) by (change COPY_BUF with 65536 in *; lia). clearbody len.
  destruct ((rs_ret r =? 0) && (rs_errno r =? 32)) eqn:E2.
  { injection H as <- <- <- <- <- <-. apply andb_prop in E2. destruct E2 as [E2 E3]. exists 0, [], [], len, [(CReadFull rfd len, Some r)].
    split; [reflexivity|]. split; [constructor|]. split; [constructor; lia|]. split; [lia|]. split; [lia|]. destruct eof; [|discriminate]. intros _. right. right. left. eauto. }
  destruct (rs_ret r =? 0) eqn:E3.
  { injection H as <- <- <- <- <- <-. exists 0, [], [], len, [(CReadFull rfd len, Some r)].
    split; [reflexivity|]. split; [constructor|]. split; [constructor; lia|]. split; [lia|]. split; [lia|]. intros K. apply (proj1 (errno_portable_ok _)) in K. do 3 right. exists (CReadFull rfd len), r. split; [now left|assumption]. }
  destruct env as [|w env]; [discriminate|]. destruct (negb (rs_ret w =? rs_ret r)) eqn:E4.
  { injection H as <- <- <- <- <- <-. exists 0, [], [], len, [(CReadFull rfd len, Some r); (CWriteFull wfd (ztake (rs_ret r) (rs_data r)), Some w)].
    split; [now rewrite <- app_assoc|]. split; [constructor|]. split; [constructor; [lia|lia|intros K; rewrite K, Z.eqb_refl in E4; discriminate]|]. split; [lia|]. split; [lia|].
    intros K. apply (proj1 (errno_portable_ok _)) in K. do 3 right. eexists _, w. split; [right; left; reflexivity|assumption]. }
  cbn [length] in Hn. apply IH in H; [|lia|lia]. destruct H as (total & d & cs & last & e & H1 & H2 & H3 & H4 & H5 & H6).
  exists (len + total), (ztake (rs_ret r) (rs_data r) ++ d), ((CReadFull rfd len, Some r) :: (CWriteFull wfd (ztake (rs_ret r) (rs_data r)), Some w) :: cs), last, e.
  split; [rewrite H1; now rewrite <- !app_assoc|]. split; [constructor; [lia|lia| |assumption]|]. { destruct (rs_ret w =? rs_ret r) eqn:E5; [lia|discriminate]. }
  split; [assumption|]. split; [lia|]. split; [lia|]. assumption.
Qed.

Lemma copy_copied : forall id m st st' cs rs, m_ext m = Some (bs "copy-data") -> is_bytes (m_ext_args m) -> env_ok st -> process_copy_data id (set_in (m_ext_args m) st) = Go tt st' -> did st st' cs rs ->
  copied m (abs st) cs rs.
Proof.
  intros id m st st' cs rs _ Hb He Hg Hd _ _ Hwhy. set (args := m_ext_args m) in *. unfold process_copy_data in Hg.
  apply bind_go in Hg. destruct Hg as (rh & st1 & Hh & Hg). apply get_handle_at in Hh. destruct Hh as (h1 & l1 & E1 & -> & O1). cbn [s_in set_in] in E1. rewrite set_in_in in Hg.
  apply bind_go in Hg. destruct Hg as (roff & st2 & Hp & Hg). apply parse_go in Hp. destruct Hp as (l2 & E2 & ->). cbn [s_in set_in] in E2. rewrite set_in_in in Hg.
  apply bind_go in Hg. destruct Hg as (rlen & st3 & Hp & Hg). apply parse_go in Hp. destruct Hp as (l3 & E3 & ->). cbn [s_in set_in] in E3. rewrite set_in_in in Hg.
  apply bind_go in Hg. destruct Hg as (wh & st4 & Hh & Hg). apply get_handle_at in Hh. destruct Hh as (h2 & l4 & E4 & -> & O2). cbn [s_in set_in] in E4. rewrite set_in_in in Hg.
  apply bind_go in Hg. destruct Hg as (woff & st5 & Hp & Hg). apply parse_go in Hp. destruct Hp as (l5 & E5 & ->). cbn [s_in set_in] in E5. rewrite set_in_in in Hg.
  destruct (get_str_enc' _ _ _ Hb E1) as [A1 B1]. destruct (get_int_spec 8 _ _ _ B1 E2) as (A2 & R2 & B2). destruct (get_int_spec 8 _ _ _ B2 E3) as (A3 & R3 & B3).
  destruct (get_str_enc' _ _ _ B3 E4) as [A4 B4]. destruct (get_int_spec 8 _ _ _ B4 E5) as (A5 & R5 & B5).
  assert (CA : copy_args m h1 roff rlen h2 woff). { exists l5. fold args. rewrite A1, A2, A3, A4, A5. split; [reflexivity|]. split; [exact R2|]. split; [exact R3|exact R5]. }
  cbv zeta in Hg. do 4 (apply bind_go in Hg; destruct Hg as (? & ? & Hl & Hg); apply look_go in Hl; destruct Hl as [-> ->]).
  rewrite !to_fd_at, !to_name_at in Hg. change (obj_at (set_in l5 st) rh) with (obj_at st rh) in Hg. change (obj_at (set_in l5 st) wh) with (obj_at st wh) in Hg.
  change (obj_at (set_in args st) rh) with (obj_at st rh) in O1. change (obj_at (set_in l3 st) wh) with (obj_at st wh) in O2.
  change (abs (set_in args st) h1) with (abs st h1) in O1. change (abs (set_in l3 st) h2) with (abs st h2) in O2. rewrite O1, O2 in Hg.
  (* leaving without a transfer is neither a write nor a success *)
  assert (Out : forall st0 cs0 w, did st st0 cs0 [] -> w <> FX_OK -> (forall c d r, ~ In (CWriteFull c d, r) cs0) -> send_status id w st0 = Go tt st' -> False).
  { intros st0 cs0 w [F1 F2] Hw Hn Hx. apply send_go in Hx. subst st'. destruct Hd as [D1 D2]. cbn [s_out s_calls add_out] in *. rewrite F1 in D1. rewrite F2, app_nil_r in D2. apply app_inv_head in D1, D2. subst cs rs.
    destruct Hwhy as [(c & d & r & K)|(id' & t & K)]; [now apply (Hn c d r)|]. injection K as _ K _. contradiction. }
  assert (D0 : did st (set_in l5 st) [] []) by (split; cbn [s_calls s_out set_in]; now rewrite app_nil_r).
  match type of Hg with (if ?b then _ else _) _ = _ => destruct b eqn:Ebad end.
  { exfalso. apply (Out _ [] _ D0) in Hg; [assumption|discriminate|intros ? ? ? []]. }
  apply orb_false_elim in Ebad. destruct Ebad as [Ebad Ename]. apply orb_false_elim in Ebad. destruct Ebad as [Ebad Ewfd]. apply orb_false_elim in Ebad. destruct Ebad as [_ Erfd].
  destruct (abs st h1) as [[rfd rfl rn|? ?]|] eqn:Ea1; try discriminate Erfd. destruct (abs st h2) as [[wfd wfl wn|? ?]|] eqn:Ea2; try discriminate Ewfd.
  apply beqb_neq in Ename.
  apply bind_go in Hg. destruct Hg as (s & st6 & Hs & Hg). apply sys_go in Hs. destruct Hs as (env & Ee & ->). cbn [s_env set_in] in Ee. unfold env_ok in He. rewrite Ee in He.
  pose proof (Forall_inv He) as Rs. apply Forall_inv_tail in He.
  assert (D6 : did st (add_calls [(CLseek rfd roff, Some s)] env (set_in l5 st)) [(CLseek rfd roff, Some s)] []) by (split; cbn [s_calls s_out set_in add_calls]; now rewrite ?app_nil_r).
  destruct (rs_ret s <? 0) eqn:Es.
  { exfalso. apply (Out _ _ _ D6) in Hg; [assumption|pose proof (proj1 Rs); apply errno_fail; [assumption|lia]|intros ? ? ? [K|[]]; discriminate]. }
  apply bind_go in Hg. destruct Hg as (? & ? & Hl & Hg). apply look_go in Hl. destruct Hl as [-> ->]. rewrite to_flags_at in Hg.
  change (obj_at (add_calls [(CLseek rfd roff, Some s)] env (set_in l5 st)) wh) with (obj_at st wh) in Hg. rewrite O2 in Hg.
  apply bind_go in Hg. destruct Hg as (t & st7 & Ht & Hg).
  assert (Pos : exists pre, did st st7 ((CLseek rfd roff, Some s) :: pre) [] /\ Forall res_ok (s_env st7) /\ res_ok t /\ (0 <= rs_ret t -> positioned wfd wfl woff pre) /\ (forall c d r, ~ In (CWriteFull c d, r) pre)).
  { unfold positioned. unfold has in Ht. destruct (Z.land wfl O_APPEND =? 0) eqn:Ef.
    - cbn [negb] in Ht. apply sys_go in Ht. destruct Ht as (env7 & Ee7 & ->). cbn [s_env add_calls] in Ee7. rewrite Ee7 in He. exists [(CLseek wfd woff, Some t)]. destruct D6 as [D6a D6b].
      split; [split; cbn [s_calls s_out add_calls set_in] in *; now rewrite <- ?app_assoc, ?app_nil_r|]. split; [cbn [s_env add_calls]; now apply Forall_inv_tail in He|]. split; [now apply Forall_inv in He|]. split; [intros K; exists t; split; [reflexivity|lia]|]. intros ? ? ? [K|[]]. discriminate.
    - cbn [negb] in Ht. unfold ret in Ht. injection Ht as <- <-. exists []. split; [exact D6|]. split; [exact He|]. split; [split; cbn; lia|]. split; [reflexivity|]. intros ? ? ? []. }
  destruct Pos as (pre & D7 & F7 & Rt & Ppos & Pn). destruct (rs_ret t <? 0) eqn:Et.
  { exfalso. apply (Out _ _ _ D7) in Hg; [assumption|pose proof (proj1 Rt); apply errno_fail; [assumption|lia]|]. intros c d r [K|K]; [discriminate|now apply (Pn c d r)]. }
  set (L := if rlen =? 0 then u64 (U64 - 1 - roff) else rlen) in *.
  change (256 ^ Z.of_nat 8) with U64 in *.
  assert (HL : L = (if rlen =? 0 then U64 - 1 - roff else rlen)). { unfold L. destruct (rlen =? 0); [|reflexivity]. apply u64_id. lia. }
  assert (HL0 : 0 <= L) by (rewrite HL; destruct (rlen =? 0); lia). clearbody L.
  destruct (copy_loop rfd wfd (rlen =? 0) L FX_OP_UNSUPPORTED (s_env st7) 0 0 []) as [[[[o rd] wr] calls] env8] eqn:EC. destruct o as [[todo status]|]; [|discriminate].
  destruct (copy_loop_spec _ _ _ _ _ _ _ _ _ _ _ _ _ _ _ _ (le_n _) HL0 EC) as (total & d & ccs & last & e & C1 & C2 & C3 & C4 & C5 & C6). cbn [app] in C1. subst calls.
  apply bind_go in Hg. destruct Hg as (? & st8 & Hu & Hg). apply update_go in Hu. destruct Hu as (U1 & U2 & _).
  apply bind_go in Hg. destruct Hg as (? & st9 & Hu & Hg). apply update_go in Hu. destruct Hu as (U3 & U4 & _). rewrite U1 in U3. rewrite U2 in U4.
  apply send_go in Hg. subst st'. destruct Hd as [D1 D2]. destruct D7 as [D7a D7b]. cbn [s_calls s_out add_out add_calls] in *. rewrite U3, D7a, <- !app_assoc in D1. rewrite U4, D7b, app_nil_r in D2. apply app_inv_head in D1, D2.
  exists h1, roff, rlen, h2, woff, rfd, rfl, rn, wfd, wfl, wn, s, pre, total, last, d, ccs, e.
  split; [exact CA|]. split; [exact Ea1|]. split; [exact Ea2|]. split; [intros K; subst h2; congruence|]. split; [exact Ename|]. split; [now rewrite <- D1|]. split; [lia|]. split; [apply Ppos; lia|].
  split; [exact C2|]. split; [exact C3|]. split; [intros K; rewrite HL in C4; destruct (rlen =? 0) eqn:E; lia|].
  intros id' t' K. rewrite K in D2. injection D2 as _ D2 _. destruct (todo =? 0) eqn:E0; [left; lia|]. destruct (C6 D2) as [K1|[K1|[[K1 K2]|K1]]]; [lia|discriminate|right; left; split; [lia|assumption]|right; right; assumption].
Qed.

Lemma dispatch_copied : forall cf t tail st st' cs rs, is_bytes tail -> env_ok st -> dispatch cf t (set_in tail st) = Go tt st' -> did st st' cs rs -> copied (t :: tail) (abs st) cs rs.
Proof.
  intros cf t tail st st' cs rs Hb He Hg Hd Ht Hx Hwhy. cbn [m_type] in Ht. injection Ht as ->.
  assert (Hn : request_named (200 :: tail) (bs "copy-data")). { right. split; [reflexivity|]. exists (bs "copy-data"). split; [assumption|]. unfold ext_names. cbn [map fst snd]. auto 12 using in_eq, in_cons. }
  unfold dispatch in Hg. change (200 =? FXP_INIT) with false in Hg. cbn [s_init set_in] in Hg. destruct (s_init st); [|discriminate]. cbn [negb] in Hg.
  apply bind_go in Hg. destruct Hg as (id & st1 & Hp & Hg). apply parse_go in Hp. destruct Hp as (args & Hp & ->). cbn [s_in set_in] in Hp. rewrite set_in_in in Hg.
  destruct (m_args_cons 200 tail id args Hp) as [Mid Ma]. change (200 =? FXP_EXTENDED) with true in Hg. unfold process_extended in Hg.
  apply bind_go in Hg. destruct Hg as (e & st2 & Hp2 & Hg). apply parse_go in Hp2. destruct Hp2 as (r & Hp2 & ->). cbn [s_in set_in] in Hp2. rewrite set_in_in in Hg.
  destruct (ext_uses tail args e r Ma Hp2) as [Mx Mr]. rewrite Mx in Hx. assert (e = bs "copy-data") by congruence. subst e.
  destruct (ext_name_handler (bs "copy-data") (bs "copy-data")) as (k & Ek & Hk & Hkn). { unfold ext_names. cbn [map fst snd]. auto 12 using in_eq, in_cons. }
  rewrite Ek in Hg.
  assert (Hrun : k_run k = fun _ => process_copy_data).
  { clear - Hk Hkn. cbn [extended_handlers In] in Hk. repeat (destruct Hk as [<- | Hk]; [cbn [k_name k_run] in *; try (exfalso; vm_compute in Hkn; discriminate Hkn); try reflexivity|]). destruct Hk. }
  destruct (request_permitted cf k).
  - rewrite Hrun in Hg. assert (Br : is_bytes r). { pose proof (args_bytes 200 tail Hb) as Ba. rewrite Ma in Ba. apply get_cstr_str in Hp2. destruct Hp2 as (v & Hv & _). apply get_str_enc' in Hv; tauto. }
    rewrite <- Mr in Hg, Br. now apply (copy_copied id (200 :: tail) st st' cs rs).
  - exfalso. destruct Hd as [D1 D2]. apply send_go in Hg. subst st'. cbn [s_calls s_out add_out set_in] in *. rewrite <- (app_nil_r (s_calls st)) in D1 at 1. apply app_inv_head in D1, D2. subst.
    destruct Hwhy as [(? & ? & ? & [])|(? & ? & K)]. discriminate.
Qed.
