From Verif Require Import Base ChanModel ChanSpec ChanProof1 ChanProof2.

(** ** The flags CHAN_EOF_RCVD and CHAN_CLOSE_RCVD come from the peer *)
Definition fl (c c' : chan) : Prop := p_er (c_p c') = p_er (c_p c) /\ p_cr (c_p c') = p_cr (c_p c) /\ f_local (c_f c') = f_local (c_f c).
Lemma fl_refl : forall c, fl c c. Proof. intros. unfold fl. splits; reflexivity. Qed.
Ltac flr := first [apply fl_refl | unfold fl; splits; reflexivity].
Lemma fl_trans : forall x y z, fl x y -> fl y z -> fl x z.
Proof. intros x y z (A1 & A2 & A3) (B1 & B2 & B3). unfold fl. splits; congruence. Qed.
Lemma fl_if : forall (k : bool) x y z, (k = true -> fl x y) -> (k = false -> fl x z) -> fl x (if k then y else z).
Proof. intros [|] x y z H1 H2; auto. Qed.
Lemma fl_nrel : forall k1 c c', nrel k1 true c c' -> fl c c'.
Proof. intros k1 c c' (_ & _ & _ & L & _ & _ & _ & _ & _ & _ & _ & _ & H & _). destruct (H eq_refl) as (_ & _ & H1 & H2). now unfold fl. Qed.
Lemma fl_write_failed : forall c, fl c (chan_write_failed c).
Proof.
  intros c. unfold chan_write_failed. apply fl_if; intros _; [flr|]. cbv zeta. unfold chan_shutdown_write, chan_send_eow2.
  destruct (f_session _); [|flr]. destruct (is_closed _); [flr|]. destruct (f_new _); flr.
Qed.
Lemma fl_force : forall c k, fl c (channel_force_close c k).
Proof.
  intros c k. unfold channel_force_close. cbv zeta.
  set (c1 := if is_open (p_i (c_p c)) then _ else c). apply fl_trans with c1; [unfold c1; apply fl_if; intros _; [apply (fl_nrel true), n_read_failed|flr]|]. clearbody c1.
  set (c2 := if is_drain (p_i (c_p c1)) then _ else c1). apply fl_trans with c2; [unfold c2; apply fl_if; intros H; [now apply (fl_nrel false), n_ibuf_discard|flr]|]. clearbody c2.
  set (c3 := if is_closed (p_o (c_p c2)) then c2 else _). apply fl_trans with c3; [unfold c3; apply fl_if; intros H; [flr|]|].
  { apply fl_trans with (set_out c2 []); [flr|apply fl_write_failed]. }
  clearbody c3. destruct k; flr.
Qed.
Lemma fl_in : forall c, fl c (channel_output_poll_input_open c).
Proof.
  intros c. unfold channel_output_poll_input_open. apply fl_if; intros _.
  - apply fl_if; intros _; [apply (fl_nrel true), n_ibuf|flr].
  - cbv zeta. apply fl_if; intros _; flr.
Qed.
Lemma fl_poll : forall c, fl c (channel_output_poll c).
Proof.
  intros c. unfold channel_output_poll. do 2 (apply fl_if; intros _; [flr|]). cbv zeta.
  set (c1 := if is_closed _ then c else _). apply fl_trans with c1; [unfold c1; apply fl_if; intros _; [flr|apply fl_in]|]. clearbody c1.
  apply fl_if; intros _; [|flr]. unfold channel_output_poll_extended_read. cbv zeta. apply fl_if; intros _; flr.
Qed.
Lemma fl_step : forall c e c', step c e = Some c' -> is_recv e = false -> fl c c'.
Proof.
  intros c e c' E Er.
  assert (HW : forall x, fl c x -> fl c (when_open c x)) by (intros x Hx; unfold when_open; destruct (ty_open _); [exact Hx|flr]).
  destruct (g_freed (c_g c)) eqn:Ef.
  { assert (c' = c) by (destruct e; try discriminate; cbn [step] in E; rewrite Ef in E; congruence). subst. flr. }
  destruct e; try discriminate; cbn [step] in E; rewrite Ef in E; injection E as <-.
  - apply HW. unfold channel_handle_rfd. do 2 (apply fl_if; intros _; [flr|]). destruct r; [flr|flr|apply (fl_nrel true), n_read_failed].
  - apply HW. unfold channel_handle_wfd. apply fl_if; intros _; [flr|]. destruct r; [apply fl_if; intros _; [apply fl_write_failed|flr]|flr|apply fl_write_failed].
  - apply HW. unfold channel_handle_efd_write. apply fl_if; intros _; [flr|]. destruct r; [apply fl_if; intros _; flr|flr|flr].
  - apply HW. unfold channel_handle_efd_read. do 2 (apply fl_if; intros _; [flr|]). destruct r; [apply fl_if; intros _; flr|flr|flr].
  - unfold channel_check_window. apply fl_if; intros _; flr.
  - apply HW, (fl_nrel true), n_pre.
  - apply fl_poll.
  - apply (fl_nrel true), n_gc.
  - apply HW, fl_force.
  - apply HW, (fl_nrel true), n_read_failed.
  - apply HW, fl_write_failed.
  - apply HW; flr.
  - flr.
  - unfold channel_set_fds. apply fl_if; intros _; flr.
Qed.

Lemma fl_obuf : forall c, fl c (chan_obuf_empty c). Proof. intros c. apply (fl_nrel true), n_obuf. Qed.
Lemma fl_ibuf : forall c, fl c (chan_ibuf_empty c). Proof. intros c. apply (fl_nrel true), n_ibuf. Qed.
Lemma fl_rieof : forall c, fl (set_er c) (chan_rcvd_ieof c).
Proof.
  intros c. unfold chan_rcvd_ieof. cbv zeta. set (c1 := if is_open _ then _ else _). apply fl_trans with c1; [unfold c1; apply fl_if; intros _; flr|]. clearbody c1.
  apply fl_if; intros _; [apply fl_obuf|flr].
Qed.
Lemma fl_ieof : forall c, fl (set_er c) (channel_input_ieof c).
Proof.
  intros c. unfold channel_input_ieof. cbv zeta. apply fl_trans with (chan_rcvd_ieof c); [apply fl_rieof|].
  apply fl_if; intros _; [|flr]. apply fl_if; intros _; [|flr]. eapply fl_trans; [|apply fl_ibuf]. flr.
Qed.
Lemma fl_oclose : forall c, fl (if f_local (c_f c) then c else set_cr c) (chan_rcvd_oclose c).
Proof.
  intros c. unfold chan_rcvd_oclose. cbv zeta. set (c1 := if f_local _ then _ else _). clearbody c1.
  apply fl_if; intros _; [flr|]. set (c2 := if is_open _ then _ else _). apply fl_trans with c2; [unfold c2; apply fl_if; intros _; flr|]. clearbody c2.
  destruct (p_i (c_p c2)); [| |flr].
  - apply fl_trans with (chan_shutdown_extended_read c2); [apply (fl_nrel true), n_shext|flr].
  - apply (fl_nrel false). eapply nrel_trans; [|apply n_iclosed]. eapply nrel_trans; [|apply n_shext]. apply nrel_if; intros _; [n1|]. apply n_eof2. discriminate.
Qed.
Lemma flags_step : forall c e c', step c e = Some c' ->
  (p_er (c_p c') = true -> p_er (c_p c) = true \/ e = EvRecv MEof) /\
  (p_cr (c_p c') = true -> p_cr (c_p c) = true \/ e = EvRecv MClose) /\
  (p_er (c_p c) = true -> p_er (c_p c') = true) /\ (p_cr (c_p c) = true -> p_cr (c_p c') = true) /\ f_local (c_f c') = f_local (c_f c).
Proof.
  intros c e c' E. destruct (is_recv e) eqn:Er.
  2: { destruct (fl_step c e c' E Er) as (-> & -> & ->). auto. }
  destruct e as [| | | | | | | | | | | | | |m]; try discriminate. cbn [step] in E. unfold recv in E.
  destruct (g_freed (c_g c)). { destruct m; try discriminate. injection E as <-. auto. }
  assert (HF : fl c c' -> (p_er (c_p c') = true -> p_er (c_p c) = true \/ EvRecv m = EvRecv MEof) /\
    (p_cr (c_p c') = true -> p_cr (c_p c) = true \/ EvRecv m = EvRecv MClose) /\
    (p_er (c_p c) = true -> p_er (c_p c') = true) /\ (p_cr (c_p c) = true -> p_cr (c_p c') = true) /\ f_local (c_f c') = f_local (c_f c)) by (intros (-> & -> & ->); auto).
  destruct m.
  - apply HF. unfold channel_input_data in E. destruct (negb _); [injection E as <-; flr|].
    destruct (negb _); [injection E as <-; flr|]. destruct (_ <? _); [injection E as <-; flr|].
    destruct (_ <? _); [destruct (_ <? _); [discriminate|]|]; (destruct (_ <? _); [discriminate|]); injection E as <-; flr.
  - apply HF. unfold channel_input_extended_data in E. destruct (negb _); [injection E as <-; flr|].
    destruct (_ && _); [discriminate|]. destruct (_ || _); [injection E as <-; flr|]. destruct (_ <? _); [injection E as <-; flr|].
    injection E as <-. destruct (_ <? _); flr.
  - injection E as <-. destruct (fl_ieof c) as (-> & -> & ->). cbn. splits; auto.
  - injection E as <-. destruct (fl_oclose c) as (-> & -> & ->). destruct (f_local (c_f c)) eqn:Q; cbn; splits; auto.
  - apply HF. unfold channel_input_window_adjust in E. destruct (_ <? _); [discriminate|]. injection E as <-. flr.
  - apply HF. injection E as <-. apply (fl_nrel true), n_eow.
Qed.

(** ** The receiving side of the window *)
Definition linv0 (c : chan) : Prop := p_ty (c_p c) = TLarval ->
  w_lw (c_w c) = 0 /\ w_cons (c_w c) = 0 /\ b_out (c_b c) = [] /\ b_ext (c_b c) = [] /\ f_efd (c_f c) = false /\ f_use (c_f c) = UIgnore /\
  g_eread (c_g c) = [] /\ g_written (c_g c) = [] /\ g_ewritten (c_g c) = [].
Definition linv (c : chan) : Prop := linv0 c /\ p_ty (c_p c) <> TZombie /\
  (p_ty (c_p c) = TAbandoned -> p_i (c_p c) = HClosed /\ p_o (c_p c) = HClosed /\ f_efd (c_f c) = false).

Lemma nrel_linv : forall k1 k2 c c', nrel k1 k2 c c' -> linv c -> linv c'.
Proof.
  intros k1 k2 c c' (A1 & A2 & A3 & A4 & A5 & A6 & A7 & A8 & A9 & A10 & A11 & A12 & A13 & _) (H & Hz & Ha). unfold linv. splits.
  - intros Ht. destruct A10 as [A10|A10]; [|destruct A10; congruence]. rewrite A10 in Ht. destruct (H Ht) as (L1 & L2 & L3 & L4 & L5 & L6 & L7 & L8 & L9).
    rewrite A1, A2, A3, A6, A7, A8. splits; auto.
    + clear - A12 L3. intuition congruence.
    + clear - A9 L5. intuition congruence.
  - clear - A10 Hz. intuition congruence.
  - intros Ht. destruct A10 as [A10|(_ & A10)]; [|exact A10]. rewrite A10 in Ht. specialize (Ha Ht). clear - Ha A9 A11 A12. intuition congruence.
Qed.
Lemma not_larval : forall c, p_ty (c_p c) = TOpen -> linv c.
Proof. intros c H. unfold linv, linv0. rewrite H. splits; try discriminate. Qed.
Lemma ty_open_true : forall t, ty_open t = true -> t = TOpen. Proof. intros [] H; try discriminate; reflexivity. Qed.
Lemma ty_larval_true : forall t, ty_larval t = true -> t = TLarval. Proof. intros [] H; try discriminate; reflexivity. Qed.

Lemma ty_poll_in : forall c, p_ty (c_p c) = TOpen -> p_ty (c_p (channel_output_poll_input_open c)) = TOpen.
Proof.
  intros c H. unfold channel_output_poll_input_open. destruct (empty _).
  - destruct (_ && _); [|exact H]. unfold chan_ibuf_empty, chan_send_eof2. repeat match goal with |- context [if ?x then _ else _] => destruct x end; exact H.
  - destruct (_ =? _); exact H.
Qed.
Lemma linv_step : forall c e c', linv c -> step c e = Some c' -> linv c'.
Proof.
  intros c e c' HL E.
  assert (HN : forall k1 k2 x, nrel k1 k2 c x -> linv x) by (intros k1 k2 x Hx; now apply (nrel_linv _ _ _ _ Hx)).
  assert (HO : forall x, (p_ty (c_p c) = TOpen -> linv x) -> linv (when_open c x)).
  { intros x Hx. unfold when_open. destruct (ty_open _) eqn:Et; [|exact HL]. apply Hx. now apply ty_open_true. }
  destruct (is_recv e) eqn:Er.
  - destruct e as [| | | | | | | | | | | | | |m]; try discriminate. cbn [step] in E. unfold recv in E.
    destruct (g_freed (c_g c)). { destruct m; try discriminate. now injection E as <-. }
    destruct m.
    + unfold channel_input_data in E. destruct (ty_open (p_ty (c_p c))) eqn:Et; cbn [negb] in E; [|now injection E as <-]. apply ty_open_true in Et.
      destruct (negb _); [injection E as <-; now apply not_larval|]. destruct (_ <? _); [now injection E as <-|].
      destruct (_ <? _); [destruct (_ <? _); [discriminate|]|]; (destruct (_ <? _); [discriminate|]); injection E as <-; now apply not_larval.
    + unfold channel_input_extended_data in E. destruct (ty_open (p_ty (c_p c))) eqn:Et; cbn [negb] in E; [|now injection E as <-]. apply ty_open_true in Et.
      destruct (_ && _); [discriminate|]. destruct (_ || _); [now injection E as <-|]. destruct (_ <? _); [now injection E as <-|].
      injection E as <-. destruct (_ <? _); now apply not_larval.
    + injection E as <-. apply (HN true false), n_ieof.
    + injection E as <-. apply (HN false false), n_oclose. discriminate.
    + unfold channel_input_window_adjust in E. destruct (_ <? _); [discriminate|]. injection E as <-. exact HL.
    + injection E as <-. apply (HN true true), n_eow.
  - destruct (g_freed (c_g c)) eqn:Ef.
    { assert (c' = c) by (destruct e; try discriminate; cbn [step] in E; rewrite Ef in E; congruence). now subst. }
    destruct e; try discriminate; cbn [step] in E; rewrite Ef in E; injection E as <-.
    + apply HO. intros Ht. unfold channel_handle_rfd. destruct (_ && _); [exact HL|]. destruct (_ <=? _); [exact HL|]. destruct r; [now apply not_larval|exact HL|apply (HN true true), n_read_failed].
    + apply HO. intros Ht. unfold channel_handle_wfd. destruct (_ || _); [exact HL|]. destruct r; [|exact HL|apply (HN true false), n_write_failed].
      destruct (_ <=? _); [apply (HN true false), n_write_failed|now apply not_larval].
    + apply HO. intros Ht. unfold channel_handle_efd_write. destruct (_ || _); [exact HL|]. destruct r; [|exact HL|now apply not_larval]. destruct (_ <=? _); now apply not_larval.
    + apply HO. intros Ht. unfold channel_handle_efd_read. destruct (_ || _); [exact HL|]. destruct (_ && _); [exact HL|]. destruct r; [|exact HL|now apply not_larval]. destruct (is_read _); now apply not_larval.
    + unfold channel_check_window. destruct (ty_open (p_ty (c_p c))) eqn:Et; cbn [andb]; [|exact HL]. destruct (_ && _); [|exact HL]. apply not_larval. now apply ty_open_true.
    + apply HO. intros Ht. apply (HN true true), n_pre.
    + unfold channel_output_poll. destruct (ty_open (p_ty (c_p c))) eqn:Et; cbn [negb]; [|exact HL]. apply ty_open_true in Et. destruct (_ || _); [exact HL|]. cbv zeta.
      set (c1 := if is_closed _ then c else _). assert (K : p_ty (c_p c1) = TOpen) by (unfold c1; destruct (is_closed _); [exact Et|now apply ty_poll_in]). clearbody c1.
      apply not_larval. destruct (_ && _); [|exact K]. unfold channel_output_poll_extended_read. destruct (_ =? _); exact K.
    + apply (HN true true), n_gc.
    + apply HO. intros Ht. apply (HN false false), n_force.
    + apply HO. intros Ht. apply (HN true true), n_read_failed.
    + apply HO. intros Ht. apply (HN true false), n_write_failed.
    + apply HO. intros Ht. now apply not_larval.
    + exact HL.
    + unfold channel_set_fds. destruct (_ && _); [|exact HL]. now apply not_larval.
Qed.

Lemma reff_in : forall c, 0 <= w_cons (c_w c) -> exists new, g_sent (c_g (channel_output_poll_input_open c)) = g_sent (c_g c) ++ new /\ reff c (channel_output_poll_input_open c) new.
Proof.
  intros c Hc. unfold channel_output_poll_input_open. destruct (empty (b_in (c_b c))).
  - assert (N : nrel true true c (if is_drain (p_i (c_p c)) && negb (efd_input_active c) then chan_ibuf_empty c else c)) by (apply nrel_if; intros _; [apply n_ibuf|n1]).
    pose proof N as (_ & _ & _ & _ & _ & _ & _ & _ & _ & _ & _ & _ & _ & new & E & F & _). exists new. split; [exact E|]. now apply (nrel_reff true true).
  - cbv zeta. destruct (_ =? 0); [exists []; rewrite app_nil_r; split; [reflexivity|now apply reff_refl]|].
    eexists. split; [reflexivity|]. unfold reff, inb. unf. redc. splits; auto; try (cbn; lia); try (intros ? []; now subst); intros ? [<-|[]]; cbn; lia.
Qed.
Lemma reff_ext : forall c, 0 <= w_cons (c_w c) -> is_read (f_use (c_f c)) = true -> exists new, g_sent (c_g (channel_output_poll_extended_read c)) = g_sent (c_g c) ++ new /\ reff c (channel_output_poll_extended_read c) new.
Proof.
  intros c Hc Hr. unfold channel_output_poll_extended_read. cbv zeta. destruct (_ =? 0); [exists []; rewrite app_nil_r; split; [reflexivity|now apply reff_refl]|].
  eexists. split; [reflexivity|]. assert (Hw : is_write (f_use (c_f c)) = false) by (destruct (f_use (c_f c)); (discriminate || reflexivity)).
  unfold reff, inb. unf. redc. rewrite Hw. splits; auto; try (cbn; lia); try (intros ? []; now subst); intros ? [<-|[]]; cbn; lia.
Qed.
Lemma reff_trans : forall x y z n1 n2, reff x y n1 -> reff y z n2 -> reff x z (n1 ++ n2).
Proof. intros x y z n1 n2 (A1 & A2 & A3 & A4 & A5 & A6 & A7) (B1 & B2 & B3 & B4 & B5 & B6 & B7). unfold reff. rewrite credits_app. splits; try congruence; try lia. intros m Hm. apply in_app_or in Hm as [Hm|Hm]; auto. Qed.
Lemma reff_poll : forall c, 0 <= w_cons (c_w c) -> exists new, g_sent (c_g (channel_output_poll c)) = g_sent (c_g c) ++ new /\ reff c (channel_output_poll c) new.
Proof.
  intros c Hc. unfold channel_output_poll. assert (HR : exists new, g_sent (c_g c) = g_sent (c_g c) ++ new /\ reff c c new) by (exists []; rewrite app_nil_r; split; [reflexivity|now apply reff_refl]).
  destruct (negb _); [exact HR|]. destruct (_ || _); [exact HR|].
  cbv zeta. set (c1 := if is_closed _ then _ else _).
  assert (K : exists new, g_sent (c_g c1) = g_sent (c_g c) ++ new /\ reff c c1 new) by (unfold c1; destruct (is_closed _); [exact HR|now apply reff_in]).
  clearbody c1. destruct K as (n1 & E1 & K1). destruct (_ && _) eqn:Eb; [|eauto]. apply andb_true_iff in Eb as [_ Eb].
  destruct (reff_ext c1) as (n2 & E2 & K2); [apply K1|exact Eb|]. exists (n1 ++ n2). split; [rewrite E2, E1; now rewrite app_assoc|]. eapply reff_trans; eauto.
Qed.

Lemma step_reff : forall c e c', rpre c -> plain e = true -> step c e = Some c' -> exists new, g_sent (c_g c') = g_sent (c_g c) ++ new /\ reff c c' new.
Proof.
  intros c e c' Hp He E. pose proof Hp as (P1 & P2 & P3). unfold SSHBUF_SIZE_MAX in P3.
  assert (HR : exists new, g_sent (c_g c) = g_sent (c_g c) ++ new /\ reff c c new) by (exists []; rewrite app_nil_r; split; [reflexivity|now apply reff_refl]).
  assert (HN : forall k1 k2 x, nrel k1 k2 c x -> exists new, g_sent (c_g x) = g_sent (c_g c) ++ new /\ reff c x new).
  { intros k1 k2 x N. pose proof N as (_ & _ & _ & _ & _ & _ & _ & _ & _ & _ & _ & _ & _ & new & E' & F & _). exists new. split; [exact E'|]. now apply (nrel_reff k1 k2). }
  assert (HW : forall x, (exists new, g_sent (c_g x) = g_sent (c_g c) ++ new /\ reff c x new) -> exists new, g_sent (c_g (when_open c x)) = g_sent (c_g c) ++ new /\ reff c (when_open c x) new).
  { intros x Hx. unfold when_open. destruct (ty_open _); [exact Hx|exact HR]. }
  destruct (g_freed (c_g c)) eqn:Ef.
  { assert (c' = c) by (destruct e; try discriminate; cbn [step] in E; rewrite Ef in E; congruence). now subst. }
  pose proof (zlen_nonneg _ (b_out (c_b c))) as Zo. pose proof (zlen_nonneg _ (b_ext (c_b c))) as Ze.
  destruct e; try discriminate; cbn [step] in E; rewrite Ef in E; injection E as <-.
  - apply HW. unfold channel_handle_rfd. destruct (_ && _); [exact HR|]. destruct (_ <=? _); [exact HR|]. destruct r; [|exact HR|apply (HN true true), n_read_failed].
    exists []. rewrite app_nil_r. split; [reflexivity|]. unfold reff, inb. unf. redc. splits; auto; try (cbn; lia); try (intros ? []; now subst); intros ? [<-|[]]; cbn; lia.
  - apply HW. unfold channel_handle_wfd. destruct (_ || _); [exact HR|]. destruct r; [|exact HR|apply (HN true false), n_write_failed].
    destruct (n <=? 0) eqn:En; [apply (HN true false), n_write_failed|]. cbv zeta.
    exists []. rewrite app_nil_r. split; [reflexivity|]. unfold reff, inb in *. unf. redc.
    rewrite zlen_zdrop by lia. rewrite u32_id by (unfold U32; destruct (is_write _); lia). splits; auto; try (cbn; lia); try (intros ? []; now subst); intros ? [<-|[]]; cbn; lia.
  - apply HW. unfold channel_handle_efd_write. destruct (is_write (f_use (c_f c))) eqn:Ew; [|rewrite !orb_true_r; cbn [negb orb]; rewrite ?orb_true_r; exact HR].
    destruct (_ || _); [exact HR|]. destruct r; [|exact HR|apply (HN true true), n_efd].
    destruct (n <=? 0) eqn:En; [apply (HN true true), n_efd|]. cbv zeta.
    exists []. rewrite app_nil_r. split; [reflexivity|]. unfold reff, inb in *. unf. redc. rewrite Ew in *.
    rewrite zlen_zdrop by lia. rewrite u32_id by (unfold U32; lia). splits; auto; try (cbn; lia); try (intros ? []; now subst); intros ? [<-|[]]; cbn; lia.
  - apply HW. unfold channel_handle_efd_read. destruct (_ || _) eqn:Eo; [exact HR|]. destruct (_ && _); [exact HR|]. destruct r; [|exact HR|apply (HN true true), n_efd].
    destruct (is_read _) eqn:Ei; [|exact HR]. exists []. rewrite app_nil_r. split; [reflexivity|]. apply orb_false_iff in Eo as [_ Eo].
    unfold reff, inb. unf. redc. rewrite Eo. splits; auto; try (cbn; lia); try (intros ? []; now subst); intros ? [<-|[]]; cbn; lia.
  - unfold channel_check_window. destruct (_ && _) eqn:Eb; [|exact HR]. exists [MAdjust (w_cons (c_w c))]. split; [reflexivity|].
    unfold reff, inb in *. unf. redc. rewrite u32_id by (unfold U32; destruct (is_write _); lia). splits; auto; try (cbn; lia); try (intros ? []; now subst); intros ? [<-|[]]; cbn; lia.
  - apply HW, (HN true true), n_pre.
  - now apply reff_poll.
  - apply (HN true true), n_gc.
  - apply HW, (HN false false), n_force.
  - apply HW, (HN true true), n_read_failed.
  - apply HW, (HN true false), n_write_failed.
  - apply HW, (HN true true), n_detach.
  - apply (HN true true), n_detach.
Qed.
