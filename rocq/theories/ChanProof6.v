From Verif Require Import Base ChanModel ChanSpec ChanProof1 ChanProof2 ChanProof3 ChanProof4 ChanProof5.

(** ** Runs *)
Lemma run_app : forall es1 es2 c, run c (es1 ++ es2) = match run c es1 with Some c' => run c' es2 | None => None end.
Proof. induction es1 as [|e es1 IH]; intros es2 c; [reflexivity|]. cbn [app run]. destruct (step c e); [apply IH|reflexivity]. Qed.
Lemma fresh_inv : forall c, fresh c -> pinv c /\ linv c /\ sinv c /\ tinv c [] /\ f_local (c_f c) = false /\ g_sent (c_g c) = [] /\ p_er (c_p c) = false /\ p_cr (c_p c) = false /\
  w_cons (c_w c) = 0 /\ inb c = 0 /\ w_lw (c_w c) = w_lmax (c_w c) /\ p_o (c_p c) = HOpen /\ g_written (c_g c) = [] /\ g_ewritten (c_g c) = [] /\ g_freed (c_g c) = false.
Proof.
  intros c [(rw & rmax & lw & lpk & f & -> & Hf)|(rw & rmax & lpk & nw & ex & ->)].
  - splits; auto; try (unfold linv, linv0; cbn; splits; discriminate); try apply pinv_open.
    + unfold sinv. cbn. splits; auto; [apply prefix_refl|]. destruct (is_read (f_use f)); auto.
    + unfold tinv. cbn. splits; auto; try discriminate; apply prefix_refl.
    + unfold inb. cbn. destruct (is_write _); reflexivity.
  - splits; auto; try apply pinv_larval.
    + unfold linv, linv0. cbn. splits; auto; try discriminate; intros _; splits; auto.
    + unfold sinv. cbn. splits; auto. apply prefix_refl.
    + unfold tinv. cbn. splits; auto; try discriminate; apply prefix_refl.
Qed.
Lemma Pinv_start : forall x y, fresh x -> fresh y -> agreed x y -> agreed y x -> Pinv (start x y).
Proof.
  intros x y Fx Fy (A1 & A2 & A3) (B1 & B2 & B3).
  destruct (fresh_inv x Fx) as (X1 & X2 & X3 & X4 & X5 & X6 & X7 & X8 & X9 & X10 & X11 & _). destruct (fresh_inv y Fy) as (Y1 & Y2 & Y3 & Y4 & Y5 & Y6 & Y7 & Y8 & Y9 & Y10 & Y11 & _).
  unfold Pinv, start, SSHBUF_SIZE_MAX in *. cbn [a b na nb]. split; unfold dinv; rewrite X6, Y6; cbn [length skipn firstn]; (splits; auto; try congruence);
    (unfold finv, rpre, u32v, SSHBUF_SIZE_MAX; cbn [volume credits map zsum fold_right]; splits; auto; try lia; try (intros ? H; now destruct H); try (intros ? ? H; now destruct H)).
Qed.

(** ** Sender accounting with an arbitrary peer *)
Lemma sender_run : forall es c c', u32v (w_rw (c_w c)) -> 0 <= w_rmax (c_w c) -> Forall ok_ev es -> run c es = Some c' ->
  w_rw (c_w c') + volume (g_sent (c_g c')) <= w_rw (c_w c) + volume (g_sent (c_g c)) + credits (received es) /\ u32v (w_rw (c_w c')) /\
  ((forall m, In m (g_sent (c_g c)) -> size m <= w_rmax (c_w c)) -> forall m, In m (g_sent (c_g c')) -> size m <= w_rmax (c_w c)).
Proof.
  induction es as [|e es IH]; intros c c' Hu Hm F E; cbn [run] in E.
  - injection E as <-. splits; auto; cbn; lia.
  - inversion F as [|? ? F1 F2]; subst. destruct (step c e) as [c1|] eqn:E1; [|discriminate].
    destruct (step_seff c e c1 Hu Hm F1 E1) as (new & S1 & S2 & S3 & S4 & S5 & _).
    destruct (IH c1 c' S3 ltac:(lia) F2 E) as (A1 & A2 & A3). rewrite S1, volume_app in A1. splits; auto.
    + assert (Hr : match e with EvRecv m => Z.max 0 (credit m) | _ => 0 end + credits (received es) = credits (received (e :: es))).
      { destruct e as [| | | | | | | | | | | | | |m]; try reflexivity. cbn [received]. rewrite credits_cons. f_equal. destruct m; cbn; try lia. cbn in F1. unfold u32v in F1. lia. }
      lia.
    + intros H m Hm'. rewrite S4 in A3. apply A3; [|exact Hm']. intros z Hz. rewrite S1 in Hz. apply in_app_or in Hz as [Hz|Hz]; [auto|]. specialize (S5 z Hz). lia.
Qed.

(** ** Receiver accounting with an arbitrary peer *)
Definition spent (c : chan) : Z := credits (g_sent (c_g c)) + w_cons (c_w c) - zlen (g_written (c_g c)) - zlen (g_ewritten (c_g c)).
Lemma u32_le : forall n, 0 <= n -> 0 <= u32 n <= n.
Proof. intros n H. unfold u32, U32. pose proof (Z.mod_pos_bound n 4294967296 ltac:(lia)). pose proof (Z.mod_le n 4294967296 H ltac:(lia)). lia. Qed.
Lemma spent_nrel : forall k1 k2 c c', nrel k1 k2 c c' -> spent c' = spent c /\ w_cons (c_w c') = w_cons (c_w c).
Proof.
  intros k1 k2 c c' (A1 & A2 & A3 & A4 & A5 & A6 & A7 & A8 & A9 & A10 & A11 & A12 & A13 & new & A14 & A15 & A16).
  unfold spent. rewrite A1, A7, A8, A14, credits_app, (credits_control new A15). lia.
Qed.
Definition nol (c : chan) : Prop := p_ty (c_p c) <> TLarval.
Lemma spent_step : forall c e c', nol c -> 0 <= w_cons (c_w c) -> step c e = Some c' ->
  spent c' <= spent c + (match e with EvRecv (MData d) => if is_open (p_o (c_p c)) then 0 else zlen d | _ => 0 end) /\ 0 <= w_cons (c_w c') /\ nol c'.
Proof.
  intros c e c' Hn Hc E.
  assert (HN : forall k1 k2 x, nrel k1 k2 c x -> spent x <= spent c + 0 /\ 0 <= w_cons (c_w x) /\ nol x).
  { intros k1 k2 x N. destruct (spent_nrel k1 k2 c x N) as [-> ->]. splits; auto; try lia. destruct N as (_ & _ & _ & _ & _ & _ & _ & _ & _ & A10 & _). unfold nol in *. destruct A10 as [->|(-> & _)]; [exact Hn|discriminate]. }
  assert (HR : spent c <= spent c + 0 /\ 0 <= w_cons (c_w c) /\ nol c) by (splits; auto; lia).
  assert (HW : forall x, (p_ty (c_p c) = TOpen -> spent x <= spent c + 0 /\ 0 <= w_cons (c_w x) /\ nol x) -> spent (when_open c x) <= spent c + 0 /\ 0 <= w_cons (c_w (when_open c x)) /\ nol (when_open c x)).
  { intros x Hx. unfold when_open. destruct (ty_open _) eqn:Et; [|exact HR]. apply Hx. now apply ty_open_true. }
  destruct (is_recv e) eqn:Er.
  - destruct e as [| | | | | | | | | | | | | |m]; try discriminate. cbn [step] in E. unfold recv in E.
    destruct (g_freed (c_g c)). { destruct m; try discriminate. injection E as <-. exact HR. }
    destruct m.
    + pose proof (zlen_nonneg _ d) as Zd. unfold channel_input_data in E. destruct (negb _).
      { injection E as <-. splits; auto. destruct (is_open _); lia. }
      destruct (is_open (p_o (c_p c))); cbn [negb] in E.
      * destruct (_ <? _); [injection E as <-; exact HR|].
        destruct (_ <? _); [destruct (_ <? _); [discriminate|]|]; (destruct (_ <? _); [discriminate|]); injection E as <-; exact HR.
      * injection E as <-. unfold spent. redx. pose proof (u32_le (w_cons (c_w c) + zlen d) ltac:(lia)). splits; try lia. exact Hn.
    + unfold channel_input_extended_data in E. destruct (negb _); [injection E as <-; exact HR|].
      destruct (_ && _); [discriminate|]. destruct (_ || _); [injection E as <-; exact HR|]. destruct (_ <? _); [injection E as <-; exact HR|]. injection E as <-. destruct (_ <? _); exact HR.
    + injection E as <-. apply (HN true false), n_ieof.
    + injection E as <-. apply (HN false false), n_oclose. discriminate.
    + unfold channel_input_window_adjust in E. destruct (_ <? _); [discriminate|]. injection E as <-. exact HR.
    + injection E as <-. apply (HN true true), n_eow.
  - replace (match e with EvRecv (MData d) => if is_open (p_o (c_p c)) then 0 else zlen d | _ => 0 end) with 0 by (destruct e; try reflexivity; discriminate).
    destruct (g_freed (c_g c)) eqn:Ef.
    { assert (c' = c) by (destruct e; try discriminate; cbn [step] in E; rewrite Ef in E; congruence). now subst. }
    destruct e; try discriminate; cbn [step] in E; rewrite Ef in E; injection E as <-.
    + apply HW. intros _. unfold channel_handle_rfd. destruct (_ && _); [exact HR|]. destruct (_ <=? _); [exact HR|]. destruct r; [exact HR|exact HR|apply (HN true true), n_read_failed].
    + apply HW. intros _. unfold channel_handle_wfd. destruct (_ || _); [exact HR|]. destruct r; [|exact HR|apply (HN true false), n_write_failed].
      destruct (n <=? 0) eqn:En; [apply (HN true false), n_write_failed|]. cbv zeta. unfold spent. redx. pose proof (zlen_nonneg _ (b_out (c_b c))). rewrite zlen_app, zlen_ztake by lia.
      pose proof (u32_le (w_cons (c_w c) + Z.min n (zlen (b_out (c_b c)))) ltac:(lia)). splits; try lia. exact Hn.
    + apply HW. intros _. unfold channel_handle_efd_write. destruct (_ || _); [exact HR|]. destruct r; [|exact HR|apply (HN true true), n_efd].
      destruct (n <=? 0) eqn:En; [apply (HN true true), n_efd|]. cbv zeta. unfold spent. redx. pose proof (zlen_nonneg _ (b_ext (c_b c))). rewrite zlen_app, zlen_ztake by lia.
      pose proof (u32_le (w_cons (c_w c) + Z.min n (zlen (b_ext (c_b c)))) ltac:(lia)). splits; try lia. exact Hn.
    + apply HW. intros _. unfold channel_handle_efd_read. destruct (_ || _); [exact HR|]. destruct (_ && _); [exact HR|]. destruct r; [|exact HR|apply (HN true true), n_efd]. destruct (is_read _); exact HR.
    + unfold channel_check_window. destruct (_ && _); [|exact HR]. unfold spent. redx. rewrite credits_app, credits_cons. cbn [credit credits map zsum fold_right]. splits; try lia. exact Hn.
    + apply HW. intros _. apply (HN true true), n_pre.
    + unfold channel_output_poll. destruct (negb _); [exact HR|]. destruct (_ || _); [exact HR|]. cbv zeta. set (c1 := if is_closed _ then c else _).
      assert (K : spent c1 <= spent c + 0 /\ 0 <= w_cons (c_w c1) /\ nol c1).
      { unfold c1. destruct (is_closed _); [exact HR|]. unfold channel_output_poll_input_open. destruct (empty _); [destruct (_ && _); [apply (HN true true), n_ibuf|exact HR]|].
        cbv zeta. destruct (_ =? 0); [exact HR|]. unfold spent. redx. rewrite credits_app, credits_cons. cbn [credit credits map zsum fold_right]. splits; try lia. exact Hn. }
      clearbody c1. destruct (_ && _); [|exact K]. unfold channel_output_poll_extended_read. cbv zeta. destruct (_ =? 0); [exact K|].
      destruct K as (K1 & K2 & K3). unfold spent in *. redx. rewrite credits_app, credits_cons. cbn [credit credits map zsum fold_right]. splits; try lia. exact K3.
    + apply (HN true true), n_gc.
    + apply HW. intros _. apply (HN false false), n_force.
    + apply HW. intros _. apply (HN true true), n_read_failed.
    + apply HW. intros _. apply (HN true false), n_write_failed.
    + apply HW. intros _. apply (HN true true), n_detach.
    + apply (HN true true), n_detach.
    + unfold channel_set_fds. destruct (_ && _) eqn:Eg; [|exact HR]. apply andb_true_iff in Eg as [Eg _]. apply andb_true_iff in Eg as [Eg _]. apply ty_larval_true in Eg. contradiction.
Qed.
Lemma spent_run : forall es c c', nol c -> 0 <= w_cons (c_w c) -> run c es = Some c' -> spent c' <= spent c + discarded c es /\ 0 <= w_cons (c_w c').
Proof.
  induction es as [|e es IH]; intros c c' Hn Hc E; cbn [run discarded] in *.
  - injection E as <-. split; [lia|exact Hc].
  - destruct (step c e) as [c1|] eqn:E1; [|discriminate]. destruct (spent_step c e c1 Hn Hc E1) as (A1 & A2 & A3). destruct (IH c1 c' A3 A2 E) as (B1 & B2). split; [lia|exact B2].
Qed.

(** ** Closing *)
Definition clinv (c : chan) : Prop := f_local (c_f c) = false /\
  (p_cr (c_p c) = true -> p_i (c_p c) = HClosed /\ p_o (c_p c) <> HOpen) /\ (p_ty (c_p c) = TLarval -> p_o (c_p c) <> HDrain).
Lemma nrel_cl : forall k1 k2 c c', nrel k1 k2 c c' -> p_i (c_p c) = HClosed /\ p_o (c_p c) <> HOpen -> p_i (c_p c') = HClosed /\ p_o (c_p c') <> HOpen.
Proof.
  intros k1 k2 c c' (A1 & A2 & A3 & A4 & A5 & A6 & A7 & A8 & A9 & A10 & A11 & A12 & _) [H1 H2]. clear - A11 A12 H1 H2.
  split; [intuition congruence|]. intros Q. destruct A12 as [[Q' _]|(_ & _ & H)]; [congruence|]. auto.
Qed.
Lemma oclose_cl : forall c, (p_ty (c_p c) = TLarval -> p_o (c_p c) <> HDrain) -> p_i (c_p (chan_rcvd_oclose c)) = HClosed /\ p_o (c_p (chan_rcvd_oclose c)) <> HOpen /\
  (p_ty (c_p (chan_rcvd_oclose c)) = TLarval -> p_o (c_p (chan_rcvd_oclose c)) <> HDrain).
Proof.
  intros c H0. unfold chan_rcvd_oclose. cbv zeta. set (c1 := if f_local _ then _ else _). assert (K : p_ty (c_p c1) = p_ty (c_p c)) by (unfold c1; destruct (f_local _); reflexivity).
  rewrite <- K in H0. clearbody c1. destruct (ty_larval (p_ty (c_p c1))) eqn:Et; [redx; splits; try reflexivity; intros; discriminate|].
  set (c2 := if is_open (p_o (c_p c1)) then _ else c1).
  assert (K2 : p_o (c_p c2) <> HOpen /\ p_ty (c_p c2) <> TLarval).
  { unfold c2. destruct (is_open (p_o (c_p c1))) eqn:Eo; redx; (split; [|intros Q; rewrite Q in Et; discriminate]); [discriminate|now apply is_open_false]. }
  clearbody c2. destruct K2 as [K2 K3]. unfold chan_shutdown_extended_read, chan_send_eof2.
  destruct (p_i (c_p c2)) eqn:Ei; [| |splits; auto; intros Q; contradiction];
    repeat match goal with |- context [if ?k then _ else _] => destruct k end; redx; (splits; auto; intros Q; contradiction).
Qed.
Lemma ieof_larval : forall c, linv c -> p_ty (c_p c) = TLarval -> p_o (c_p c) <> HDrain -> p_o (c_p (channel_input_ieof c)) <> HDrain.
Proof.
  intros c (HL & _) Ht Ho. destruct (HL Ht) as (_ & _ & L3 & _ & L5 & L6 & _). unfold channel_input_ieof, chan_rcvd_ieof, chan_obuf_empty, chan_ibuf_empty, chan_send_eof2, efd_output_active, chan_shutdown_write.
  cbv zeta. redx. destruct (p_o (c_p c)) eqn:Eo; [|congruence|]; cbn [is_open is_drain]; redx; rewrite L3, L6; cbn [empty is_write is_drain andb negb]; redx; rewrite ?L3, ?Eo; cbn [is_drain andb empty negb];
    repeat match goal with |- context [if ?k then _ else _] => destruct k end; redx; congruence.
Qed.
Lemma clinv_step : forall c e c', clinv c -> linv c -> step c e = Some c' -> clinv c'.
Proof.
  intros c e c' (C1 & C2 & C3) HL E. destruct (flags_step c e c' E) as (G1 & G2 & G3 & G4 & G5). unfold clinv. rewrite G5. split; [exact C1|].
  destruct (is_recv e) eqn:Er.
  - destruct e as [| | | | | | | | | | | | | |m]; try discriminate. cbn [step] in E. unfold recv in E.
    destruct (g_freed (c_g c)). { destruct m; try discriminate. injection E as <-. now split. }
    assert (HS : c_p c' = c_p c -> (p_cr (c_p c') = true -> p_i (c_p c') = HClosed /\ p_o (c_p c') <> HOpen) /\ (p_ty (c_p c') = TLarval -> p_o (c_p c') <> HDrain)) by (intros ->; now split).
    destruct m.
    + apply HS. unfold channel_input_data in E. destruct (negb _); [now injection E as <-|]. destruct (negb _); [now injection E as <-|]. destruct (_ <? _); [now injection E as <-|].
      destruct (_ <? _); [destruct (_ <? _); [discriminate|]|]; (destruct (_ <? _); [discriminate|]); injection E as <-; reflexivity.
    + apply HS. unfold channel_input_extended_data in E. destruct (negb _); [now injection E as <-|].
      destruct (_ && _); [discriminate|]. destruct (_ || _); [now injection E as <-|]. destruct (_ <? _); [now injection E as <-|]. injection E as <-. destruct (_ <? _); reflexivity.
    + injection E as <-. split.
      * intros H. destruct (G2 H) as [Q|Q]; [|discriminate]. apply (nrel_cl true false c); [apply n_ieof|auto].
      * intros Ht. assert (Ht' : p_ty (c_p c) = TLarval). { destruct (n_ieof true c) as (_ & _ & _ & _ & _ & _ & _ & _ & _ & A & _). destruct A as [A|(A & _)]; congruence. }
        apply ieof_larval; auto.
    + injection E as <-. destruct (oclose_cl c C3) as (O1 & O2 & O3). now split.
    + apply HS. unfold channel_input_window_adjust in E. destruct (_ <? _); [discriminate|]. injection E as <-. reflexivity.
    + injection E as <-. split.
      * intros H. destruct (G2 H) as [Q|Q]; [|discriminate]. apply (nrel_cl true false c); [apply n_eow|auto].
      * unfold chan_rcvd_eow. destruct (is_open _); exact C3.
  - assert (Hcr : p_cr (c_p c') = true -> p_cr (c_p c) = true) by (intros H; destruct (G2 H) as [Q|Q]; [exact Q|subst e; discriminate]).
    split.
    + intros H. specialize (C2 (Hcr H)). destruct (step_mv c e c' E Er) as (c1 & M1 & M2).
      assert (K : p_i (c_p c1) = HClosed /\ p_o (c_p c1) <> HOpen) by (destruct M1; try exact C2; now apply (nrel_cl (negb (forces e)) (negb (fails e)) c)).
      destruct M2; exact K.
    + intros Ht. assert (Hf : p_ty (c_p c) = TLarval -> p_o (c_p c') <> HDrain).
      { intros Ht'. specialize (C3 Ht'). destruct (fails e) eqn:Ef.
        - destruct (g_freed (c_g c)) eqn:Eg; destruct e as [|[]| | | | | | | | | | | | |]; try discriminate; cbn [step] in E; rewrite Eg in E; injection E as <-; unfold when_open; rewrite ?Ht'; exact C3.
        - destruct (step_mv c e c' E Er) as (c1 & M1 & M2). rewrite Ef in M1. cbn [negb] in M1.
          assert (K : p_o (c_p c1) <> HDrain).
          { destruct M1; try exact C3. match goal with N : nrel _ _ _ _ |- _ => destruct N as (_ & _ & _ & _ & _ & _ & _ & _ & _ & _ & _ & A12 & A13 & _) end. destruct (A13 eq_refl) as (_ & B & _).
            destruct (p_o (c_p c)) eqn:Eo; [rewrite (B eq_refl); discriminate|congruence|]. destruct A12 as [[A12 _]|(A12 & _)]; congruence. }
          destruct M2; exact K. }
      destruct (step_mv c e c' E Er) as (c1 & M1 & M2). apply Hf.
      assert (K : p_ty (c_p c1) = TLarval) by (destruct M2; exact Ht). destruct M1; try exact K; [|discriminate].
      match goal with N : nrel _ _ _ _ |- _ => destruct N as (_ & _ & _ & _ & _ & _ & _ & _ & _ & A10 & _) end. destruct A10 as [A10|(A10 & _)]; congruence.
Qed.
Lemma inv_run : forall es c c', clinv c -> linv c -> pinv c -> run c es = Some c' -> clinv c' /\ linv c' /\ pinv c'.
Proof.
  induction es as [|e es IH]; intros c c' H1 H2 H3 E; cbn [run] in E; [injection E as <-; now splits|]. destruct (step c e) as [c1|] eqn:E1; [|discriminate].
  apply (IH c1); auto; [exact (clinv_step c e c1 H1 H2 E1)|exact (linv_step c e c1 H2 E1)|exact (pinv_step c e c1 H3 E1)].
Qed.
Lemma cr_run : forall es c c', run c es = Some c' -> p_cr (c_p c') = true -> p_cr (c_p c) = true \/ In MClose (received es).
Proof.
  induction es as [|e es IH]; intros c c' E H; cbn [run] in E; [injection E as <-; now left|]. destruct (step c e) as [c1|] eqn:E1; [|discriminate].
  destruct (IH c1 c' E H) as [Q|Q]; [|right; destruct e; cbn [received]; auto; now right]. destruct (flags_step c e c1 E1) as (_ & G2 & _). destruct (G2 Q) as [Q'|Q']; [now left|]. subst e. right. now left.
Qed.

Lemma dead_send : forall c, p_ty (c_p c) <> TZombie -> p_i (c_p c) = HClosed -> p_o (c_p c) = HClosed -> p_cr (c_p c) = true -> f_local (c_f c) = false ->
  (f_exteof (c_f c) = true -> is_write (f_use (c_f c)) = true -> f_efd (c_f c) = true -> b_ext (c_b c) = []) ->
  g_freed (c_g (let '(c', dead) := chan_is_dead c true in if dead then set_freed c' else c')) = true.
Proof.
  intros c Hz Hi Ho Hcr Hl Hx. unfold chan_is_dead.
  assert (Hex : f_exteof (c_f c) && is_write (f_use (c_f c)) && f_efd (c_f c) && negb (empty (b_ext (c_b c))) = false).
  { destruct (f_exteof (c_f c)), (is_write (f_use (c_f c))), (f_efd (c_f c)); try reflexivity. now rewrite Hx. }
  assert (Hd : (if negb (p_cs (c_p c)) && true then chan_send_close2 c else c) = if p_cs (c_p c) then c else set_cs (send c MClose)).
  { destruct (p_cs (c_p c)) eqn:Ec; cbn [negb andb]; [reflexivity|]. unfold chan_send_close2. rewrite Hi, Ho, Ec. reflexivity. }
  rewrite Hi, Ho. cbn [is_closed andb negb]. rewrite Hex, Hl, Hd. cbn [andb]. rewrite andb_false_r. cbn [andb].
  destruct (p_ty (c_p c)); try congruence; (destruct (p_cs (c_p c)) eqn:Ec; [rewrite Ec, Hcr|redx; rewrite Hcr]; reflexivity).
Qed.
Lemma gc_frees : forall c, p_ty (c_p c) <> TZombie -> p_i (c_p c) = HClosed -> p_o (c_p c) = HClosed -> p_cr (c_p c) = true -> f_local (c_f c) = false ->
  (f_exteof (c_f c) = true -> is_write (f_use (c_f c)) = true -> f_efd (c_f c) = true -> b_ext (c_b c) = []) ->
  g_freed (c_g (channel_gc c true)) = true.
Proof.
  intros c Hz Hi Ho Hcr Hl Hx. unfold channel_gc. destruct (f_detach (c_f c)); [|now apply dead_send].
  assert (Hex : f_exteof (c_f c) && is_write (f_use (c_f c)) && f_efd (c_f c) && negb (empty (b_ext (c_b c))) = false).
  { destruct (f_exteof (c_f c)), (is_write (f_use (c_f c))), (f_efd (c_f c)); try reflexivity. now rewrite Hx. }
  assert (K : exists c1, chan_is_dead c (f_dclose (c_f c)) = (c1, true) /\ (c1 = c \/ c1 = set_cs (send c MClose))).
  { unfold chan_is_dead. rewrite Hi, Ho. cbn [is_closed andb negb]. rewrite Hex, Hl, Hcr.
    destruct (p_cs (c_p c)) eqn:Ec; cbn [negb andb].
    - rewrite Ec, Hcr. destruct (p_ty (c_p c)); try congruence; exists c; split; auto.
    - destruct (f_dclose (c_f c)); cbn [negb andb].
      + unfold chan_send_close2. rewrite Hi, Ho, Ec. cbn [is_closed andb negb]. redx. rewrite Hcr. exists (set_cs (send c MClose)). destruct (p_ty (c_p c)); try congruence; split; auto.
      + exists c. destruct (p_ty (c_p c)); try congruence; split; auto. }
  destruct K as (c1 & -> & K). cbn [negb]. destruct K as [-> | ->]; apply dead_send; auto.
Qed.
