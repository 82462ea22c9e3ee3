From Verif Require Import Base ChanModel ChanSpec ChanProof1 ChanProof2 ChanProof3.

(** ** What a local event does, up to windows *)
Inductive mv (k1 k2 : bool) (c : chan) : chan -> Prop :=
| mv_n c' : nrel k1 k2 c c' -> mv k1 k2 c c'
| mv_read d : p_ty (c_p c) = TOpen -> p_i (c_p c) <> HClosed -> mv k1 k2 c (note_read (set_in c (b_in (c_b c) ++ d)) d)
| mv_write n w : p_ty (c_p c) = TOpen -> p_o (c_p c) <> HClosed ->
    mv k1 k2 c (set_w (set_out (note_written c (ztake n (b_out (c_b c)))) (zdrop n (b_out (c_b c)))) w)
| mv_ewrite n w : p_ty (c_p c) = TOpen -> f_efd (c_f c) = true -> is_write (f_use (c_f c)) = true ->
    mv k1 k2 c (set_w (set_ext (note_ewritten c (ztake n (b_ext (c_b c)))) (zdrop n (b_ext (c_b c)))) w)
| mv_eread d : p_ty (c_p c) = TOpen -> is_read (f_use (c_f c)) = true -> f_efd (c_f c) = true -> (p_i (c_p c) <> HClosed \/ p_es (c_p c) = false) ->
    mv k1 k2 c (note_eread (set_ext c (b_ext (c_b c) ++ d)) d)
| mv_window n w : p_ty (c_p c) = TOpen -> mv k1 k2 c (set_w (send c (MAdjust n)) w)
| mv_data n w : p_ty (c_p c) = TOpen -> p_i (c_p c) <> HClosed -> p_cs (c_p c) = false ->
    mv k1 k2 c (set_w (set_in (send c (MData (ztake n (b_in (c_b c))))) (zdrop n (b_in (c_b c)))) w)
| mv_ext n w : p_ty (c_p c) = TOpen -> is_read (f_use (c_f c)) = true -> p_es (c_p c) = false ->
    mv k1 k2 c (set_w (set_ext (send c (MExt 1 (ztake n (b_ext (c_b c))))) (zdrop n (b_ext (c_b c)))) w)
| mv_setfds efd u tty n w : p_ty (c_p c) = TLarval ->
    mv k1 k2 c (send (set_w (set_tty (set_efd (set_ty c TOpen) efd u) tty) w) (MAdjust n)).

(** The second half of channel_output_poll. *)
Inductive mv1 (c : chan) : chan -> Prop :=
| mv1_refl : mv1 c c
| mv1_ext n w : p_ty (c_p c) = TOpen -> is_read (f_use (c_f c)) = true -> p_es (c_p c) = false ->
    mv1 c (set_w (set_ext (send c (MExt 1 (ztake n (b_ext (c_b c))))) (zdrop n (b_ext (c_b c)))) w).

Lemma mv_refl : forall k1 k2 c, mv k1 k2 c c. Proof. intros. apply mv_n, nrel_refl. Qed.
Lemma mv1_mv : forall k1 k2 c c', mv1 c c' -> mv k1 k2 c c'.
Proof. intros k1 k2 c c' [|n w H1 H2 H3]; [apply mv_refl|now apply mv_ext]. Qed.
Lemma step_mv : forall c e c', step c e = Some c' -> is_recv e = false ->
  exists c1, mv (negb (forces e)) (negb (fails e)) c c1 /\ mv1 c1 c'.
Proof.
  intros c e c' E Er.
  assert (H1 : forall k1 k2 x, mv k1 k2 c x -> exists c1, mv k1 k2 c c1 /\ mv1 c1 x) by (intros k1 k2 x Hx; exists x; split; [exact Hx|apply mv1_refl]).
  assert (HO : forall k1 k2 x, (p_ty (c_p c) = TOpen -> mv k1 k2 c x) -> exists c1, mv k1 k2 c c1 /\ mv1 c1 (when_open c x)).
  { intros k1 k2 x Hx. apply H1. unfold when_open. destruct (ty_open _) eqn:Et; [|apply mv_refl]. apply Hx. now apply ty_open_true. }
  destruct (g_freed (c_g c)) eqn:Ef.
  { assert (c' = c) by (destruct e; try discriminate; cbn [step] in E; rewrite Ef in E; congruence). subst. apply H1, mv_refl. }
  destruct e; try discriminate; cbn [step] in E; rewrite Ef in E; injection E as <-.
  - apply HO. intros Ht. unfold channel_handle_rfd. destruct (_ && _) eqn:Eg; [apply mv_refl|]. destruct (_ <=? _); [apply mv_refl|]. destruct r; [|apply mv_refl|apply mv_n, n_read_failed].
    apply mv_read; [exact Ht|]. apply andb_false_iff in Eg as [Eg|Eg]; apply negb_false_iff in Eg.
    + unfold forced in Eg. apply andb_true_iff in Eg as [_ Eg]. apply negb_true_iff in Eg. now apply is_closed_false.
    + apply andb_true_iff in Eg as [Eg _]. apply andb_true_iff in Eg as [Eg _]. apply is_open_true in Eg. congruence.
  - apply HO. intros Ht. unfold channel_handle_wfd. destruct (_ || _) eqn:Eg; [apply mv_refl|]. apply orb_false_iff in Eg as [Eg _]. apply is_closed_false in Eg.
    destruct r; [|apply mv_refl|apply mv_n, n_write_failed]. cbn [fails forces]. destruct (n <=? 0); [apply mv_n, n_write_failed|]. cbv zeta. exact (mv_write _ _ c (Z.min n (zlen (b_out (c_b c)))) _ Ht Eg).
  - apply HO. intros Ht. unfold channel_handle_efd_write. destruct (_ || _) eqn:Eg; [apply mv_refl|].
    apply orb_false_iff in Eg as [Eg _]. apply orb_false_iff in Eg as [Eg _]. apply orb_false_iff in Eg as [Eg1 Eg2]. apply negb_false_iff in Eg1, Eg2.
    destruct r; [|apply mv_refl|apply mv_n, n_efd]. destruct (n <=? 0); [apply mv_n, n_efd|]. cbv zeta. exact (mv_ewrite _ _ c (Z.min n (zlen (b_ext (c_b c)))) _ Ht Eg1 Eg2).
  - apply HO. intros Ht. unfold channel_handle_efd_read. destruct (_ || _) eqn:Eo; [apply mv_refl|]. apply orb_false_iff in Eo as [Eo _]. apply negb_false_iff in Eo.
    destruct (_ && _) eqn:Eg; [apply mv_refl|]. destruct r; [|apply mv_refl|apply mv_n, n_efd].
    destruct (is_read _) eqn:Ei; [|apply mv_refl]. apply mv_eread; auto. apply andb_false_iff in Eg as [Eg|Eg]; apply negb_false_iff in Eg.
    + left. unfold forced in Eg. apply andb_true_iff in Eg as [_ Eg]. apply negb_true_iff in Eg. now apply is_closed_false.
    + right. apply andb_true_iff in Eg as [Eg _]. apply andb_true_iff in Eg as [_ Eg]. now apply negb_true_iff.
  - apply H1. unfold channel_check_window. destruct (ty_open _) eqn:Et; cbn [andb]; [|apply mv_refl]. destruct (_ && _); [|apply mv_refl]. unfold set_local. apply mv_window. now apply ty_open_true.
  - apply HO. intros Ht. apply mv_n, n_pre.
  - unfold channel_output_poll. destruct (ty_open (p_ty (c_p c))) eqn:Et; cbn [negb]; [|apply H1, mv_refl]. apply ty_open_true in Et.
    destruct (p_cs (c_p c)) eqn:Ecs; cbn [orb]; [apply H1, mv_refl|]. destruct (p_cr (c_p c)); [apply H1, mv_refl|]. cbv zeta.
    set (c1 := if is_closed _ then c else _). exists c1. split.
    + unfold c1. destruct (is_closed _) eqn:Ec; [apply mv_refl|]. apply is_closed_false in Ec. unfold channel_output_poll_input_open. destruct (empty _).
      * destruct (_ && _); [apply mv_n, n_ibuf|apply mv_refl].
      * cbv zeta. destruct (_ =? 0); [apply mv_refl|]. unfold set_rw. now apply mv_data.
    + assert (K : p_ty (c_p c1) = TOpen) by (unfold c1; destruct (is_closed _); [exact Et|now apply ty_poll_in]). clearbody c1.
      destruct (_ && _) eqn:Eb; [|apply mv1_refl]. apply andb_true_iff in Eb as [Eb1 Eb2]. apply negb_true_iff in Eb1. unfold channel_output_poll_extended_read. cbv zeta.
      destruct (_ =? 0); [apply mv1_refl|]. unfold set_rw. now apply mv1_ext.
  - apply H1, mv_n, n_gc.
  - apply HO. intros Ht. apply mv_n, n_force.
  - apply HO. intros Ht. apply mv_n, n_read_failed.
  - apply HO. intros Ht. apply mv_n, n_write_failed.
  - apply HO. intros Ht. apply mv_n, n_detach.
  - apply H1, mv_n, n_detach.
  - apply H1. unfold channel_set_fds. destruct (_ && _) eqn:Eg; [|apply mv_refl]. apply andb_true_iff in Eg as [Eg _]. apply andb_true_iff in Eg as [Eg _]. apply ty_larval_true in Eg.
    cbv zeta. unfold set_local. now apply mv_setfds.
Qed.

(** ** Streams at the sending end *)
Lemma stream_app : forall x y, stream (x ++ y) = stream x ++ stream y. Proof. intros. apply flat_map_app. Qed.
Lemma estream_app : forall x y, estream (x ++ y) = estream x ++ estream y. Proof. intros. apply flat_map_app. Qed.
Lemma stream_control : forall l, Forall control l -> stream l = [].
Proof. induction 1 as [|m l H _ IH]; [reflexivity|]. cbn. fold (stream l). rewrite IH. destruct H as [-> | [-> | ->]]; reflexivity. Qed.
Lemma estream_control : forall l, Forall control l -> estream l = [].
Proof. induction 1 as [|m l H _ IH]; [reflexivity|]. cbn. fold (estream l). rewrite IH. destruct H as [-> | [-> | ->]]; reflexivity. Qed.
Lemma prefix_refl : forall A (x : list A), prefix x x. Proof. intros A x. exists []. now rewrite app_nil_r. Qed.
Lemma prefix_ext : forall A (x y z : list A), prefix x y -> prefix x (y ++ z). Proof. intros A x y z [u ->]. exists (u ++ z). now rewrite app_assoc. Qed.
Lemma prefix_app : forall A (x y z : list A), prefix (x ++ y) z -> prefix x z. Proof. intros A x y z [u ->]. exists (y ++ u). now rewrite app_assoc. Qed.
Lemma take_drop : forall n (l : list Z), ztake n l ++ zdrop n l = l. Proof. intros. apply firstn_skipn. Qed.

Definition sinv (c : chan) : Prop :=
  prefix (stream (g_sent (c_g c))) (g_read (c_g c)) /\
  (p_i (c_p c) <> HClosed -> g_read (c_g c) = stream (g_sent (c_g c)) ++ b_in (c_b c)) /\
  (if is_read (f_use (c_f c)) then g_eread (c_g c) = estream (g_sent (c_g c)) ++ b_ext (c_b c)
   else estream (g_sent (c_g c)) = [] /\ g_eread (c_g c) = []).

Lemma sinv_nrel : forall k1 k2 c c', sinv c -> nrel k1 k2 c c' -> sinv c'.
Proof.
  intros k1 k2 c c' (S1 & S2 & S3) (A1 & A2 & A3 & A4 & A5 & A6 & A7 & A8 & A9 & A10 & A11 & A12 & A13 & new & A14 & A15 & A16).
  unfold sinv. rewrite A14, stream_app, estream_app, (stream_control new A15), (estream_control new A15), !app_nil_r, A5, A6, A3, A2. splits; auto.
  intros H. destruct A11 as [A11|[A11 A11']]; [contradiction|]. rewrite A11'. now apply S2.
Qed.
Lemma stream1 : forall m, stream [m] = data_of m. Proof. intros. cbn. apply app_nil_r. Qed.
Lemma estream1 : forall m, estream [m] = ext_of m. Proof. intros. cbn. apply app_nil_r. Qed.
Lemma sinv_mv : forall k1 k2 c c', sinv c -> linv c -> mv k1 k2 c c' -> sinv c'.
Proof.
  intros k1 k2 c c' HS HL M. pose proof HS as (S1 & S2 & S3). destruct M as [c' N|d Ht Hi|n w Ht Ho|n w Ht He Hw|d Ht Hr He Hes|n w Ht|n w Ht Hi Hc|n w Ht Hr He|efd u tty n w Ht].
  - now apply (sinv_nrel k1 k2 c).
  - unfold sinv. redx. splits; auto; [now apply prefix_ext|]. intros _. rewrite (S2 Hi). now rewrite app_assoc.
  - exact HS.
  - unfold sinv. redx. splits; auto. assert (Hr : is_read (f_use (c_f c)) = false) by (destruct (f_use (c_f c)); (reflexivity || discriminate)). rewrite Hr in *. exact S3.
  - unfold sinv. redx. rewrite Hr in *. splits; auto. rewrite S3. now rewrite app_assoc.
  - unfold sinv. redx. rewrite stream_app, estream_app, stream1, estream1. cbn [data_of ext_of]. rewrite !app_nil_r. exact HS.
  - unfold sinv. redx. rewrite stream_app, estream_app, stream1, estream1. cbn [data_of ext_of]. rewrite !app_nil_r, <- !app_assoc, take_drop.
    pose proof (S2 Hi) as S2'. splits; auto. rewrite S2'. exists (zdrop n (b_in (c_b c))). now rewrite <- app_assoc, take_drop.
  - unfold sinv. redx. rewrite stream_app, estream_app, stream1, estream1. cbn [data_of ext_of]. rewrite !app_nil_r. rewrite Hr in *. splits; auto. now rewrite <- app_assoc, take_drop.
  - destruct HL as (HL & _). destruct (HL Ht) as (_ & _ & _ & L4 & _ & L6 & L7 & _). rewrite L6 in S3. cbn [is_read] in S3. destruct S3 as [S3 S4].
    unfold sinv. redx. rewrite stream_app, estream_app, stream1, estream1. cbn [data_of ext_of]. rewrite !app_nil_r. splits; auto. destruct (is_read u); [|now split]. now rewrite S4, S3, L4.
Qed.
Lemma linv_mv : forall k1 k2 c c', linv c -> mv k1 k2 c c' -> linv c'.
Proof.
  intros k1 k2 c c' HL M. destruct M; try (apply not_larval; assumption); [now apply (nrel_linv k1 k2 c)|]. now apply not_larval.
Qed.
Lemma sinv_recv : forall c m c', sinv c -> recv c m = Some c' -> sinv c'.
Proof.
  intros c m c' HS E. unfold recv in E. destruct (g_freed (c_g c)). { destruct m; try discriminate. now injection E as <-. }
  pose proof HS as (S1 & S2 & S3). destruct m.
  - unfold channel_input_data in E. destruct (negb _); [now injection E as <-|]. destruct (negb _); [now injection E as <-|]. destruct (_ <? _); [now injection E as <-|].
    destruct (_ <? _); [destruct (_ <? _); [discriminate|]|]; (destruct (_ <? _); [discriminate|]); injection E as <-; exact HS.
  - unfold channel_input_extended_data in E. destruct (negb _); [now injection E as <-|].
    destruct (_ && _); [discriminate|]. destruct (_ || _) eqn:Eo; [now injection E as <-|]. destruct (_ <? _); [now injection E as <-|].
    injection E as <-. destruct (_ <? _); [exact HS|]. apply orb_false_iff in Eo as [Eo _]. apply orb_false_iff in Eo as [_ Eo]. apply negb_false_iff in Eo.
    unfold sinv. redx. assert (Hr : is_read (f_use (c_f c)) = false) by (destruct (f_use (c_f c)); (reflexivity || discriminate)). rewrite Hr in *. auto.
  - injection E as <-. apply (sinv_nrel true false c); [exact HS|apply n_ieof].
  - injection E as <-. apply (sinv_nrel false false c); [exact HS|apply n_oclose; discriminate].
  - unfold channel_input_window_adjust in E. destruct (_ <? _); [discriminate|]. injection E as <-. exact HS.
  - injection E as <-. apply (sinv_nrel true true c); [exact HS|apply n_eow].
Qed.
Lemma sinv_step : forall c e c', sinv c -> linv c -> step c e = Some c' -> sinv c'.
Proof.
  intros c e c' HS HL E. destruct (is_recv e) eqn:Er.
  - destruct e; try discriminate. now apply (sinv_recv c m).
  - destruct (step_mv c e c' E Er) as (c1 & M1 & M2). exact (sinv_mv _ _ c1 c' (sinv_mv _ _ c c1 HS HL M1) (linv_mv _ _ c c1 HL M1) (mv1_mv true true _ _ M2)).
Qed.

(** ** Streams at the receiving end; [R] are the messages received *)
Definition tinv (c : chan) (R : list wmsg) : Prop :=
  (p_o (c_p c) = HOpen -> stream R = g_written (c_g c) ++ b_out (c_b c)) /\
  (p_o (c_p c) = HDrain -> prefix (g_written (c_g c) ++ b_out (c_b c)) (stream R)) /\
  prefix (g_written (c_g c)) (stream R) /\
  (is_write (f_use (c_f c)) = true -> f_efd (c_f c) = true -> estream R = g_ewritten (c_g c) ++ b_ext (c_b c)) /\
  prefix (g_ewritten (c_g c)) (estream R) /\
  (p_ty (c_p c) = TLarval -> stream R = [] /\ estream R = []).

Lemma tinv_nrel : forall k1 k2 c c' R, tinv c R -> nrel k1 k2 c c' -> tinv c' R.
Proof.
  intros k1 k2 c c' R (T1 & T2 & T3 & T4 & T5 & T6) (A1 & A2 & A3 & A4 & A5 & A6 & A7 & A8 & A9 & A10 & A11 & A12 & A13 & _).
  unfold tinv. rewrite A7, A8, A3, A2. splits; auto.
  - intros H. destruct A12 as [[A12 _]|(B1 & B2 & B3)]; [congruence|]. rewrite B2. apply T1, B3, H.
  - intros H. destruct A12 as [[A12 _]|(B1 & B2 & B3)]; [congruence|]. rewrite B2. destruct (p_o (c_p c)) eqn:Eo; [|now apply T2|congruence]. rewrite (T1 eq_refl). apply prefix_refl.
  - intros Hw He. apply T4; [exact Hw|]. destruct A9; congruence.
  - intros Ht. destruct A10 as [A10|(A10 & _)]; [|congruence]. apply T6. congruence.
Qed.
Lemma tinv_mv : forall k1 k2 c c' R, tinv c R -> linv c -> mv k1 k2 c c' -> tinv c' R.
Proof.
  intros k1 k2 c c' R HT HL M. pose proof HT as (T1 & T2 & T3 & T4 & T5 & T6).
  destruct M as [c' N|d Ht Hi|n w Ht Ho|n w Ht He Hw|d Ht Hr He Hes|n w Ht|n w Ht Hi Hc|n w Ht Hr He|efd u tty n w Ht]; try exact HT.
  - now apply (tinv_nrel k1 k2 c).
  - assert (P : prefix (g_written (c_g c) ++ b_out (c_b c)) (stream R)).
    { destruct (p_o (c_p c)) eqn:Eo; [rewrite (T1 eq_refl); apply prefix_refl|now apply T2|congruence]. }
    unfold tinv. redx. rewrite <- !app_assoc, take_drop. splits; auto.
    rewrite <- (take_drop n (b_out (c_b c))), app_assoc in P. now apply prefix_app in P.
  - unfold tinv. redx. rewrite <- !app_assoc, take_drop. splits; auto.
    rewrite (T4 Hw He). exists (zdrop n (b_ext (c_b c))). now rewrite <- app_assoc, take_drop.
  - assert (Hw : is_write (f_use (c_f c)) = false) by (destruct (f_use (c_f c)); (reflexivity || discriminate)).
    unfold tinv. redx. splits; auto. intros Q. congruence.
  - assert (Hw : is_write (f_use (c_f c)) = false) by (destruct (f_use (c_f c)); (reflexivity || discriminate)).
    unfold tinv. redx. splits; auto. intros Q. congruence.
  - destruct HL as (HL & _). destruct (HL Ht) as (_ & _ & L3 & L4 & _ & _ & _ & L8 & L9). destruct (T6 Ht) as [R1 R2].
    unfold tinv. redx. rewrite R1, R2, L8, L9, L4, L3. splits; auto; try apply prefix_refl; intros; apply prefix_refl.
Qed.
Lemma tinv_more : forall c R m, tinv c R -> data_of m = [] -> ext_of m = [] -> tinv c (R ++ [m]).
Proof.
  intros c R m H H1 H2. unfold tinv. rewrite stream_app, estream_app, stream1, estream1, H1, H2, !app_nil_r. exact H.
Qed.
Lemma zlen0 : forall (l : list Z), zlen l <= 0 -> l = [].
Proof. intros [|x l] H; [reflexivity|]. rewrite zlen_cons in H. pose proof (zlen_nonneg _ l). lia. Qed.
Lemma tinv_recv : forall c R m c', tinv c R -> linv c -> rpre c -> size m <= w_lw (c_w c) -> size m <= w_lpk (c_w c) ->
  (forall k d, m = MExt k d -> k = 1) -> recv c m = Some c' -> tinv c' (R ++ [m]).
Proof.
  intros c R m c' HT HL (P1 & P2 & P3) Hw Hp Hk E. unfold recv in E.
  destruct (g_freed (c_g c)). { destruct m; try discriminate. injection E as <-. now apply tinv_more. }
  pose proof HT as (T1 & T2 & T3 & T4 & T5 & T6). pose proof (zlen_nonneg _ (b_out (c_b c))) as Zo. pose proof (zlen_nonneg _ (b_ext (c_b c))) as Ze. destruct m.
  - unfold size in Hw, Hp. cbn [data_of ext_of] in Hw, Hp. rewrite zlen_nil, Z.add_0_r in Hw, Hp.
    unfold channel_input_data in E. destruct (ty_open (p_ty (c_p c))) eqn:Et; cbn [negb] in E.
    + apply ty_open_true in Et. destruct (is_open (p_o (c_p c))) eqn:Eo; cbn [negb] in E.
      * apply is_open_true in Eo. replace (w_lpk (c_w c) <? zlen d) with false in E by lia. replace (w_lw (c_w c) <? zlen d) with false in E by lia.
        replace (SSHBUF_SIZE_MAX <? _) with false in E by (unfold inb in P3; redx; destruct (is_write _); lia). injection E as <-.
        unfold tinv. redx. rewrite stream_app, estream_app, stream1, estream1. cbn [data_of ext_of]. rewrite app_nil_r.
        pose proof (T1 Eo) as T1'. splits; auto.
        -- intros _. now rewrite T1', app_assoc.
        -- intros Q. congruence.
        -- now apply prefix_ext.
        -- intros Q. congruence.
      * apply is_open_false in Eo. injection E as <-. unfold tinv. redx. rewrite stream_app, estream_app, stream1, estream1. cbn [data_of ext_of]. rewrite app_nil_r. splits; auto.
        -- intros Q. contradiction.
        -- intros Q. now apply prefix_ext, T2.
        -- now apply prefix_ext.
        -- intros Q. congruence.
    + injection E as <-. destruct HL as (HL & Hz & Ha). destruct (p_ty (c_p c)) eqn:Et'; try discriminate; [|destruct (Ha eq_refl) as (_ & Ha2 & _)|congruence].
      * destruct (HL Et') as (L1 & _). rewrite L1 in Hw. apply zlen0 in Hw. subst. now apply tinv_more.
      * unfold tinv. rewrite stream_app, estream_app, stream1, estream1. cbn [data_of ext_of]. rewrite app_nil_r, Ha2. splits; auto; try discriminate.
        -- now apply prefix_ext.
        -- congruence.
  - specialize (Hk code d eq_refl). subst code. unfold size in Hw, Hp. cbn [data_of ext_of] in Hw, Hp. rewrite zlen_nil, Z.add_0_l in Hw, Hp.
    assert (HX : (is_write (f_use (c_f c)) = true -> f_efd (c_f c) = true -> False) -> p_ty (c_p c) <> TLarval -> tinv c (R ++ [MExt 1 d])).
    { intros H H'. unfold tinv. rewrite stream_app, estream_app, stream1, estream1. cbn [data_of ext_of]. rewrite app_nil_r. splits; auto.
      - intros Q1 Q2. now elim H.
      - now apply prefix_ext.
      - intros Q. contradiction. }
    unfold channel_input_extended_data in E. destruct (ty_open (p_ty (c_p c))) eqn:Et; cbn [negb] in E.
    + apply ty_open_true in Et. destruct (_ && _); [discriminate|].
      destruct (f_efd (c_f c)) eqn:Ee; cbn [negb orb] in E; [|injection E as <-; apply HX; congruence].
      destruct (is_write (f_use (c_f c))) eqn:Eu; cbn [negb orb] in E; [|injection E as <-; apply HX; congruence].
      replace (1 =? 1) with true in E by reflexivity. cbn [negb orb] in E. replace (w_lw (c_w c) <? zlen d) with false in E by lia.
      replace (SSHBUF_SIZE_MAX <? _) with false in E by (unfold inb in P3; rewrite Eu in P3; lia). injection E as <-.
      unfold tinv. redx. rewrite stream_app, estream_app, stream1, estream1. cbn [data_of ext_of]. rewrite app_nil_r. pose proof (T4 eq_refl eq_refl) as T4'. splits; auto.
      * intros _ _. now rewrite T4', app_assoc.
      * now apply prefix_ext.
      * intros Q. congruence.
    + injection E as <-. destruct HL as (HL & Hz & Ha). destruct (p_ty (c_p c)) eqn:Et'; try discriminate; [|destruct (Ha eq_refl) as (_ & _ & Ha2)|congruence].
      * destruct (HL Et') as (L1 & _). rewrite L1 in Hw. apply zlen0 in Hw. subst. now apply tinv_more.
      * apply HX; congruence.
  - injection E as <-. apply tinv_more; auto. apply (tinv_nrel true false c); [exact HT|apply n_ieof].
  - injection E as <-. apply tinv_more; auto. apply (tinv_nrel false false c); [exact HT|apply n_oclose; discriminate].
  - unfold channel_input_window_adjust in E. destruct (_ <? _); [discriminate|]. injection E as <-. apply tinv_more; auto.
  - injection E as <-. apply tinv_more; auto. apply (tinv_nrel true true c); [exact HT|apply n_eow].
Qed.
