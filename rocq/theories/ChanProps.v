(** C25, C26 and C27. *)
From Verif Require Import Base ChanModel ChanSpec ChanProof1 ChanProof2 ChanProof3 ChanProof4 ChanProof5 ChanProof6.

(** ** C25: flow control *)
(** Whatever the peer does, no more data is sent than it has granted, and no
    packet is larger than it accepts. *)
Theorem C25_sender : forall x es c, fresh x -> u32v (w_rw (c_w x)) -> 0 <= w_rmax (c_w x) -> Forall ok_ev es -> run x es = Some c ->
  volume (g_sent (c_g c)) <= w_rw (c_w x) + credits (received es) /\
  (forall m, In m (g_sent (c_g c)) -> size m <= w_rmax (c_w x)).
Proof.
  intros x es c Fx Hu Hm F E. destruct (fresh_inv x Fx) as (_ & _ & _ & _ & _ & S0 & _).
  destruct (sender_run es x c Hu Hm F E) as (A1 & A2 & A3). rewrite S0 in *. cbn [volume map zsum fold_right] in A1. unfold u32v in A2.
  split; [lia|]. apply A3. intros m [].
Qed.
(** Whatever the peer does, it is granted no more than the application consumed
    (or than was thrown away because the application had closed its side). *)
Theorem C25_receiver : forall rw rmax lw lpk f es c, run (open_chan rw rmax lw lpk f) es = Some c ->
  credits (g_sent (c_g c)) <= zlen (g_written (c_g c)) + zlen (g_ewritten (c_g c)) + discarded (open_chan rw rmax lw lpk f) es.
Proof.
  intros rw rmax lw lpk f es c E. destruct (spent_run es (open_chan rw rmax lw lpk f) c) as (A & B); [discriminate|cbn; lia|exact E|].
  unfold spent at 2 in A. cbn [open_chan c_g c_w g_sent g_written g_ewritten w_cons credits map zsum fold_right] in A. rewrite zlen_nil in A. unfold spent in A. lia.
Qed.
(** Data handed to the application fits the advertised packet size, and exceeds
    the window by a tenth of its maximum at most; otherwise it is dropped or the
    connection ends. *)
Theorem C25_accept : forall c d c', u32v (w_lw (c_w c)) -> u32v (w_exc (c_w c)) -> zlen d < 4294967296 ->
  channel_input_data c d = Some c' -> b_out (c_b c') <> b_out (c_b c) ->
  b_out (c_b c') = b_out (c_b c) ++ d /\ zlen d <= w_lpk (c_w c) /\ zlen (b_out (c_b c')) <= SSHBUF_SIZE_MAX /\
  (zlen d <= w_lw (c_w c) \/ w_exc (c_w c') <= w_lmax (c_w c) / 10 /\ w_lw (c_w c') = 0) /\
  (zlen d <= w_lw (c_w c) -> w_lw (c_w c') = w_lw (c_w c) - zlen d).
Proof.
  intros c d c' Hl Hx Hd E Hne. unfold u32v in *. pose proof (zlen_nonneg _ d) as Zd. unfold channel_input_data in E. cbv zeta beta in E.
  destruct (negb _); [injection E as <-; contradiction|]. destruct (negb _); [injection E as <-; elim Hne; reflexivity|].
  destruct (w_lpk (c_w c) <? zlen d) eqn:E1; [injection E as <-; contradiction|]. destruct (w_lw (c_w c) <? zlen d) eqn:E2.
  - destruct (w_lmax (c_w c) / 10 <? _) eqn:E3; [discriminate|]. destruct (SSHBUF_SIZE_MAX <? _) eqn:E4; [discriminate|]. injection E as <-. redx. cbn [set_local set_w c_b] in E4. rewrite zlen_app. splits; auto; try lia.
  - destruct (SSHBUF_SIZE_MAX <? _) eqn:E4; [discriminate|]. injection E as <-. redx. cbn [set_local set_w c_b] in E4. rewrite zlen_app. rewrite u32_id by (unfold U32; lia). splits; auto; try lia.
Qed.
(** Two such ends never disconnect each other, whatever the schedule; what is
    buffered for the application never exceeds the advertised window; and what
    the sender may still send is always covered by it. *)
Theorem C25_pair : forall x y es, fresh x -> fresh y -> agreed x y -> agreed y x -> Forall okpe es ->
  exists s, prun (start x y) es = Some s /\
    zlen (b_out (c_b (b s))) <= w_lmax (c_w (b s)) /\ zlen (b_out (c_b (a s))) <= w_lmax (c_w (a s)) /\
    w_rw (c_w (a s)) + volume (skipn (nb s) (g_sent (c_g (a s)))) <= w_lw (c_w (b s)) /\
    w_rw (c_w (b s)) + volume (skipn (na s) (g_sent (c_g (b s)))) <= w_lw (c_w (a s)).
Proof.
  intros x y es Fx Fy A B F. destruct (Pinv_run es (start x y) (Pinv_start x y Fx Fy A B) F) as (s & E & [P Q]). exists s. split; [exact E|].
  destruct P as (_ & _ & _ & _ & _ & _ & _ & (P1 & (P2 & P3 & P4) & _ & _ & _ & _ & P7) & _).
  destruct Q as (_ & _ & _ & _ & _ & _ & _ & (Q1 & (Q2 & Q3 & Q4) & _ & _ & _ & _ & Q7) & _).
  pose proof (credits_nonneg _ P7). pose proof (credits_nonneg _ Q7). unfold inb in *.
  pose proof (zlen_nonneg _ (b_ext (c_b (a s)))). pose proof (zlen_nonneg _ (b_ext (c_b (b s)))).
  splits; try lia; [destruct (is_write (f_use (c_f (b s))))|destruct (is_write (f_use (c_f (a s))))]; lia.
Qed.

(** ** C26: streams *)
Theorem C26_prefix : forall x y es, fresh x -> fresh y -> agreed x y -> agreed y x -> Forall okpe es ->
  exists s, prun (start x y) es = Some s /\
    prefix (g_written (c_g (b s))) (g_read (c_g (a s))) /\ prefix (g_written (c_g (a s))) (g_read (c_g (b s))) /\
    prefix (g_ewritten (c_g (b s))) (g_eread (c_g (a s))) /\ prefix (g_ewritten (c_g (a s))) (g_eread (c_g (b s))).
Proof.
  intros x y es Fx Fy A B F. destruct (Pinv_run es (start x y) (Pinv_start x y Fx Fy A B) F) as (s & E & [P Q]). exists s. split; [exact E|].
  assert (G : forall u v n k, dinv u v n k -> prefix (g_written (c_g v)) (g_read (c_g u)) /\ prefix (g_ewritten (c_g v)) (g_eread (c_g u))).
  { intros u v n k (_ & _ & _ & _ & _ & _ & _ & _ & (S1 & _ & S3) & (_ & _ & T3 & _ & T5 & _) & _).
    assert (TR : forall (p q r : list Z), prefix p q -> prefix q r -> prefix p r) by (intros p q r [z1 ->] [z2 ->]; exists (z1 ++ z2); now rewrite app_assoc).
    assert (PF : prefix (stream (firstn n (g_sent (c_g u)))) (stream (g_sent (c_g u)))) by (exists (stream (skipn n (g_sent (c_g u)))); now rewrite <- stream_app, firstn_skipn).
    assert (PE : prefix (estream (firstn n (g_sent (c_g u)))) (estream (g_sent (c_g u)))) by (exists (estream (skipn n (g_sent (c_g u)))); now rewrite <- estream_app, firstn_skipn).
    split; [exact (TR _ _ _ T3 (TR _ _ _ PF S1))|]. apply (TR _ _ _ T5), (TR _ _ _ PE). destruct (is_read (f_use (c_f u))).
    - rewrite S3. eexists. reflexivity.
    - destruct S3 as [-> ->]. apply prefix_refl. }
  destruct (G _ _ _ _ P). destruct (G _ _ _ _ Q). now splits.
Qed.

Lemma Kinv_run : forall es s s', Pinv s -> kinv (a s) (b s) (firstn (nb s) (g_sent (c_g (a s)))) -> Forall okpe es -> Forall careful es -> prun s es = Some s' ->
  Pinv s' /\ kinv (a s') (b s') (firstn (nb s') (g_sent (c_g (a s')))).
Proof.
  induction es as [|e es IH]; intros s s' P K F G E; cbn [prun] in E; [injection E as <-; now split|].
  inversion F as [|? ? F1 F2]; subst. inversion G as [|? ? G1 G2]; subst. destruct (Pinv_step s e P F1) as (s1 & E1 & P1). rewrite E1 in E. apply (IH s1); auto. clear IH E F F2 G G2.
  destruct P as [PA PB]. pose proof PA as (A1 & A2 & A3 & A4 & A5 & A6 & A7 & A8 & A9 & A10 & _). destruct K as (K1 & K2 & K3). destruct e as [e|e| |]; cbn [pstep careful okpe] in *.
  - destruct (is_recv e) eqn:Er; [injection E1 as <-; now splits|]. destruct (step (a s) e) as [c|] eqn:Es; [|discriminate]. injection E1 as <-. cbn [a b na nb].
    pose proof A8 as (_ & _ & U & M & _). destruct (step_seff (a s) e c U ltac:(lia) (okp_ok e F1 Er) Es) as (new & S1 & _). unfold kinv. splits; auto.
    + exact (k1_local (a s) e c K1 A9 A1 Er G1 Es).
    + rewrite S1, firstn_more by exact A7. exact K3.
  - destruct (is_recv e) eqn:Er; [injection E1 as <-; now splits|]. destruct (step (b s) e) as [c|] eqn:Es; [|discriminate]. injection E1 as <-. cbn [a b na nb].
    destruct (k2_local (b s) e c _ (conj K2 K3) Er G1 Es). unfold kinv. now splits.
  - destruct (nth_error (g_sent (c_g (b s))) (na s)) as [m|] eqn:En; [|injection E1 as <-; now splits]. destruct (step (a s) (EvRecv m)) as [c|] eqn:Es; [|discriminate]. injection E1 as <-. cbn [a b na nb].
    pose proof A8 as (_ & _ & U & M & _). destruct (dinv_credit (a s) (b s) _ _ m PA En) as (Hc & _).
    destruct (step_seff (a s) (EvRecv m) c U ltac:(lia)) as (new & S1 & _); [destruct m; try exact I; exact Hc|exact Es|]. unfold kinv. splits; auto.
    + exact (k1_recv (a s) (b s) _ _ m c PA PB (conj K1 (conj K2 K3)) En Es).
    + rewrite S1, firstn_more by exact A7. exact K3.
  - destruct (nth_error (g_sent (c_g (a s))) (nb s)) as [m|] eqn:En; [|injection E1 as <-; now splits]. destruct (step (b s) (EvRecv m)) as [c|] eqn:Es; [|discriminate]. injection E1 as <-. cbn [a b na nb].
    destruct (k2_recv (a s) (b s) _ _ m c PA (conj K1 (conj K2 K3)) En Es). unfold kinv. now splits.
Qed.

(** Unless one end gives up on purpose (forced close at the sender; forced close
    or write error at the receiver), the receiver only ever sees EOF after it
    has been handed every byte the sender read. *)
Theorem C26_complete : forall x y es s, fresh x -> fresh y -> agreed x y -> agreed y x -> Forall okpe es -> Forall careful es ->
  prun (start x y) es = Some s -> p_er (c_p (b s)) = true ->
  g_written (c_g (b s)) ++ b_out (c_b (b s)) = g_read (c_g (a s)).
Proof.
  intros x y es s Fx Fy A B F G E Her.
  assert (K0 : kinv x y (firstn 0 (g_sent (c_g x)))).
  { destruct (fresh_inv x Fx) as (_ & _ & _ & _ & _ & X6 & _). destruct (fresh_inv y Fy) as (_ & _ & _ & _ & _ & _ & Y7 & Y8 & _ & _ & _ & Y12 & _).
    unfold kinv. rewrite X6, Y7, Y8. splits; auto; try discriminate. intros []. }
  destruct (Kinv_run es (start x y) s (Pinv_start x y Fx Fy A B) K0 F G E) as ([PA _] & K1 & K2 & K3). rewrite (K3 Her).
  pose proof PA as (D1 & _ & _ & _ & _ & _ & _ & _ & _ & _ & D11 & _). specialize (D11 Her).
  assert (HI : In MEof (g_sent (c_g (a s)))) by (rewrite <- (firstn_skipn (nb s)); apply in_or_app; now left).
  rewrite (K1 HI). rewrite <- (firstn_skipn (nb s) (g_sent (c_g (a s)))) at 2. rewrite stream_app.
  assert (Hs : stream (skipn (nb s) (g_sent (c_g (a s)))) = []).
  { destruct D1 as (_ & _ & ((_ & O2) & _) & _). apply in_split in D11 as (u & v & Euv).
    assert (HD : forall z, In z (skipn (nb s) (g_sent (c_g (a s)))) -> data_of z = []).
    { intros z Hz. assert (Q : ~ carries_data z). { apply (O2 u (v ++ skipn (nb s) (g_sent (c_g (a s))))); [|apply in_or_app; now right].
      rewrite <- (firstn_skipn (nb s)) at 1. rewrite Euv. now rewrite <- app_assoc. }
      destruct z; try reflexivity. elim Q. exact I. }
    clear - HD. induction (skipn (nb s) (g_sent (c_g (a s)))) as [|z l IH]; [reflexivity|]. cbn. rewrite (HD z) by now left. apply IH. intros w Hw. apply HD. now right. }
  rewrite Hs. now rewrite app_nil_r.
Qed.

(** ** C27: closing *)
(** After EOF no data, after CLOSE nothing: for every peer and every history. *)
Theorem C27_trace : forall x es c, fresh x -> run x es = Some c -> orderly (g_sent (c_g c)).
Proof. intros x es c Fx E. destruct (fresh_inv x Fx) as (P & _). destruct (pinv_run es x c P E) as (_ & _ & (O & _) & _). exact O. Qed.
(** A channel is only released (its number reused) once CLOSE went both ways. *)
Theorem C27_release : forall x es c, fresh x -> run x es = Some c -> g_freed (c_g c) = true ->
  In MClose (g_sent (c_g c)) /\ In MClose (received es).
Proof.
  intros x es c Fx E Hf. destruct (fresh_inv x Fx) as (P & L & _ & _ & Hl & _ & _ & Hcr & _).
  assert (C0 : clinv x). { unfold clinv. rewrite Hcr. splits; auto; try discriminate. destruct (fresh_inv x Fx) as (_ & _ & _ & _ & _ & _ & _ & _ & _ & _ & _ & -> & _). discriminate. }
  destruct (inv_run es x c C0 L P E) as ((Hl' & _) & _ & (_ & _ & (_ & W & _) & _ & _ & H)). destruct (H Hf Hl') as [H1 H2].
  split; [now apply W|]. destruct (cr_run es x c E H2) as [Q|Q]; [congruence|exact Q].
Qed.
(** Once the peer's CLOSE has arrived and the output is flushed, the next round
    of the main loop sends CLOSE (if that has not happened yet) and releases the
    channel. *)
Theorem C27_progress : forall x es c, fresh x -> run x es = Some c -> g_freed (c_g c) = false -> p_cr (c_p c) = true ->
  b_out (c_b c) = [] -> b_ext (c_b c) = [] ->
  exists c', run c [EvPre; EvGc true] = Some c' /\ g_freed (c_g c') = true /\ In MClose (g_sent (c_g c')).
Proof.
  intros x es c Fx E Hf Hcr Hb Hx. destruct (fresh_inv x Fx) as (P & L & _ & _ & Hl & _ & _ & Hcr0 & _).
  assert (C0 : clinv x). { unfold clinv. rewrite Hcr0. splits; auto; try discriminate. destruct (fresh_inv x Fx) as (_ & _ & _ & _ & _ & _ & _ & _ & _ & _ & _ & -> & _). discriminate. }
  destruct (inv_run es x c C0 L P E) as (C & L' & P'). pose proof C as (Hl' & H2 & H3). destruct (H2 Hcr) as [Hi Ho].
  set (c1 := when_open c (channel_pre_open c)). assert (E1 : step c EvPre = Some c1) by (cbn [step]; rewrite Hf; reflexivity).
  pose proof (pinv_step c EvPre c1 P' E1) as P1. destruct (flags_step c EvPre c1 E1) as (_ & _ & _ & G4 & G5).
  assert (K : p_i (c_p c1) = HClosed /\ p_o (c_p c1) = HClosed /\ b_ext (c_b c1) = [] /\ g_freed (c_g c1) = false /\ p_ty (c_p c1) <> TZombie).
  { destruct L' as (_ & Lz & La). unfold c1, when_open. destruct (p_ty (c_p c)) eqn:Et; cbn [ty_open]; [| | |congruence].
    - unfold channel_pre_open. destruct (p_o (c_p c)) eqn:Eo; [congruence| |]; cbn [is_drain andb].
      + rewrite Hb. unfold efd_output_active. rewrite Hcr, Hx, orb_true_r, andb_false_r. cbn [empty negb andb orb]. unfold chan_obuf_empty. rewrite Hb, Eo. cbn [empty negb is_drain]. unfold chan_shutdown_write. redx. rewrite Et. splits; auto; discriminate.
      + rewrite Et. splits; auto; discriminate.
    - rewrite Et. specialize (H3 eq_refl). splits; auto; try discriminate. destruct (p_o (c_p c)); congruence.
    - rewrite Et. destruct (La eq_refl) as (_ & Ho' & _). splits; auto; discriminate. }
  destruct K as (K1 & K2 & K3 & K4 & K5). pose proof (gc_frees c1 K5 K1 K2 (G4 Hcr) ltac:(congruence) ltac:(auto)) as KF.
  assert (E2 : step c1 (EvGc true) = Some (channel_gc c1 true)) by (cbn [step]; rewrite K4; reflexivity).
  exists (channel_gc c1 true). cbn [run]. rewrite E1, E2. splits; auto.
  destruct (pinv_step c1 _ _ P1 E2) as (_ & _ & (_ & W & _) & _ & _ & H). apply W. apply H; [exact KF|]. destruct (flags_step c1 _ _ E2) as (_ & _ & _ & _ & ->). congruence.
Qed.

(** ** Findings *)
Definition demo_conf (u : usage) (efd exteof : bool) : conf := mkF efd u false true false false false false true exteof.
(** A peer may overrun the window: here 44 bytes are buffered although only 40
    were ever granted, and when they are consumed the peer gets back all 44, so
    its window is now larger than the maximum. *)
Theorem C25_overrun_refuted :
  let x := open_chan 1000 1000 40 30 (demo_conf UIgnore false false) in
  exists es c, run x es = Some c /\ w_lmax (c_w c) < zlen (g_written (c_g c)) /\ w_lmax (c_w c) < w_lw (c_w c) /\ Forall (fun m => size m <= 30) (received es).
Proof.
  exists [EvRecv (MData (repeat 7 30)); EvRecv (MData (repeat 8 14)); EvWrite (WrBytes 44); EvWindow]. eexists. split; [vm_compute; reflexivity|]. repeat split. repeat constructor; vm_compute; discriminate.
Qed.
(** Towards a peer with the compatibility flag SSH_BUG_EXTEOF: when writing to
    the application fails while error output is still buffered, the channel is
    never released, not even after CLOSE, unless it is closed by force. *)
Definition stuck (c : chan) : Prop := p_i (c_p c) = HClosed /\ p_o (c_p c) = HClosed /\ b_ext (c_b c) <> [] /\ f_efd (c_f c) = true /\ f_use (c_f c) = UWrite /\
  f_exteof (c_f c) = true /\ p_ty (c_p c) = TOpen /\ g_freed (c_g c) = false.
Lemma stuck_step : forall c e c', stuck c -> is_recv e = false -> forces e = false -> step c e = Some c' -> stuck c'.
Proof.
  intros c e c' HS Er Hf E. pose proof HS as (S1 & S2 & S3 & S4 & S5 & S6 & S7 & S8).
  assert (Hx : empty (b_ext (c_b c)) = false) by (destruct (b_ext (c_b c)); [contradiction|reflexivity]).
  assert (HD : forall b, chan_is_dead c b = (c, false)) by (intros b; unfold chan_is_dead; rewrite S7, S1, S2, S4, S5, S6, Hx; reflexivity).
  destruct e; try discriminate; cbn [step] in E; rewrite S8 in E; injection E as <-; unfold when_open; rewrite ?S7; cbn [ty_open].
  - unfold channel_handle_rfd, forced. rewrite S1. cbn [is_closed is_open negb andb]. rewrite andb_false_r. cbn [negb andb]. exact HS.
  - unfold channel_handle_wfd. rewrite S2. exact HS.
  - unfold channel_handle_efd_write. rewrite S1, S2. cbn [is_closed andb]. rewrite orb_true_r. exact HS.
  - unfold channel_handle_efd_read. rewrite S5. cbn [is_write]. rewrite orb_true_r. exact HS.
  - unfold channel_check_window. destruct (_ && _); exact HS.
  - unfold channel_pre_open. rewrite S2. exact HS.
  - unfold channel_output_poll. rewrite S7, S1. cbv zeta. cbn [ty_open negb is_closed]. rewrite S5. cbn [is_read]. rewrite andb_false_r. destruct (_ || _); exact HS.
  - unfold channel_gc. rewrite !HD. cbn [negb]. destruct (f_detach _); exact HS.
  - unfold chan_read_failed. rewrite S1. exact HS.
  - unfold chan_write_failed. rewrite S2. exact HS.
  - exact HS.
  - exact HS.
  - unfold channel_set_fds. rewrite S7. exact HS.
Qed.
Theorem C27_exteof_refuted :
  let x := open_chan 1000 1000 40 30 (demo_conf UWrite true true) in
  exists es c, run x es = Some c /\ In MClose (received es) /\ b_out (c_b c) = [] /\
    (forall es' c', run c es' = Some c' -> Forall (fun e => is_recv e = false /\ forces e = false) es' -> g_freed (c_g c') = false).
Proof.
  exists [EvRecv (MExt 1 [1;2;3]); EvFailWrite; EvRecv MClose]. eexists. split; [vm_compute; reflexivity|]. split; [right; now left|]. split; [reflexivity|].
  assert (G : forall es' c c', stuck c -> run c es' = Some c' -> Forall (fun e => is_recv e = false /\ forces e = false) es' -> g_freed (c_g c') = false).
  { induction es' as [|e es' IH]; intros c c' HS E F; cbn [run] in E; [injection E as <-; apply HS|]. inversion F as [|? ? [F1 F2] F3]; subst.
    destruct (step c e) as [c1|] eqn:E1; [|discriminate]. apply (IH c1); auto. exact (stuck_step c e c1 HS F1 F2 E1). }
  intros es' c'. apply G. unfold stuck. cbn. splits; auto; discriminate.
Qed.
(** Error output the receiver has no use for is not credited back: its part of
    the window is lost for good. *)
Theorem C25_ext_credit_refuted :
  let x := open_chan 1000 1000 40 30 (demo_conf UWrite false false) in
  exists es c, run x es = Some c /\ volume (received es) = 30 /\ g_sent (c_g c) = [] /\ w_cons (c_w c) = 0 /\ b_out (c_b c) = [] /\ b_ext (c_b c) = [].
Proof. exists [EvRecv (MExt 1 (repeat 7 30)); EvWindow; EvPoll; EvWindow]. eexists. split; [vm_compute; reflexivity|]. repeat split. Qed.

(** ** The hypotheses can be met *)
Definition demo_a : chan := open_chan 64 32 4096 1024 (demo_conf UIgnore false false).
Definition demo_b : chan := open_chan 4096 1024 64 32 (demo_conf URead true false).
Definition demo_run : list pev :=
  [AtA (EvRead (RdBytes (repeat 1 50))); AtA EvPoll; AtA EvPoll; ToB; ToB; AtB (EvWrite (WrBytes 40)); AtB EvWindow; ToA;
   AtA (EvRead (RdBytes (repeat 2 30))); AtA EvPoll; ToB; AtA (EvRead RdFail); AtA EvPoll; ToB;
   AtB (EvRead (RdBytes [9; 9; 9])); AtB EvPoll; AtB (EvExtRead RdFail); AtB (EvRead RdFail); AtB EvPoll; ToA; ToA; AtA (EvWrite (WrBytes 99)); AtA EvPre; AtA (EvGc false);
   AtB (EvWrite (WrBytes 99)); AtB EvPre; ToB; AtB (EvGc false); ToA; AtA (EvGc false)].
Example demo_agreed : fresh demo_a /\ fresh demo_b /\ agreed demo_a demo_b /\ agreed demo_b demo_a.
Proof. unfold fresh, agreed, demo_a, demo_b, SSHBUF_SIZE_MAX. splits; try (left; repeat eexists); cbn; lia. Qed.
Example demo_ok : Forall okpe demo_run /\ Forall careful demo_run.
Proof. split; repeat constructor. Qed.
Example demo_result : match prun (start demo_a demo_b) demo_run with
  | Some s => (p_er (c_p (b s)), g_written (c_g (b s)), g_written (c_g (a s)), g_freed (c_g (a s)), g_freed (c_g (b s)), map size (g_sent (c_g (a s))))
  | None => (false, [], [], false, false, []) end
  = (true, repeat 1 50 ++ repeat 2 30, [9; 9; 9], true, true, [32; 18; 30; 0; 0]).
Proof. vm_compute. reflexivity. Qed.
Example demo_single : let es := [EvRecv (MAdjust 100); EvRead (RdBytes [1;2;3]); EvPoll; EvRead RdFail; EvPoll; EvRecv (MData [4;5]); EvRecv MEof; EvRecv MClose; EvWrite (WrBytes 9)] in
  match run demo_a es with Some c => (g_freed (c_g c), p_cr (c_p c), b_out (c_b c), g_sent (c_g c)) | None => (false, false, [], []) end = (false, true, [], [MData [1;2;3]; MEof]) /\ Forall ok_ev es.
Proof. split; [vm_compute; reflexivity|]. repeat constructor; cbn; discriminate. Qed.

Print Assumptions C25_sender. Print Assumptions C25_receiver. Print Assumptions C25_accept. Print Assumptions C25_pair.
Print Assumptions C25_overrun_refuted. Print Assumptions C25_ext_credit_refuted.
Print Assumptions C26_prefix. Print Assumptions C26_complete.
Print Assumptions C27_trace. Print Assumptions C27_release. Print Assumptions C27_progress. Print Assumptions C27_exteof_refuted.
