From Verif Require Import Base ChanModel ChanSpec ChanProof1 ChanProof2 ChanProof3 ChanProof4.

(** ** One direction: [x] sends to [y]; [q] is on its way, [p] on its way back *)
Definition finv (x y : chan) (q p : list wmsg) : Prop :=
  w_rw (c_w x) + volume q + credits p <= w_lw (c_w y) /\ rpre y /\ u32v (w_rw (c_w x)) /\ 0 <= w_rmax (c_w x) <= w_lpk (c_w y) /\
  (forall m, In m q -> size m <= w_lpk (c_w y)) /\ (forall k d, In (MExt k d) q -> k = 1) /\ (forall m, In m p -> 0 <= credit m).

Lemma credits_nonneg : forall l, (forall m, In m l -> 0 <= credit m) -> 0 <= credits l.
Proof. induction l as [|m l IH]; intros H; [cbn; lia|]. rewrite credits_cons. pose proof (H m (or_introl eq_refl)). assert (0 <= credits l) by (apply IH; intros; apply H; now right). lia. Qed.

Lemma finv_send : forall x y q p x' g new p', finv x y q p -> seff x x' g new -> g + credits p' = credits p -> incl p' p -> finv x' y (q ++ new) p'.
Proof.
  intros x y q p x' g new p' (F1 & F2 & F3 & F4 & F5 & F6 & F7) (A1 & A2 & A3 & A4 & A5 & A6) Hg Hi.
  unfold finv. rewrite volume_app, A4. splits; auto; try lia.
  - intros m Hm. apply in_app_or in Hm as [Hm|Hm]; [now apply F5|]. specialize (A5 m Hm). lia.
  - intros k d Hm. apply in_app_or in Hm as [Hm|Hm]; eauto.
Qed.
Lemma finv_back : forall x y q p y' new, finv x y q p -> reff y y' new -> finv x y' q (p ++ new).
Proof.
  intros x y q p y' new (F1 & F2 & F3 & F4 & F5 & F6 & F7) (A1 & A2 & A3 & A4 & A5 & A6 & A7).
  unfold finv. rewrite credits_app, A2, A4. pose proof (credits_nonneg new A5) as Hc. destruct F2 as (P1 & P2 & P3). splits; auto; try lia.
  - unfold rpre. rewrite A1, A4. splits; try lia.
  - intros m Hm. apply in_app_or in Hm as [Hm|Hm]; auto.
Qed.
Lemma finv_setfds : forall x y q p efd u tty win, finv x y q p -> linv y -> 0 <= win <= SSHBUF_SIZE_MAX ->
  exists new, g_sent (c_g (channel_set_fds y efd u tty win)) = g_sent (c_g y) ++ new /\ finv x (channel_set_fds y efd u tty win) q (p ++ new).
Proof.
  intros x y q p efd u tty win HF HL Hw. unfold channel_set_fds. destruct (_ && _) eqn:Eg; [|exists []; rewrite !app_nil_r; now split].
  apply andb_true_iff in Eg as [Eg _]. apply andb_true_iff in Eg as [Eg _]. apply ty_larval_true in Eg.
  destruct HL as (HL & _). destruct (HL Eg) as (L1 & L2 & L3 & L4 & _). destruct HF as (F1 & F2 & F3 & F4 & F5 & F6 & F7).
  exists [MAdjust win]. split; [reflexivity|]. unfold finv, rpre, inb. redx. rewrite credits_app, credits_cons, L2, L3, L4, zlen_nil. cbn [credit credits map zsum fold_right].
  splits; auto; try lia; try (destruct (is_write u); lia).
  intros m Hm. apply in_app_or in Hm as [Hm|[<-|[]]]; [auto|cbn; lia].
Qed.

(** Receiving. *)
Lemma recv_reff : forall y m y', rpre y -> size m <= w_lw (c_w y) -> recv y m = Some y' ->
  exists new, g_sent (c_g y') = g_sent (c_g y) ++ new /\ Forall control new /\ w_lmax (c_w y') = w_lmax (c_w y) /\ w_lpk (c_w y') = w_lpk (c_w y) /\
    w_lw (c_w y) - size m <= w_lw (c_w y') /\ rpre y'.
Proof.
  intros y m y' Hp Hs E. pose proof Hp as (P1 & P2 & P3). unfold SSHBUF_SIZE_MAX in P3. pose proof (size_nonneg m) as Hz.
  assert (HR : exists new, g_sent (c_g y) = g_sent (c_g y) ++ new /\ Forall control new /\ w_lmax (c_w y) = w_lmax (c_w y) /\ w_lpk (c_w y) = w_lpk (c_w y) /\
    w_lw (c_w y) - size m <= w_lw (c_w y) /\ rpre y) by (exists []; rewrite app_nil_r; splits; auto; lia).
  assert (HN : forall k1 k2 z, nrel k1 k2 y z -> exists new, g_sent (c_g z) = g_sent (c_g y) ++ new /\ Forall control new /\ w_lmax (c_w z) = w_lmax (c_w y) /\ w_lpk (c_w z) = w_lpk (c_w y) /\
    w_lw (c_w y) - size m <= w_lw (c_w z) /\ rpre z).
  { intros k1 k2 z N. pose proof N as (A1 & _ & _ & _ & _ & _ & _ & _ & _ & _ & _ & _ & _ & new & A9 & A10 & _). exists new. rewrite A1. splits; auto; try lia.
    destruct (nrel_reff k1 k2 y z new N A10 P2) as (B1 & B2 & B3 & B4 & B5 & B6 & B7). unfold rpre. rewrite A1 in *. splits; auto; try (unfold SSHBUF_SIZE_MAX; lia). }
  unfold recv in E. destruct (g_freed (c_g y)). { destruct m; try discriminate. now injection E as <-. }
  pose proof (zlen_nonneg _ (b_out (c_b y))) as Zo. pose proof (zlen_nonneg _ (b_ext (c_b y))) as Ze.
  destruct m.
  - unfold size in *. cbn [data_of ext_of] in *. rewrite zlen_nil, Z.add_0_r in *. unfold channel_input_data in E. destruct (negb _); [now injection E as <-|].
    destruct (negb _).
    + injection E as <-. exists []. rewrite app_nil_r. unfold rpre, inb in *. redx. rewrite !u32_id by (unfold U32; destruct (is_write _); lia).
      splits; auto; try (unfold SSHBUF_SIZE_MAX; lia).
    + destruct (_ <? _); [now injection E as <-|]. replace (w_lw (c_w y) <? zlen d) with false in E by lia. destruct (_ <? _); [discriminate|]. injection E as <-.
      exists []. rewrite app_nil_r. unfold rpre, inb in *. redx. rewrite zlen_app, !u32_id by (unfold U32; destruct (is_write _); lia).
      splits; auto; try (unfold SSHBUF_SIZE_MAX; lia).
  - unfold size in *. cbn [data_of ext_of] in *. rewrite zlen_nil, Z.add_0_l in *. unfold channel_input_extended_data in E. destruct (negb _); [now injection E as <-|].
    destruct (_ && _); [discriminate|]. destruct (_ || _) eqn:Eo; [now injection E as <-|]. replace (w_lw (c_w y) <? zlen d) with false in E by lia.
    apply orb_false_iff in Eo as [Eo _]. apply orb_false_iff in Eo as [_ Eo]. apply negb_false_iff in Eo.
    injection E as <-. exists []. rewrite app_nil_r. unfold rpre, inb in *. rewrite Eo in P3. destruct (_ <? _); redx; rewrite ?zlen_app, !u32_id by (unfold U32; lia); rewrite Eo;
      (splits; auto; try (unfold SSHBUF_SIZE_MAX; lia)).
  - injection E as <-. apply (HN true false), n_ieof.
  - injection E as <-. apply (HN false false), n_oclose. discriminate.
  - unfold channel_input_window_adjust in E. destruct (_ <? _); [discriminate|]. injection E as <-. exact HR.
  - injection E as <-. apply (HN true true), n_eow.
Qed.
Lemma finv_deliver : forall x y m q p y', finv x y (m :: q) p -> recv y m = Some y' ->
  exists new, g_sent (c_g y') = g_sent (c_g y) ++ new /\ finv x y' q (p ++ new).
Proof.
  intros x y m q p y' (F1 & F2 & F3 & F4 & F5 & F6 & F7) E. rewrite volume_cons in F1.
  pose proof (volume_nonneg q) as Vq. pose proof (credits_nonneg p F7) as Cp. unfold u32v in F3.
  destruct (recv_reff y m y' F2) as (new & A1 & A2 & A3 & A4 & A5 & A6); [lia|exact E|]. exists new. split; [exact A1|].
  unfold finv. rewrite credits_app, (credits_control new A2), A4. splits; auto; try lia.
  - intros z Hz. apply F5. now right.
  - intros k d Hz. apply (F6 k d). now right.
  - intros z Hz. apply in_app_or in Hz as [Hz|Hz]; [auto|]. rewrite Forall_forall in A2. destruct (A2 z Hz) as [-> | [-> | ->]]; cbn; lia.
Qed.

(** ** Direction invariant *)
Definition dinv (x y : chan) (n k : nat) : Prop :=
  pinv x /\ pinv y /\ linv x /\ linv y /\ f_local (c_f x) = false /\ f_local (c_f y) = false /\
  (n <= length (g_sent (c_g x)))%nat /\ finv x y (skipn n (g_sent (c_g x))) (skipn k (g_sent (c_g y))) /\ sinv x /\ tinv y (firstn n (g_sent (c_g x))) /\
  (p_er (c_p y) = true -> In MEof (firstn n (g_sent (c_g x)))) /\ (p_cr (c_p y) = true -> In MClose (firstn n (g_sent (c_g x)))).

Lemma okp_ok : forall e, okp e -> is_recv e = false -> ok_ev e.
Proof. intros e H H'. destruct e; cbn in *; try exact I; try discriminate. unfold u32v, SSHBUF_SIZE_MAX in *. lia. Qed.

Lemma skipn_more : forall A n (l r : list A), (n <= length l)%nat -> skipn n (l ++ r) = skipn n l ++ r.
Proof. intros A n l r H. rewrite skipn_app. replace (n - length l)%nat with 0%nat by lia. reflexivity. Qed.
Lemma firstn_more : forall A n (l r : list A), (n <= length l)%nat -> firstn n (l ++ r) = firstn n l.
Proof. intros A n l r H. rewrite firstn_app. replace (n - length l)%nat with 0%nat by lia. cbn [firstn]. apply app_nil_r. Qed.
Lemma nth_skipn : forall A (l : list A) n m, nth_error l n = Some m -> skipn n l = m :: skipn (S n) l /\ firstn (S n) l = firstn n l ++ [m] /\ (S n <= length l)%nat.
Proof.
  induction l as [|h l IH]; intros [|n] m H; cbn [nth_error] in H; try discriminate.
  - injection H as ->. cbn. splits; auto. lia.
  - destruct (IH n m H) as (E1 & E2 & E3). cbn [skipn length]. splits; [exact E1| |lia].
    change (firstn (S (S n)) (h :: l)) with (h :: firstn (S n) l). now rewrite E2.
Qed.

Lemma dinv_x_local : forall x y n k e x', dinv x y n k -> okp e -> is_recv e = false -> step x e = Some x' -> dinv x' y n k.
Proof.
  intros x y n k e x' (D1 & D2 & D3 & D4 & D5 & D6 & D7 & D8 & D9 & D10 & D11 & D12) Hok Er E.
  pose proof D8 as (_ & _ & F3 & F4 & _). destruct (step_seff x e x' F3 ltac:(lia) (okp_ok e Hok Er) E) as (new & SF).
  assert (Hg : match e with EvRecv m => Z.max 0 (credit m) | _ => 0 end = 0) by (destruct e; try discriminate; reflexivity). rewrite Hg in SF.
  pose proof SF as (S1 & _). unfold dinv. rewrite S1, skipn_more, firstn_more by exact D7. splits; auto.
  - exact (pinv_step x e x' D1 E).
  - exact (linv_step x e x' D3 E).
  - destruct (flags_step x e x' E) as (_ & _ & _ & _ & ->). exact D5.
  - rewrite app_length. lia.
  - eapply finv_send; [exact D8|exact SF|lia|apply incl_refl].
  - exact (sinv_step x e x' D9 D3 E).
Qed.
Lemma dinv_y_local : forall x y n k e y', dinv x y n k -> (k <= length (g_sent (c_g y)))%nat -> okp e -> is_recv e = false -> step y e = Some y' -> dinv x y' n k.
Proof.
  intros x y n k e y' (D1 & D2 & D3 & D4 & D5 & D6 & D7 & D8 & D9 & D10 & D11 & D12) Hk Hok Er E.
  assert (K : exists new, g_sent (c_g y') = g_sent (c_g y) ++ new /\ finv x y' (skipn n (g_sent (c_g x))) (skipn k (g_sent (c_g y)) ++ new)).
  { destruct (plain e) eqn:Ep.
    - pose proof D8 as (_ & F2 & _). destruct (step_reff y e y' F2 Ep E) as (new & N1 & N2). exists new. split; [exact N1|]. now apply (finv_back x y).
    - destruct e; try discriminate. cbn [step] in E. destruct (g_freed (c_g y)); injection E as <-.
      + exists []. rewrite !app_nil_r. now split.
      + now apply finv_setfds. }
  destruct K as (new & N1 & N2). unfold dinv. rewrite N1, skipn_more by exact Hk. splits; auto.
  - exact (pinv_step y e y' D2 E).
  - exact (linv_step y e y' D4 E).
  - destruct (flags_step y e y' E) as (_ & _ & _ & _ & ->). exact D6.
  - destruct (step_mv y e y' E Er) as (y1 & M1 & M2). exact (tinv_mv true true y1 y' _ (tinv_mv _ _ y y1 _ D10 D4 M1) (linv_mv _ _ y y1 D4 M1) (mv1_mv _ _ _ _ M2)).
  - intros H. destruct (flags_step y e y' E) as (G1 & _). destruct (G1 H) as [G|G]; [auto|subst e; discriminate].
  - intros H. destruct (flags_step y e y' E) as (_ & G1 & _). destruct (G1 H) as [G|G]; [auto|subst e; discriminate].
Qed.
Lemma dinv_y_recv : forall x y n k m y', dinv x y n k -> (k <= length (g_sent (c_g y)))%nat -> nth_error (g_sent (c_g x)) n = Some m -> step y (EvRecv m) = Some y' -> dinv x y' (S n) k.
Proof.
  intros x y n k m y' (D1 & D2 & D3 & D4 & D5 & D6 & D7 & D8 & D9 & D10 & D11 & D12) Hk Hm E.
  destruct (nth_skipn _ _ _ _ Hm) as (Q1 & Q2 & Q3). rewrite Q1 in D8. pose proof D8 as (F1 & F2 & F3 & F4 & F5 & F6 & F7). rewrite volume_cons in F1.
  destruct (finv_deliver x y m _ _ y' D8 E) as (new & N1 & N2). unfold dinv. rewrite Q2, N1, skipn_more by exact Hk. splits; auto.
  - exact (pinv_step y _ y' D2 E).
  - exact (linv_step y _ y' D4 E).
  - destruct (flags_step y _ y' E) as (_ & _ & _ & _ & ->). exact D6.
  - apply (tinv_recv y); auto.
    + pose proof (volume_nonneg (skipn (S n) (g_sent (c_g x)))). pose proof (credits_nonneg _ F7). unfold u32v in F3. lia.
    + apply F5. now left.
    + intros c d ->. apply (F6 c d). now left.
  - intros H. apply in_or_app. destruct (flags_step y _ y' E) as (G1 & _). destruct (G1 H) as [G|G]; [auto|]. injection G as ->. right. now left.
  - intros H. apply in_or_app. destruct (flags_step y _ y' E) as (_ & G1 & _). destruct (G1 H) as [G|G]; [auto|]. injection G as ->. right. now left.
Qed.
Lemma dinv_x_recv : forall x y n k m x', dinv x y n k -> nth_error (g_sent (c_g y)) k = Some m -> u32v (credit m) -> step x (EvRecv m) = Some x' -> dinv x' y n (S k).
Proof.
  intros x y n k m x' (D1 & D2 & D3 & D4 & D5 & D6 & D7 & D8 & D9 & D10 & D11 & D12) Hm Hc E.
  destruct (nth_skipn _ _ _ _ Hm) as (Q1 & Q2 & Q3). rewrite Q1 in D8. pose proof D8 as (F1 & F2 & F3 & F4 & F5 & F6 & F7).
  destruct (step_seff x (EvRecv m) x' F3 ltac:(lia)) as (new & SF); [destruct m; try exact I; exact Hc|exact E|].
  pose proof (F7 m (or_introl eq_refl)) as Hm0. rewrite Z.max_r in SF by exact Hm0.
  pose proof SF as (S1 & _). unfold dinv. rewrite S1, skipn_more, firstn_more by exact D7. splits; auto.
  - exact (pinv_step x _ x' D1 E).
  - exact (linv_step x _ x' D3 E).
  - destruct (flags_step x _ x' E) as (_ & _ & _ & _ & ->). exact D5.
  - rewrite app_length. lia.
  - eapply finv_send; [exact D8|exact SF|rewrite credits_cons; lia|intros z Hz; now right].
  - exact (sinv_step x _ x' D9 D3 E).
Qed.

(** The credits on their way fit in the other end's window. *)
Lemma dinv_credit : forall x y n k m, dinv x y n k -> nth_error (g_sent (c_g y)) k = Some m -> u32v (credit m) /\ w_rw (c_w x) + credit m < 4294967296.
Proof.
  intros x y n k m (D1 & D2 & D3 & D4 & D5 & D6 & D7 & D8 & _) Hm. destruct (nth_skipn _ _ _ _ Hm) as (Q1 & _). rewrite Q1 in D8.
  destruct D8 as (F1 & (P1 & P2 & P3) & F3 & F4 & F5 & F6 & F7). rewrite credits_cons in F1. pose proof (F7 m (or_introl eq_refl)).
  assert (0 <= credits (skipn (S k) (g_sent (c_g y)))) by (apply credits_nonneg; intros z Hz; apply F7; now right).
  pose proof (volume_nonneg (skipn n (g_sent (c_g x)))). pose proof (zlen_nonneg _ (b_out (c_b y))). pose proof (zlen_nonneg _ (b_ext (c_b y))).
  unfold SSHBUF_SIZE_MAX, inb, u32v in *. destruct (is_write _); lia.
Qed.

(** An honest peer is never disconnected. *)
Lemma in_firstn_order : forall (l : list wmsg) n m z, nth_error l n = Some m -> In z (firstn n l) -> exists u v, l = u ++ z :: v /\ In m v.
Proof.
  intros l n m z Hm Hz. destruct (nth_skipn _ _ _ _ Hm) as (Q1 & _). apply in_split in Hz as (u & v & E).
  exists u, (v ++ m :: skipn (S n) l). split.
  - rewrite <- (firstn_skipn n l) at 1. rewrite E, Q1. rewrite <- app_assoc. reflexivity.
  - apply in_or_app. right. now left.
Qed.
Lemma not_freed : forall x y n k m, dinv x y n k -> nth_error (g_sent (c_g x)) n = Some m -> g_freed (c_g y) = false /\ p_cr (c_p y) = false /\ (carries_data m -> p_er (c_p y) = false).
Proof.
  intros x y n k m (D1 & D2 & D3 & D4 & D5 & D6 & D7 & D8 & D9 & D10 & D11 & D12) Hm.
  destruct D1 as (_ & _ & ((O1 & O2) & _) & _).
  assert (Hcr : p_cr (c_p y) = false).
  { destruct (p_cr (c_p y)); [exfalso|reflexivity]. destruct (in_firstn_order _ _ _ _ Hm (D12 eq_refl)) as (u & v & E & Hv). rewrite (O1 u v E) in Hv. destruct Hv. }
  split; [|split; [exact Hcr|]].
  - destruct (g_freed (c_g y)) eqn:Ef; [|reflexivity]. destruct D2 as (_ & _ & _ & _ & _ & H). destruct (H Ef D6). congruence.
  - intros Hd. destruct (p_er (c_p y)); [exfalso|reflexivity]. destruct (in_firstn_order _ _ _ _ Hm (D11 eq_refl)) as (u & v & E & Hv). exact (O2 u v m E Hv Hd).
Qed.
Lemma recv_total : forall x y n k m, dinv x y n k -> dinv y x k n -> nth_error (g_sent (c_g x)) n = Some m -> exists y', step y (EvRecv m) = Some y'.
Proof.
  intros x y n k m D D' Hm. destruct (not_freed x y n k m D Hm) as (Hf & Hcr & Her). destruct (dinv_credit y x k n m D' Hm) as (Hc & Ho).
  pose proof D as (D1 & D2 & D3 & D4 & D5 & D6 & D7 & D8 & _). destruct (nth_skipn _ _ _ _ Hm) as (Q1 & _). rewrite Q1 in D8.
  destruct D8 as (F1 & (P1 & P2 & P3) & F3 & F4 & F5 & F6 & F7). rewrite volume_cons in F1. pose proof (volume_nonneg (skipn (S n) (g_sent (c_g x)))). pose proof (credits_nonneg _ F7).
  pose proof (F5 m (or_introl eq_refl)) as Hl. unfold u32v in *. pose proof (zlen_nonneg _ (b_out (c_b y))) as Zo. pose proof (zlen_nonneg _ (b_ext (c_b y))) as Ze.
  cbn [step]. unfold recv. rewrite Hf. destruct m; try (eexists; reflexivity).
  - unfold size in *. cbn [data_of ext_of] in *. rewrite zlen_nil, Z.add_0_r in *. unfold channel_input_data. destruct (negb _); [eexists; reflexivity|]. destruct (negb _); [eexists; reflexivity|].
    replace (w_lpk (c_w y) <? zlen d) with false by lia. replace (w_lw (c_w y) <? zlen d) with false by lia.
    replace (SSHBUF_SIZE_MAX <? _) with false by (unfold inb in P3; redx; destruct (is_write _); lia). eexists; reflexivity.
  - unfold channel_input_extended_data. rewrite Her by exact I. cbn [andb]. destruct (negb _); [eexists; reflexivity|]. destruct (_ || _); [eexists; reflexivity|]. destruct (_ <? _); eexists; reflexivity.
  - cbn [credit] in *. unfold channel_input_window_adjust. rewrite u32_id by (unfold U32; destruct D' as (_ & _ & _ & _ & _ & _ & _ & (_ & _ & U & _) & _); unfold u32v in U; lia).
    replace (_ <? _) with false by lia. eexists; reflexivity.
Qed.

(** ** The pair *)
Definition Pinv (s : pair) : Prop := dinv (a s) (b s) (nb s) (na s) /\ dinv (b s) (a s) (na s) (nb s).
Lemma Pinv_step : forall s e, Pinv s -> okpe e -> exists s', pstep s e = Some s' /\ Pinv s'.
Proof.
  intros s e [A B] Hok. pose proof A as (_ & _ & _ & _ & _ & _ & LA & _). pose proof B as (_ & _ & _ & _ & _ & _ & LB & _).
  assert (HT : forall c e, is_recv e = false -> exists c', step c e = Some c').
  { intros c0 e0 H0. destruct e0; try discriminate; cbn [step]; destruct (g_freed (c_g c0)); eexists; reflexivity. }
  destruct e as [e|e| |]; cbn [pstep okpe] in *.
  - destruct (is_recv e) eqn:Er; [exists s; split; [reflexivity|now split]|]. destruct (HT (a s) e Er) as (c' & E). rewrite E. cbn [option_map]. eexists. split; [reflexivity|]. unfold Pinv. cbn [a b na nb].
    split; [now apply (dinv_x_local (a s) (b s) _ _ e)|now apply (dinv_y_local (b s) (a s) _ _ e)].
  - destruct (is_recv e) eqn:Er; [exists s; split; [reflexivity|now split]|]. destruct (HT (b s) e Er) as (c' & E). rewrite E. cbn [option_map]. eexists. split; [reflexivity|]. unfold Pinv. cbn [a b na nb].
    split; [now apply (dinv_y_local (a s) (b s) _ _ e)|now apply (dinv_x_local (b s) (a s) _ _ e)].
  - destruct (nth_error (g_sent (c_g (b s))) (na s)) as [m|] eqn:En; [|exists s; split; [reflexivity|now split]].
    destruct (recv_total (b s) (a s) _ _ m B A En) as (c' & E). rewrite E. cbn [option_map]. eexists. split; [reflexivity|]. unfold Pinv. cbn [a b na nb].
    split; [apply (dinv_x_recv (a s) (b s) _ _ m); auto; now apply (dinv_credit (a s) (b s) (nb s) (na s))|now apply (dinv_y_recv (b s) (a s) _ _ m)].
  - destruct (nth_error (g_sent (c_g (a s))) (nb s)) as [m|] eqn:En; [|exists s; split; [reflexivity|now split]].
    destruct (recv_total (a s) (b s) _ _ m A B En) as (c' & E). rewrite E. cbn [option_map]. eexists. split; [reflexivity|]. unfold Pinv. cbn [a b na nb].
    split; [now apply (dinv_y_recv (a s) (b s) _ _ m)|apply (dinv_x_recv (b s) (a s) _ _ m); auto; now apply (dinv_credit (b s) (a s) (na s) (nb s))].
Qed.
Lemma Pinv_run : forall es s, Pinv s -> Forall okpe es -> exists s', prun s es = Some s' /\ Pinv s'.
Proof.
  induction es as [|e es IH]; intros s H F; [exists s; now split|]. inversion F as [|? ? F1 F2]; subst.
  destruct (Pinv_step s e H F1) as (s1 & E & H1). cbn [prun]. rewrite E. now apply IH.
Qed.

(** ** Completeness *)
Definition kinv (x y : chan) (R : list wmsg) : Prop :=
  (In MEof (g_sent (c_g x)) -> g_read (c_g x) = stream (g_sent (c_g x))) /\
  (p_er (c_p y) = false -> p_cr (c_p y) = false -> p_o (c_p y) = HOpen) /\
  (p_er (c_p y) = true -> g_written (c_g y) ++ b_out (c_b y) = stream R).

Lemma k1_nrel : forall k2 x x', (In MEof (g_sent (c_g x)) -> g_read (c_g x) = stream (g_sent (c_g x))) -> sinv x -> nrel true k2 x x' ->
  In MEof (g_sent (c_g x')) -> g_read (c_g x') = stream (g_sent (c_g x')).
Proof.
  intros k2 x x' K (S1 & S2 & S3) (A1 & A2 & A3 & A4 & A5 & A6 & A7 & A8 & A9 & A10 & A11 & A12 & A13 & new & A14 & A15 & A16) H.
  rewrite A14, stream_app, (stream_control new A15), app_nil_r, A5. rewrite A14 in H. apply in_app_or in H as [H|H]; [auto|].
  destruct (A16 eq_refl H) as (E1 & E2). rewrite (S2 E2), E1. apply app_nil_r.
Qed.
Lemma in_snoc_other : forall (l : list wmsg) m z, In z (l ++ [m]) -> m <> z -> In z l.
Proof. intros l m z H Hn. apply in_app_or in H as [H|[H|[]]]; [exact H|contradiction]. Qed.
Lemma es_closed : forall x, pinv x -> In MEof (g_sent (c_g x)) -> p_i (c_p x) = HClosed.
Proof. intros x (P1 & P2 & (_ & _ & W) & _) H. now apply P2, W. Qed.
Lemma cs_closed : forall x, pinv x -> In MClose (g_sent (c_g x)) -> p_i (c_p x) = HClosed /\ p_o (c_p x) = HClosed.
Proof. intros x (P1 & P2 & (_ & W & _) & _) H. now apply P1, W. Qed.

Lemma k1_local : forall x e x', (In MEof (g_sent (c_g x)) -> g_read (c_g x) = stream (g_sent (c_g x))) -> sinv x -> pinv x -> is_recv e = false -> forces e = false -> step x e = Some x' ->
  In MEof (g_sent (c_g x')) -> g_read (c_g x') = stream (g_sent (c_g x')).
Proof.
  intros x e x' K HS HP Er Hf E. destruct (step_mv x e x' E Er) as (x1 & M1 & M2). rewrite Hf in M1. cbn [negb] in M1.
  assert (K1 : In MEof (g_sent (c_g x1)) -> g_read (c_g x1) = stream (g_sent (c_g x1))).
  { destruct M1 as [c' N|d Ht Hi|n w Ht Ho|n w Ht He Hw|d Ht Hr He Hes|n w Ht|n w Ht Hi Hc|n w Ht Hr He|efd u tty n w Ht]; try exact K.
    - now apply (k1_nrel (negb (fails e)) x).
    - intros H. elim Hi. now apply es_closed.
    - redx. intros H. apply in_snoc_other in H; [|discriminate]. rewrite stream_app, stream1. cbn [data_of]. rewrite app_nil_r. now apply K.
    - redx. intros H. apply in_snoc_other in H; [|discriminate]. elim Hi. now apply es_closed.
    - redx. intros H. apply in_snoc_other in H; [|discriminate]. rewrite stream_app, stream1. cbn [data_of]. rewrite app_nil_r. now apply K.
    - redx. intros H. apply in_snoc_other in H; [|discriminate]. rewrite stream_app, stream1. cbn [data_of]. rewrite app_nil_r. now apply K. }
  destruct M2 as [|n w Ht Hr He]; [exact K1|]. redx. intros H. apply in_snoc_other in H; [|discriminate]. rewrite stream_app, stream1. cbn [data_of]. rewrite app_nil_r. now apply K1.
Qed.
Lemma k2_local : forall y e y' R, (p_er (c_p y) = false -> p_cr (c_p y) = false -> p_o (c_p y) = HOpen) /\ (p_er (c_p y) = true -> g_written (c_g y) ++ b_out (c_b y) = stream R) ->
  is_recv e = false -> fails e = false -> step y e = Some y' ->
  (p_er (c_p y') = false -> p_cr (c_p y') = false -> p_o (c_p y') = HOpen) /\ (p_er (c_p y') = true -> g_written (c_g y') ++ b_out (c_b y') = stream R).
Proof.
  intros y e y' R K Er Hf E. destruct (step_mv y e y' E Er) as (y1 & M1 & M2). rewrite Hf in M1. cbn [negb] in M1.
  assert (K1 : (p_er (c_p y1) = false -> p_cr (c_p y1) = false -> p_o (c_p y1) = HOpen) /\ (p_er (c_p y1) = true -> g_written (c_g y1) ++ b_out (c_b y1) = stream R)).
  { destruct M1 as [c' N|d Ht Hi|n w Ht Ho|n w Ht He Hw|d Ht Hr He Hes|n w Ht|n w Ht Hi Hc|n w Ht Hr He|efd u tty n w Ht]; try exact K.
    - destruct N as (A1 & A2 & A3 & A4 & A5 & A6 & A7 & A8 & A9 & A10 & A11 & A12 & A13 & _). destruct (A13 eq_refl) as (B1 & B2 & -> & ->). rewrite A7, B1. destruct K. split; auto.
    - redx. rewrite <- app_assoc, take_drop. exact K. }
  destruct M2 as [|n w Ht Hr He]; exact K1.
Qed.
Lemma out_obuf : forall c, b_out (c_b (chan_obuf_empty c)) = b_out (c_b c).
Proof. intros c. unfold chan_obuf_empty. destruct (empty _) eqn:E; cbn [negb]; [|reflexivity]. apply empty_true in E. destruct (is_drain _); [|reflexivity]. rewrite E. reflexivity. Qed.
Lemma out_rieof : forall c, b_out (c_b (chan_rcvd_ieof c)) = b_out (c_b c) /\ g_written (c_g (chan_rcvd_ieof c)) = g_written (c_g c).
Proof.
  intros c. destruct (n_rieof true c) as (_ & _ & _ & _ & _ & _ & -> & _). split; [|reflexivity].
  unfold chan_rcvd_ieof. cbv zeta. set (c1 := if is_open _ then _ else _). assert (K : b_out (c_b c1) = b_out (c_b c)) by (unfold c1; destruct (is_open _); reflexivity). clearbody c1.
  rewrite <- K. destruct (_ && _); [apply out_obuf|reflexivity].
Qed.
Lemma out_ibuf : forall c, b_out (c_b (chan_ibuf_empty c)) = b_out (c_b c).
Proof. intros c. destruct (n_ibuf true true c) as (_ & _ & _ & _ & _ & _ & _ & _ & _ & _ & _ & _ & H & _). now destruct (H eq_refl). Qed.
Lemma out_ieof : forall c, b_out (c_b (channel_input_ieof c)) = b_out (c_b c) /\ g_written (c_g (channel_input_ieof c)) = g_written (c_g c).
Proof.
  intros c. destruct (n_ieof true c) as (_ & _ & _ & _ & _ & _ & -> & _). split; [|reflexivity].
  unfold channel_input_ieof. cbv zeta. destruct (out_rieof c) as (E & _). destruct (_ && _); [|exact E]. destruct (empty _); [rewrite out_ibuf|]; exact E.
Qed.
Lemma out_shext : forall c, b_out (c_b (chan_shutdown_extended_read c)) = b_out (c_b c).
Proof. intros c. unfold chan_shutdown_extended_read. destruct (_ || _); [reflexivity|]. destruct (is_write _); reflexivity. Qed.
Lemma out_oclose : forall c, b_out (c_b (chan_rcvd_oclose c)) = b_out (c_b c) /\ g_written (c_g (chan_rcvd_oclose c)) = g_written (c_g c).
Proof.
  intros c. destruct (n_oclose false c ltac:(discriminate)) as (_ & _ & _ & _ & _ & _ & -> & _). split; [|reflexivity].
  unfold chan_rcvd_oclose. cbv zeta. set (c1 := if f_local _ then _ else _). assert (K : b_out (c_b c1) = b_out (c_b c)) by (unfold c1; destruct (f_local _); reflexivity). clearbody c1.
  rewrite <- K. destruct (ty_larval _); [reflexivity|]. set (c2 := if is_open _ then _ else _). assert (K2 : b_out (c_b c2) = b_out (c_b c1)) by (unfold c2; destruct (is_open _); reflexivity). clearbody c2.
  rewrite <- K2. destruct (p_i (c_p c2)) eqn:Ei; [| |reflexivity].
  - change (b_out (c_b (chan_shutdown_extended_read c2)) = b_out (c_b c2)). apply out_shext.
  - set (c3 := if f_local _ then _ else _). change (b_out (c_b (chan_shutdown_extended_read c3)) = b_out (c_b c2)). rewrite out_shext. unfold c3, chan_send_eof2. destruct (f_local _); [reflexivity|]. destruct (is_drain _); reflexivity.
Qed.

Lemma k1_recv : forall x y n k m x', dinv x y n k -> dinv y x k n -> kinv x y (firstn n (g_sent (c_g x))) -> nth_error (g_sent (c_g y)) k = Some m -> step x (EvRecv m) = Some x' ->
  In MEof (g_sent (c_g x')) -> g_read (c_g x') = stream (g_sent (c_g x')).
Proof.
  intros x y n k m x' D D' (K1 & K2 & K3) Hm E. pose proof D as (D1 & D2 & D3 & D4 & D5 & D6 & D7 & D8 & D9 & D10 & D11 & D12).
  destruct (not_freed y x k n m D' Hm) as (Hf & _ & _). cbn [step] in E. unfold recv in E. rewrite Hf in E. destruct m.
  - unfold channel_input_data in E. destruct (negb _); [now injection E as <-|]. destruct (negb _); [now injection E as <-|]. destruct (_ <? _); [now injection E as <-|].
    destruct (_ <? _); [destruct (_ <? _); [discriminate|]|]; (destruct (_ <? _); [discriminate|]); injection E as <-; exact K1.
  - unfold channel_input_extended_data in E. destruct (negb _); [now injection E as <-|].
    destruct (_ && _); [discriminate|]. destruct (_ || _); [now injection E as <-|]. destruct (_ <? _); [now injection E as <-|]. injection E as <-. destruct (_ <? _); exact K1.
  - injection E as <-. apply (k1_nrel false x); auto. apply n_ieof.
  - injection E as <-. apply (k1_nrel false x); auto. apply n_oclose. intros _ Hd.
    assert (Hc : In MClose (g_sent (c_g y))) by (eapply nth_error_In; exact Hm). destruct (cs_closed y D2 Hc) as [_ Ho].
    assert (Hcl : p_i (c_p x) = HClosed).
    { assert (HI : forall z, In z (firstn n (g_sent (c_g x))) -> In z (g_sent (c_g x))) by (intros z Hz; rewrite <- (firstn_skipn n (g_sent (c_g x))); apply in_or_app; now left).
      destruct (p_er (c_p y)) eqn:E1; [apply es_closed; auto|]. destruct (p_cr (c_p y)) eqn:E2; [apply (cs_closed x D1); auto|]. rewrite (K2 eq_refl eq_refl) in Ho. discriminate. }
    congruence.
  - unfold channel_input_window_adjust in E. destruct (_ <? _); [discriminate|]. injection E as <-. exact K1.
  - injection E as <-. apply (k1_nrel true x); auto. apply n_eow.
Qed.
Lemma k2_recv : forall x y n k m y', dinv x y n k -> kinv x y (firstn n (g_sent (c_g x))) -> nth_error (g_sent (c_g x)) n = Some m -> step y (EvRecv m) = Some y' ->
  (p_er (c_p y') = false -> p_cr (c_p y') = false -> p_o (c_p y') = HOpen) /\ (p_er (c_p y') = true -> g_written (c_g y') ++ b_out (c_b y') = stream (firstn (S n) (g_sent (c_g x)))).
Proof.
  intros x y n k m y' D (K1 & K2 & K3) Hm E. pose proof D as (D1 & D2 & D3 & D4 & D5 & D6 & D7 & D8 & D9 & D10 & D11 & D12).
  destruct (not_freed x y n k m D Hm) as (Hf & Hcr & Her). destruct (nth_skipn _ _ _ _ Hm) as (_ & Q2 & _). rewrite Q2, stream_app, stream1.
  destruct (flags_step y _ y' E) as (G1 & G2 & G3 & G4 & _). pose proof D10 as (T1 & _).
  assert (Hst : forall z, p_o (c_p z) = p_o (c_p y) -> p_er (c_p z) = p_er (c_p y) -> p_cr (c_p z) = p_cr (c_p y) -> g_written (c_g z) = g_written (c_g y) -> b_out (c_b z) = b_out (c_b y) -> data_of m = [] ->
    (p_er (c_p z) = false -> p_cr (c_p z) = false -> p_o (c_p z) = HOpen) /\ (p_er (c_p z) = true -> g_written (c_g z) ++ b_out (c_b z) = stream (firstn n (g_sent (c_g x))) ++ data_of m)).
  { intros z -> -> -> -> -> ->. rewrite app_nil_r. split; auto. }
  cbn [step] in E. unfold recv in E. rewrite Hf in E. destruct m.
  - specialize (Her I). split.
    + intros _ _. rewrite <- (K2 Her Hcr). unfold channel_input_data in E. destruct (negb _); [now injection E as <-|]. destruct (negb _); [now injection E as <-|]. destruct (_ <? _); [now injection E as <-|].
      destruct (_ <? _); [destruct (_ <? _); [discriminate|]|]; (destruct (_ <? _); [discriminate|]); injection E as <-; reflexivity.
    + intros H. destruct (G1 H) as [Q|Q]; [congruence|discriminate].
  - unfold channel_input_extended_data in E. destruct (negb _); [injection E as <-; now apply Hst|].
    destruct (_ && _); [discriminate|]. destruct (_ || _); [injection E as <-; now apply Hst|]. destruct (_ <? _); [injection E as <-; now apply Hst|]. injection E as <-. destruct (_ <? _); now apply Hst.
  - specialize (Her I). injection E as <-. destruct (fl_ieof y) as (E1 & E2 & _). destruct (out_ieof y) as (E3 & E4). rewrite E1, E2, E3, E4. cbn [data_of]. rewrite app_nil_r. split; [discriminate|].
    intros _. symmetry. apply T1, K2; auto.
  - injection E as <-. destruct (fl_oclose y) as (E1 & E2 & _). destruct (out_oclose y) as (E3 & E4). rewrite E1, E2, E3, E4, D6. cbn [data_of]. rewrite app_nil_r. split; [discriminate|]. exact K3.
  - unfold channel_input_window_adjust in E. destruct (_ <? _); [discriminate|]. injection E as <-. now apply Hst.
  - injection E as <-. destruct (n_eow true true y) as (_ & _ & _ & _ & _ & _ & E4 & _). unfold chan_rcvd_eow in *. destruct (is_open _); now apply Hst.
Qed.
