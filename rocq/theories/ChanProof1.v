From Verif Require Import Base ChanModel ChanSpec.

(** ** Order of the messages sent *)
Lemma app_snoc_split : forall A (x : A) l u v m, l ++ [m] = u ++ x :: v ->
  (v = [] /\ l = u /\ m = x) \/ (exists v', v = v' ++ [m] /\ l = u ++ x :: v').
Proof.
  intros A x l u v m H. destruct v as [|y v] using rev_ind.
  - left. apply app_inj_tail in H as [-> ->]. auto.
  - right. change (l ++ [m] = u ++ (x :: v) ++ [y]) in H. rewrite app_assoc in H. apply app_inj_tail in H as [-> ->]. eauto.
Qed.

Definition wf (cs es : bool) (sent : list wmsg) : Prop :=
  orderly sent /\ (In MClose sent <-> cs = true) /\ (In MEof sent <-> es = true).

Lemma wf_nil : wf false false [].
Proof.
  unfold wf, orderly. splits; try (intros u v H; destruct u; discriminate); try (intros u v m H; destruct u; discriminate); split; cbn; intuition congruence.
Qed.
Lemma wf_snoc : forall es sent m, wf false es sent -> m <> MClose -> m <> MEof -> (carries_data m -> es = false) -> wf false es (sent ++ [m]).
Proof.
  intros es sent m ([O1 O2] & Hc & He) Nc Ne Hd. unfold wf. splits.
  - split.
    + intros u v H. apply app_snoc_split in H as [(-> & _ & _)|(v' & -> & ->)]; [reflexivity|].
      exfalso. assert (E : false = true) by (apply Hc; apply in_or_app; right; now left). discriminate.
    + intros u v x H Hx. apply app_snoc_split in H as [(-> & _ & _)|(v' & -> & ->)]; [destruct Hx|].
      apply in_app_or in Hx as [Hx|[<-|[]]]; [apply (O2 u v' x); auto|]. intros Q. apply Hd in Q. subst es.
      assert (E : false = true) by (apply He; apply in_or_app; right; now left). discriminate.
  - rewrite in_app_iff. cbn. intuition congruence.
  - rewrite in_app_iff. cbn. intuition congruence.
Qed.
Lemma wf_eof : forall sent, wf false false sent -> wf false true (sent ++ [MEof]).
Proof.
  intros sent ([O1 O2] & Hc & He). unfold wf. splits.
  - split.
    + intros u v H. apply app_snoc_split in H as [(-> & _ & _)|(v' & -> & ->)]; [reflexivity|].
      exfalso. assert (E : false = true) by (apply Hc; apply in_or_app; right; now left). discriminate.
    + intros u v x H Hx. apply app_snoc_split in H as [(-> & _ & _)|(v' & -> & ->)]; [destruct Hx|].
      exfalso. assert (E : false = true) by (apply He; apply in_or_app; right; now left). discriminate.
  - rewrite in_app_iff. cbn. intuition congruence.
  - rewrite in_app_iff. cbn. intuition congruence.
Qed.
Lemma wf_close : forall es sent, wf false es sent -> wf true es (sent ++ [MClose]).
Proof.
  intros es sent ([O1 O2] & Hc & He). unfold wf. splits.
  - split.
    + intros u v H. apply app_snoc_split in H as [(-> & _ & _)|(v' & -> & ->)]; [reflexivity|].
      exfalso. assert (E : false = true) by (apply Hc; apply in_or_app; right; now left). discriminate.
    + intros u v x H Hx. apply app_snoc_split in H as [(-> & _ & _)|(v' & -> & ->)]; [destruct Hx|].
      apply in_app_or in Hx as [Hx|[<-|[]]]; [apply (O2 u v' x); auto|]. intros [].
  - rewrite in_app_iff. cbn. intuition congruence.
  - rewrite in_app_iff. cbn. intuition congruence.
Qed.

Definition pinv (c : chan) : Prop :=
  (p_cs (c_p c) = true -> p_i (c_p c) = HClosed /\ p_o (c_p c) = HClosed) /\
  (p_es (c_p c) = true -> p_i (c_p c) = HClosed) /\
  wf (p_cs (c_p c)) (p_es (c_p c)) (g_sent (c_g c)) /\
  (p_ty (c_p c) = TLarval -> f_detach (c_f c) = true -> f_dclose (c_f c) = false -> p_cs (c_p c) = false) /\
  p_ty (c_p c) <> TZombie /\
  (g_freed (c_g c) = true -> f_local (c_f c) = false -> p_cs (c_p c) = true /\ p_cr (c_p c) = true).

Ltac dchan c :=
  destruct c as [[cty ci co ccs ccr ces cer] [bi bo be] [rw rm lw ex lm co' lp] [fefd fus floc fses ffd fdet fdc ftty fnew fexe] [gs gr ger gw gew gf]].
Ltac unf := unfold set_i, set_o, set_ty, set_cs, set_cr, set_es, set_er, set_in, set_out, set_ext, set_rw, set_local, set_efd, set_detach, set_tty, send, note_read, note_eread, note_written, note_ewritten, set_freed in *; unfold set_p, set_b, set_w, set_f, set_g in *.
Ltac redc := cbn [c_p c_b c_w c_f c_g p_ty p_i p_o p_cs p_cr p_es p_er b_in b_out b_ext w_rw w_rmax w_lw w_exc w_lmax w_cons w_lpk f_efd f_use f_local f_session f_fdrain f_detach f_dclose f_tty f_new f_exteof g_sent g_read g_eread g_written g_ewritten g_freed
   is_read is_write is_open is_drain is_closed ty_open ty_larval negb andb orb fst snd] in *.
Ltac pfin := unfold pinv in *; redc; splits; try (intuition congruence); auto.

Lemma pinv_read_failed : forall c, pinv c -> pinv (chan_read_failed c).
Proof.
  intros c H. dchan c. unfold chan_read_failed. unf. redc. destruct ci; redc; [|exact H|exact H].
  destruct H as (H1 & H2 & H3 & H4 & H5 & H6). redc. destruct ccs; [destruct (H1 eq_refl); discriminate|].
  destruct ces; [specialize (H2 eq_refl); discriminate|]. pfin.
Qed.
Lemma pinv_ibuf_empty : forall c, pinv c -> pinv (chan_ibuf_empty c).
Proof.
  intros c H. dchan c. unfold chan_ibuf_empty, chan_send_eof2. unf. redc. destruct (empty bi); redc; [|exact H].
  destruct ci; redc; [exact H| |exact H].
  destruct H as (H1 & H2 & H3 & H4 & H5 & H6). redc. destruct ccs; [destruct (H1 eq_refl); discriminate|].
  destruct ces; [specialize (H2 eq_refl); discriminate|]. redc. destruct floc; redc; pfin.
  now apply wf_eof.
Qed.
Lemma pinv_obuf_empty : forall c, pinv c -> pinv (chan_obuf_empty c).
Proof.
  intros c H. dchan c. unfold chan_obuf_empty, chan_shutdown_write. unf. redc. destruct (empty bo); redc; [|exact H].
  destruct co; redc; try exact H. destruct H as (H1 & H2 & H3 & H4 & H5 & H6). redc. pfin.
Qed.
Lemma pinv_rcvd_eow : forall c, pinv c -> pinv (chan_rcvd_eow c).
Proof.
  intros c H. dchan c. unfold chan_rcvd_eow. unf. redc. destruct ci; redc; try exact H.
  destruct H as (H1 & H2 & H3 & H4 & H5 & H6). redc. pfin.
Qed.
Lemma pinv_rcvd_ieof : forall c, pinv c -> pinv (chan_rcvd_ieof c).
Proof.
  intros c H. unfold chan_rcvd_ieof.
  set (c1 := if is_open (p_o (c_p (set_er c))) then _ else _).
  assert (H1 : pinv c1).
  { unfold c1. clear c1. dchan c. unf. redc. destruct H as (H1 & H2 & H3 & H4 & H5 & H6). redc. destruct co; redc; pfin. }
  clearbody c1. destruct (is_drain (p_o (c_p c1)) && empty (b_out (c_b c1)) && negb (efd_output_active c1)); [now apply pinv_obuf_empty|assumption].
Qed.
Lemma pinv_set_cr : forall c, pinv c -> pinv (set_cr c).
Proof. intros c (H1 & H2 & H3 & H4 & H5 & H6). dchan c. unf. redc. pfin. Qed.
Lemma pinv_set_iclosed : forall c, pinv c -> pinv (set_i c HClosed).
Proof. intros c (H1 & H2 & H3 & H4 & H5 & H6). dchan c. unf. redc. pfin. Qed.
Lemma pinv_set_oclosed : forall c, pinv c -> pinv (set_o c HClosed).
Proof. intros c (H1 & H2 & H3 & H4 & H5 & H6). dchan c. unf. redc. pfin. Qed.
Lemma pinv_set_odrain : forall c, pinv c -> is_open (p_o (c_p c)) = true -> pinv (set_o c HDrain).
Proof. intros c (H1 & H2 & H3 & H4 & H5 & H6) Ho. dchan c. unf. redc. destruct co; try discriminate. pfin. Qed.
Lemma pinv_set_efd : forall c e u, pinv c -> pinv (set_efd c e u).
Proof. intros c e u (H1 & H2 & H3 & H4 & H5 & H6). dchan c. unf. redc. pfin. Qed.
Lemma pinv_send_eof2_closed : forall c, pinv c -> p_i (c_p c) = HDrain -> p_es (c_p c) = false -> pinv (set_i (chan_send_eof2 c) HClosed).
Proof.
  intros c (H1 & H2 & H3 & H4 & H5 & H6) Hi He. dchan c. unfold chan_send_eof2. unf. redc. subst. redc. destruct ccs; [destruct (H1 eq_refl); discriminate|]. pfin.
  now apply wf_eof.
Qed.
Lemma pinv_shut_ext : forall c, pinv c -> pinv (chan_shutdown_extended_read c).
Proof. intros c H. unfold chan_shutdown_extended_read. destruct (_ || _); [assumption|]. destruct (is_write _); [assumption|]. now apply pinv_set_efd. Qed.
Lemma shut_ext_seti : forall c h, set_i (chan_shutdown_extended_read c) h = chan_shutdown_extended_read (set_i c h).
Proof. intros c h. unfold chan_shutdown_extended_read. dchan c. unf. redc. destruct (ty_larval cty || negb fefd), (is_write fus); reflexivity. Qed.
Lemma pinv_rcvd_oclose : forall c, pinv c -> pinv (chan_rcvd_oclose c).
Proof.
  intros c H. unfold chan_rcvd_oclose.
  set (c1 := if f_local (c_f c) then c else set_cr c). assert (K1 : pinv c1) by (unfold c1; destruct (f_local _); [assumption|now apply pinv_set_cr]). clearbody c1.
  destruct (ty_larval (p_ty (c_p c1))); [now apply pinv_set_iclosed, pinv_set_oclosed|].
  set (c2 := if is_open (p_o (c_p c1)) then _ else c1). assert (K2 : pinv c2) by (unfold c2; destruct (is_open (p_o (c_p c1))) eqn:E; [now apply pinv_set_odrain|assumption]). clearbody c2. clear c1 K1.
  destruct (p_i (c_p c2)) eqn:Ei; [| |assumption].
  - now apply pinv_set_iclosed, pinv_shut_ext.
  - rewrite shut_ext_seti. apply pinv_shut_ext. destruct (f_local (c_f c2)); [now apply pinv_set_iclosed|].
    apply pinv_send_eof2_closed; auto. destruct K2 as (_ & K & _). destruct (p_es (c_p c2)); [|reflexivity]. specialize (K eq_refl). congruence.
Qed.
Lemma pinv_write_failed : forall c, pinv c -> pinv (chan_write_failed c).
Proof.
  intros c H. dchan c. unfold chan_write_failed, chan_shutdown_write, chan_send_eow2. unf. redc.
  destruct H as (H1 & H2 & H3 & H4 & H5 & H6). redc.
  destruct co, fses, fnew; redc; pfin; (destruct ccs; [destruct (H1 eq_refl); discriminate|]); apply wf_snoc; auto; try discriminate; cbn; tauto.
Qed.
Lemma pinv_is_dead : forall c b c' d, pinv c -> (p_ty (c_p c) = TLarval -> f_detach (c_f c) = true -> f_dclose (c_f c) = false -> b = false) ->
  chan_is_dead c b = (c', d) -> pinv c' /\ c_f c' = c_f c /\ p_ty (c_p c') = p_ty (c_p c) /\
  (d = true -> b = true -> f_local (c_f c) = false -> p_cs (c_p c') = true /\ p_cr (c_p c') = true).
Proof.
  intros c b c' d H Hb E. dchan c. unfold chan_is_dead, chan_send_close2 in E. unf. redc.
  destruct H as (H1 & H2 & H3 & H4 & H5 & H6). redc.
  assert (HS : pinv (mkC (mkP cty ci co ccs ccr ces cer) (mkB bi bo be) (mkW rw rm lw ex lm co' lp) (mkF fefd fus floc fses ffd fdet fdc ftty fnew fexe) (mkG gs gr ger gw gew gf))) by pfin.
  destruct cty; [..|congruence];
  (destruct ci, co; redc; try (injection E as <- <-; splits; auto; discriminate);
   destruct (fexe && is_write fus && fefd && negb (empty be)); redc; try (injection E as <- <-; splits; auto; discriminate);
   destruct floc; redc; try (injection E as <- <-; splits; auto; discriminate);
   destruct ccs, b, ccr; redc; injection E as <- <-; splits; auto; try (intros; discriminate);
   unfold pinv; redc; splits; auto; try (intros; discriminate); try (now apply wf_close);
   try (intros Q1 Q2 Q3; specialize (Hb Q1 Q2 Q3); discriminate); try (intros F L; destruct (H6 F L); discriminate)).
Qed.
Lemma pinv_freed : forall c, pinv c -> (f_local (c_f c) = false -> p_cs (c_p c) = true /\ p_cr (c_p c) = true) -> pinv (set_freed c).
Proof.
  intros c (H1 & H2 & H3 & H4 & H5 & H6) H. dchan c. unf. redc. pfin.
Qed.
Lemma pinv_gc : forall c d, pinv c -> pinv (channel_gc c d).
Proof.
  intros c d H. unfold channel_gc.
  assert (HF : forall x, pinv x -> (p_ty (c_p x) = TLarval -> f_detach (c_f x) = true -> f_dclose (c_f x) = false -> True) -> f_detach (c_f x) = false ->
    pinv (let '(c, dead) := chan_is_dead x true in if dead then set_freed c else c)).
  { intros x Hx _ Hd. destruct (chan_is_dead x true) as [x' dead] eqn:E.
    destruct (pinv_is_dead _ _ _ _ Hx ltac:(intros; congruence) E) as (K1 & K2 & _ & K3).
    destruct dead; [|assumption]. apply pinv_freed; [assumption|]. intros L. apply K3; auto. now rewrite <- K2. }
  destruct (f_detach (c_f c)) eqn:Ed; [|apply HF; auto].
  destruct (chan_is_dead c (f_dclose (c_f c))) as [c1 dead] eqn:E.
  destruct (pinv_is_dead _ _ _ _ H ltac:(intros _ _ Q; exact Q) E) as (K1 & K2 & K2' & K3).
  destruct dead; cbn [negb]; [|assumption]. destruct d; [|assumption].
  apply HF; auto.
  destruct K1 as (Q1 & Q2 & Q3 & Q4 & Q5 & Q6). dchan c1. unf. redc. pfin.
Qed.
Lemma pinv_set_in : forall c x, pinv c -> pinv (set_in c x).
Proof. intros c x (H1 & H2 & H3 & H4 & H5 & H6). dchan c. unf. redc. pfin. Qed.
Lemma pinv_set_out : forall c x, pinv c -> pinv (set_out c x).
Proof. intros c x (H1 & H2 & H3 & H4 & H5 & H6). dchan c. unf. redc. pfin. Qed.
Lemma pinv_set_ext : forall c x, pinv c -> pinv (set_ext c x).
Proof. intros c x (H1 & H2 & H3 & H4 & H5 & H6). dchan c. unf. redc. pfin. Qed.
Lemma pinv_set_w : forall c x, pinv c -> pinv (set_w c x).
Proof. intros c x (H1 & H2 & H3 & H4 & H5 & H6). dchan c. unf. redc. pfin. Qed.
Lemma pinv_note : forall c r e w x, pinv c -> pinv (set_g c (mkG (g_sent (c_g c)) r e w x (g_freed (c_g c)))).
Proof. intros c r e w x (H1 & H2 & H3 & H4 & H5 & H6). dchan c. unf. redc. pfin. Qed.
Lemma pinv_force_close : forall c a, pinv c -> pinv (channel_force_close c a).
Proof.
  intros c a H. unfold channel_force_close.
  set (c1 := if is_open (p_i (c_p c)) then _ else _). assert (K1 : pinv c1) by (unfold c1; destruct (is_open _); [now apply pinv_read_failed|assumption]). clearbody c1.
  set (c2 := if is_drain (p_i (c_p c1)) then _ else _). assert (K2 : pinv c2) by (unfold c2; destruct (is_drain _); [now apply pinv_ibuf_empty, pinv_set_in|assumption]). clearbody c2.
  set (c3 := if is_closed (p_o (c_p c2)) then _ else _). assert (K3 : pinv c3) by (unfold c3; destruct (is_closed _); [assumption|now apply pinv_write_failed, pinv_set_out]). clearbody c3.
  assert (K4 : pinv (set_efd c3 false (f_use (c_f c3)))) by (now apply pinv_set_efd). set (c4 := set_efd _ _ _) in *. clearbody c4.
  destruct a; [|assumption]. destruct K4 as (Q1 & Q2 & Q3 & Q4 & Q5 & Q6). dchan c4. unf. redc. pfin.
Qed.
Lemma pinv_send : forall c m, pinv c -> m <> MClose -> m <> MEof -> p_cs (c_p c) = false -> (carries_data m -> p_es (c_p c) = false) -> pinv (send c m).
Proof.
  intros c m (H1 & H2 & H3 & H4 & H5 & H6) N1 N2 Hc Hd. dchan c. unf. redc. subst. pfin. apply wf_snoc; auto.
Qed.
Lemma pinv_rfd : forall c r, pinv c -> pinv (channel_handle_rfd c r).
Proof.
  intros c r H. unfold channel_handle_rfd. destruct (_ && _); [assumption|]. destruct (_ <=? _); [assumption|].
  destruct r; [|assumption|now apply pinv_read_failed]. apply pinv_note, pinv_set_in, H.
Qed.
Lemma pinv_wfd : forall c r, pinv c -> pinv (channel_handle_wfd c r).
Proof.
  intros c r H. unfold channel_handle_wfd. destruct (_ || _); [assumption|].
  destruct r; [|assumption|now apply pinv_write_failed]. destruct (_ <=? _); [now apply pinv_write_failed|].
  apply pinv_set_w, pinv_set_out, pinv_note, H.
Qed.
Lemma pinv_ewrite : forall c r, pinv c -> pinv (channel_handle_efd_write c r).
Proof.
  intros c r H. unfold channel_handle_efd_write. destruct (_ || _); [assumption|].
  destruct r; [|assumption|now apply pinv_set_efd]. destruct (_ <=? _); [now apply pinv_set_efd|].
  apply pinv_set_w, pinv_set_ext, pinv_note, H.
Qed.
Lemma pinv_eread : forall c r, pinv c -> pinv (channel_handle_efd_read c r).
Proof.
  intros c r H. unfold channel_handle_efd_read. destruct (_ || _); [assumption|]. destruct (_ && _); [assumption|].
  destruct r; [|assumption|now apply pinv_set_efd]. destruct (is_read _); [|assumption]. apply pinv_note, pinv_set_ext, H.
Qed.
Lemma pinv_window : forall c, pinv c -> pinv (channel_check_window c).
Proof.
  intros c H. unfold channel_check_window. destruct (p_cs (c_p c)) eqn:Ec; redc; [rewrite andb_false_r; exact H|].
  destruct (_ && _); [|assumption]. apply pinv_set_w, pinv_send; auto; try discriminate; intros [].
Qed.
Lemma pinv_pre : forall c, pinv c -> pinv (channel_pre_open c).
Proof. intros c H. unfold channel_pre_open. destruct (_ && _); [now apply pinv_obuf_empty|assumption]. Qed.
Lemma es_open : forall c, pinv c -> is_closed (p_i (c_p c)) = false -> p_es (c_p c) = false.
Proof. intros c (_ & H & _) Hi. destruct (p_es (c_p c)); [|reflexivity]. rewrite (H eq_refl) in Hi. discriminate. Qed.
Lemma pinv_poll : forall c, pinv c -> pinv (channel_output_poll c).
Proof.
  intros c H. unfold channel_output_poll. destruct (negb (ty_open (p_ty (c_p c)))); [assumption|].
  destruct (p_cs (c_p c)) eqn:Ec; redc; [assumption|]. destruct (p_cr (c_p c)); [assumption|].
  set (c1 := if is_closed _ then _ else _).
  assert (K : pinv c1 /\ p_cs (c_p c1) = false).
  { unfold c1. destruct (is_closed (p_i (c_p c))) eqn:Ei; [auto|]. unfold channel_output_poll_input_open.
    destruct (empty (b_in (c_b c))) eqn:Eb.
    - destruct (is_drain (p_i (c_p c)) && negb (efd_input_active c)); [|auto]. split; [now apply pinv_ibuf_empty|].
      clear - Ec. dchan c. unfold chan_ibuf_empty, chan_send_eof2. unf. redc. subst. destruct (empty bi), ci, floc; reflexivity.
    - match goal with |- context[if ?b then _ else _] => destruct b end; [auto|]. split; [|exact Ec]. apply pinv_set_w, pinv_set_in, pinv_send; auto; try discriminate.
      intros _. now apply es_open. }
  destruct K as [K Kc]. clearbody c1. destruct (negb (p_es (c_p c1)) && is_read (f_use (c_f c1))) eqn:Eg; [|assumption].
  apply andb_true_iff in Eg as [Eg _]. unfold channel_output_poll_extended_read. destruct (_ =? 0); [assumption|].
  apply pinv_set_w, pinv_set_ext, pinv_send; auto; try discriminate. intros _. now destruct (p_es (c_p c1)).
Qed.
Lemma pinv_setfds : forall c e u t w, pinv c -> pinv (channel_set_fds c e u t w).
Proof.
  intros c e u t w H. unfold channel_set_fds. destruct (ty_larval (p_ty (c_p c)) && f_detach (c_f c) && negb (f_dclose (c_f c))) eqn:E; [|assumption].
  apply andb_true_iff in E as [E E3]. apply andb_true_iff in E as [E1 E2].
  assert (Hc : p_cs (c_p c) = false).
  { destruct H as (_ & _ & _ & H4 & _). apply H4; auto; [destruct (p_ty (c_p c)); try discriminate; reflexivity|now destruct (f_dclose (c_f c))]. }
  apply pinv_send; try discriminate; [|exact Hc|intros []].
  destruct H as (H1 & H2 & H3 & H4 & H5 & H6). dchan c. unf. redc. pfin.
Qed.
Lemma pinv_data : forall c d c', pinv c -> channel_input_data c d = Some c' -> pinv c'.
Proof.
  intros c d c' H E. unfold channel_input_data in E. destruct (negb _); [now injection E as <-|].
  destruct (negb _); [injection E as <-; now apply pinv_set_w|]. destruct (_ <? _); [now injection E as <-|].
  destruct (_ <? _).
  - destruct (_ <? _); [discriminate|]. destruct (_ <? _); [discriminate|]. injection E as <-. now apply pinv_set_out, pinv_set_w.
  - destruct (_ <? _); [discriminate|]. injection E as <-. now apply pinv_set_out, pinv_set_w.
Qed.
Lemma pinv_ext : forall c k d c', pinv c -> channel_input_extended_data c k d = Some c' -> pinv c'.
Proof.
  intros c k d c' H E. unfold channel_input_extended_data in E. destruct (negb _); [now injection E as <-|].
  destruct (_ && _); [discriminate|]. destruct (_ || _); [now injection E as <-|]. destruct (_ <? _); [now injection E as <-|].
  injection E as <-. apply pinv_set_w. destruct (_ <? _); [assumption|now apply pinv_set_ext].
Qed.
Lemma pinv_ieof : forall c, pinv c -> pinv (channel_input_ieof c).
Proof.
  intros c H. unfold channel_input_ieof. pose proof (pinv_rcvd_ieof c H) as K. set (c1 := chan_rcvd_ieof c) in *. clearbody c1.
  destruct (f_fdrain (c_f c1)); redc; [|assumption]. destruct (is_open (p_i (c_p c1))) eqn:Eo; [|assumption].
  assert (K1 : pinv (set_i c1 HDrain)).
  { pose proof (pinv_read_failed c1 K) as Q. unfold chan_read_failed in Q. now rewrite Eo in Q. }
  destruct (empty _); [now apply pinv_ibuf_empty|assumption].
Qed.

Lemma pinv_step : forall c e c', pinv c -> step c e = Some c' -> pinv c'.
Proof.
  intros c e c' H E.
  assert (HW : forall x, pinv x -> pinv (when_open c x)) by (intros x Hx; unfold when_open; destruct (ty_open _); assumption).
  destruct (is_recv e) eqn:Er.
  - destruct e as [| | | | | | | | | | | | | |m]; try discriminate. cbn [step] in E. unfold recv in E.
    destruct (g_freed (c_g c)). { destruct m; try discriminate. now injection E as <-. }
    destruct m.
    + eapply pinv_data; eauto.
    + eapply pinv_ext; eauto.
    + injection E as <-. now apply pinv_ieof.
    + injection E as <-. now apply pinv_rcvd_oclose.
    + unfold channel_input_window_adjust in E. destruct (_ <? _); [discriminate|]. injection E as <-. now apply pinv_set_w.
    + injection E as <-. now apply pinv_rcvd_eow.
  - assert (E' : step c e = (if g_freed (c_g c) then Some c else step c e)).
    { destruct (g_freed (c_g c)) eqn:Ef; [|reflexivity]. destruct e; try discriminate; cbn [step]; rewrite Ef; reflexivity. }
    rewrite E' in E. destruct (g_freed (c_g c)) eqn:Ef; [now injection E as <-|].
    destruct e; try discriminate; cbn [step] in E; rewrite Ef in E; injection E as <-.
    + now apply HW, pinv_rfd.
    + now apply HW, pinv_wfd.
    + now apply HW, pinv_ewrite.
    + now apply HW, pinv_eread.
    + now apply pinv_window.
    + now apply HW, pinv_pre.
    + now apply pinv_poll.
    + now apply pinv_gc.
    + now apply HW, pinv_force_close.
    + now apply HW, pinv_read_failed.
    + now apply HW, pinv_write_failed.
    + unfold when_open. destruct (ty_open (p_ty (c_p c))) eqn:Et; [|assumption].
      destruct H as (H1 & H2 & H3 & H4 & H5 & H6). dchan c. unf. redc. destruct cty; try discriminate. pfin.
    + destruct H as (H1 & H2 & H3 & H4 & H5 & H6). dchan c. unf. redc. pfin.
    + now apply pinv_setfds.
Qed.
Lemma pinv_run : forall es c c', pinv c -> run c es = Some c' -> pinv c'.
Proof.
  induction es as [|e es IH]; intros c c' H E; cbn [run] in E; [now injection E as <-|].
  destruct (step c e) as [c1|] eqn:Es; [|discriminate]. eapply IH; [|exact E]. eapply pinv_step; eauto.
Qed.
Lemma pinv_open : forall rw rmax lw lpk f, pinv (open_chan rw rmax lw lpk f).
Proof. intros. unfold open_chan, pinv. redc. splits; try discriminate. apply wf_nil. Qed.
Lemma pinv_larval : forall rw rmax lpk n x, pinv (larval_chan rw rmax lpk n x).
Proof. intros. unfold larval_chan, pinv. redc. splits; try discriminate; auto. apply wf_nil. Qed.
