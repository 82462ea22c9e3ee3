From Verif Require Import Base ChanModel ChanSpec ChanProof1.

Ltac redx := cbn [c_p c_b c_w c_f c_g p_ty p_i p_o p_cs p_cr p_es p_er b_in b_out b_ext w_rw w_rmax w_lw w_exc w_lmax w_cons w_lpk f_efd f_use f_local f_session f_fdrain f_detach f_dclose f_tty f_new f_exteof g_sent g_read g_eread g_written g_ewritten g_freed
   set_i set_o set_ty set_cs set_cr set_es set_er set_in set_out set_ext set_rw set_local set_efd set_detach set_tty send note_read note_eread note_written note_ewritten set_freed set_p set_b set_w set_f set_g].
(** ** Functions that only touch the protocol state *)
Definition control (m : wmsg) : Prop := m = MEof \/ m = MClose \/ m = MEow.
(** [k1]: EOF is only sent when the input buffer is empty; [k2]: nothing is
    received or discarded. *)
Definition nrel (k1 k2 : bool) (c c' : chan) : Prop :=
  c_w c' = c_w c /\ b_ext (c_b c') = b_ext (c_b c) /\
  f_use (c_f c') = f_use (c_f c) /\ f_local (c_f c') = f_local (c_f c) /\
  g_read (c_g c') = g_read (c_g c) /\ g_eread (c_g c') = g_eread (c_g c) /\
  g_written (c_g c') = g_written (c_g c) /\ g_ewritten (c_g c') = g_ewritten (c_g c) /\
  (f_efd (c_f c') = f_efd (c_f c) \/ f_efd (c_f c') = false) /\
  (p_ty (c_p c') = p_ty (c_p c) \/ (p_ty (c_p c') = TAbandoned /\ p_i (c_p c') = HClosed /\ p_o (c_p c') = HClosed /\ f_efd (c_f c') = false)) /\
  (p_i (c_p c') = HClosed \/ (p_i (c_p c) <> HClosed /\ b_in (c_b c') = b_in (c_b c))) /\
  ((p_o (c_p c') = HClosed /\ (b_out (c_b c') = b_out (c_b c) \/ b_out (c_b c') = [])) \/
   (p_o (c_p c) <> HClosed /\ b_out (c_b c') = b_out (c_b c) /\ (p_o (c_p c') = HOpen -> p_o (c_p c) = HOpen))) /\
  (k2 = true -> b_out (c_b c') = b_out (c_b c) /\ (p_o (c_p c) = HOpen -> p_o (c_p c') = HOpen) /\
                p_er (c_p c') = p_er (c_p c) /\ p_cr (c_p c') = p_cr (c_p c)) /\
  exists new, g_sent (c_g c') = g_sent (c_g c) ++ new /\ Forall control new /\
    (k1 = true -> In MEof new -> b_in (c_b c) = [] /\ p_i (c_p c) <> HClosed).
Lemma hcl : forall h : half, h = HClosed \/ h <> HClosed.
Proof. intros []; (now left) || (right; discriminate). Qed.
Lemma nrel_refl : forall k1 k2 c, nrel k1 k2 c c.
Proof.
  intros k1 k2 c. unfold nrel. splits; auto.
  - destruct (hcl (p_i (c_p c))); auto.
  - destruct (hcl (p_o (c_p c))); auto.
  - exists []. rewrite app_nil_r. splits; auto. intros _ [].
Qed.
Lemma nrel_trans : forall k1 k2 a b c, nrel k1 k2 a b -> nrel k1 k2 b c -> nrel k1 k2 a c.
Proof.
  intros k1 k2 a b c (A1 & A2 & A3 & A4 & A5 & A6 & A7 & A8 & A9 & A10 & A11 & A12 & A13 & na & A14 & A15 & A16)
    (B1 & B2 & B3 & B4 & B5 & B6 & B7 & B8 & B9 & B10 & B11 & B12 & B13 & nb & B14 & B15 & B16).
  unfold nrel. splits; try congruence.
  - clear - A9 B9. intuition congruence.
  - clear - A10 B10 B9 B11 B12. intuition congruence.
  - clear - A11 B11. intuition congruence.
  - clear - A12 B12. intuition congruence.
  - intros K. specialize (A13 K). specialize (B13 K). clear - A13 B13. intuition congruence.
  - exists (na ++ nb). split; [now rewrite B14, A14, app_assoc|]. split; [now apply Forall_app|].
    intros K H. apply in_app_or in H as [H|H]; [now apply A16|]. destruct (B16 K H) as (E1 & E2). destruct A11 as [A11|[A11 A11']]; [contradiction|]. split; [congruence|exact A11].
Qed.
Lemma nrel_if : forall k1 k2 (b : bool) a x y, (b = true -> nrel k1 k2 a x) -> (b = false -> nrel k1 k2 a y) -> nrel k1 k2 a (if b then x else y).
Proof. intros k1 k2 [|] a x y H1 H2; auto. Qed.
Lemma nrel_weak : forall k1 k2 c c', nrel k1 k2 c c' -> nrel false false c c'.
Proof.
  intros k1 k2 a b (A1 & A2 & A3 & A4 & A5 & A6 & A7 & A8 & A9 & A10 & A11 & A12 & A13 & na & A14 & A15 & A16). unfold nrel. splits; auto.
  - discriminate.
  - exists na. splits; auto. discriminate.
Qed.
Lemma is_closed_false : forall h, is_closed h = false -> h <> HClosed. Proof. intros [] H; discriminate. Qed.
Lemma is_closed_true : forall h, is_closed h = true -> h = HClosed. Proof. intros [] H; try discriminate; reflexivity. Qed.
Lemma is_drain_true : forall h, is_drain h = true -> h = HDrain. Proof. intros [] H; try discriminate; reflexivity. Qed.
Lemma is_open_true : forall h, is_open h = true -> h = HOpen. Proof. intros [] H; try discriminate; reflexivity. Qed.
Lemma is_open_false : forall h, is_open h = false -> h <> HOpen. Proof. intros [] H; discriminate. Qed.
Lemma empty_true : forall A (l : list A), empty l = true -> l = []. Proof. intros A [|? ?] H; try discriminate; reflexivity. Qed.

Ltac nsame := exists []; rewrite app_nil_r; splits; auto; intros _ [].
Ltac n0 c := unfold nrel; splits; auto; try (destruct (hcl (p_i (c_p c))); now auto); try (destruct (hcl (p_o (c_p c))); now auto); try now nsame.
Lemma n_iclosed : forall k1 k2 c, nrel k1 k2 c (set_i c HClosed). Proof. intros k1 k2 c. n0 c. Qed.
Lemma n_idrain : forall k1 k2 c, p_i (c_p c) <> HClosed -> nrel k1 k2 c (set_i c HDrain). Proof. intros k1 k2 c H. n0 c. Qed.
Lemma n_oclosed : forall k1 c, nrel k1 false c (set_o c HClosed). Proof. intros k1 c. n0 c; discriminate. Qed.
Lemma n_odrain : forall k1 c, p_o (c_p c) <> HClosed -> nrel k1 false c (set_o c HDrain).
Proof. intros k1 c H. n0 c; try discriminate; try (right; splits; auto; discriminate). Qed.
Lemma n_aband : forall k1 k2 c, p_i (c_p c) = HClosed -> p_o (c_p c) = HClosed -> f_efd (c_f c) = false -> nrel k1 k2 c (set_ty c TAbandoned).
Proof. intros k1 k2 c H1 H2 H3. n0 c. Qed.
Lemma n_cs : forall k1 k2 c, nrel k1 k2 c (set_cs c). Proof. intros k1 k2 c. n0 c. Qed.
Lemma n_cr : forall k1 c, nrel k1 false c (set_cr c). Proof. intros k1 c. n0 c; discriminate. Qed.
Lemma n_es : forall k1 k2 c, nrel k1 k2 c (set_es c). Proof. intros k1 k2 c. n0 c. Qed.
Lemma n_er : forall k1 c, nrel k1 false c (set_er c). Proof. intros k1 c. n0 c; discriminate. Qed.
Lemma n_efd : forall k1 k2 c, nrel k1 k2 c (set_efd c false (f_use (c_f c))). Proof. intros k1 k2 c. n0 c. Qed.
Lemma n_detach : forall k1 k2 c x y, nrel k1 k2 c (set_detach c x y). Proof. intros k1 k2 c x y. n0 c. Qed.
Lemma n_freed : forall k1 k2 c, nrel k1 k2 c (set_freed c). Proof. intros k1 k2 c. n0 c. Qed.
Lemma n_send : forall k1 k2 c m, control m -> m <> MEof -> nrel k1 k2 c (send c m).
Proof. intros k1 k2 c m H He. n0 c. exists [m]. split; [reflexivity|]. split; [constructor; [exact H|constructor]|]. intros _ [Q|[]]. congruence. Qed.
Lemma n_eof : forall k1 k2 c, (k1 = true -> b_in (c_b c) = [] /\ p_i (c_p c) <> HClosed) -> nrel k1 k2 c (send c MEof).
Proof. intros k1 k2 c H. n0 c. exists [MEof]. split; [reflexivity|]. split; [constructor; [now left|constructor]|]. intros K _. now apply H. Qed.
Lemma n_wclose : forall k1 c, nrel k1 false c (set_o (set_out c []) HClosed).
Proof. intros k1 c. n0 c; discriminate. Qed.
Lemma n_wclose_drain : forall k1 k2 c, b_out (c_b c) = [] -> p_o (c_p c) = HDrain -> nrel k1 k2 c (set_o (set_out c []) HClosed).
Proof. intros k1 k2 c H H'. n0 c. intros _. splits; auto. intros Q. congruence. Qed.
Lemma n_wclose_eow : forall k1 c, nrel k1 false c (set_o (send (set_out c []) MEow) HClosed).
Proof. intros k1 c. n0 c; try discriminate. exists [MEow]. split; [reflexivity|]. split; [constructor; [right; now right|constructor]|]. intros _ [Q|[]]. congruence. Qed.

Ltac n1 := first [apply nrel_refl | apply n_iclosed | (apply n_idrain; congruence) | apply n_oclosed | (apply n_odrain; congruence) | apply n_cs | apply n_cr | apply n_es | apply n_er | apply n_efd | apply n_detach | apply n_freed | (apply n_send; [unfold control; now auto | discriminate])].

Lemma n_eof2 : forall k1 k2 c, (k1 = true -> b_in (c_b c) = [] /\ p_i (c_p c) <> HClosed) -> nrel k1 k2 c (chan_send_eof2 c).
Proof. intros k1 k2 c H. unfold chan_send_eof2. apply nrel_if; intros _; [|n1]. apply nrel_trans with (send c MEof); [|n1]. now apply n_eof. Qed.
Lemma n_close2 : forall k1 k2 c, nrel k1 k2 c (chan_send_close2 c).
Proof. intros k1 k2 c. unfold chan_send_close2. apply nrel_if; intros _; [n1|]. apply nrel_if; intros _; [n1|]. apply nrel_trans with (send c MClose); n1. Qed.
Lemma n_shext : forall k1 k2 c, nrel k1 k2 c (chan_shutdown_extended_read c).
Proof. intros k1 k2 c. unfold chan_shutdown_extended_read. apply nrel_if; intros _; [n1|]. apply nrel_if; intros _; n1. Qed.
Lemma n_read_failed : forall k1 k2 c, nrel k1 k2 c (chan_read_failed c).
Proof. intros k1 k2 c. unfold chan_read_failed. apply nrel_if; intros H; [|n1]. apply is_open_true in H. n1. Qed.
Lemma n_ibuf : forall k1 k2 c, nrel k1 k2 c (chan_ibuf_empty c).
Proof.
  intros k1 k2 c. unfold chan_ibuf_empty. apply nrel_if; intros He; [n1|]. apply nrel_if; intros Hd; [|n1]. apply negb_false_iff, empty_true in He. apply is_drain_true in Hd.
  cbv zeta. eapply nrel_trans; [|apply n_iclosed]. apply nrel_if; intros _; [|n1]. apply n_eof2. intros _. split; congruence.
Qed.
Lemma n_ibuf_discard : forall k2 c, is_drain (p_i (c_p c)) = true -> nrel false k2 c (chan_ibuf_empty (set_in c [])).
Proof.
  intros k2 c H. unfold chan_ibuf_empty, chan_send_eof2. redx. cbn [empty negb]. rewrite H. cbv zeta. destruct (negb _); redc; n0 c.
  exists [MEof]. split; [reflexivity|]. split; [constructor; [now left|constructor]|]. discriminate.
Qed.
Lemma n_obuf : forall k1 k2 c, nrel k1 k2 c (chan_obuf_empty c).
Proof.
  intros k1 k2 c. unfold chan_obuf_empty. apply nrel_if; intros He; [n1|]. apply nrel_if; intros Hd; [|n1].
  apply negb_false_iff, empty_true in He. apply is_drain_true in Hd. now apply n_wclose_drain.
Qed.
Lemma n_eow : forall k1 k2 c, nrel k1 k2 c (chan_rcvd_eow c).
Proof. intros k1 k2 c. unfold chan_rcvd_eow. apply nrel_if; intros _; n1. Qed.
Lemma n_rieof : forall k1 c, nrel k1 false c (chan_rcvd_ieof c).
Proof.
  intros k1 c. unfold chan_rcvd_ieof. cbv zeta.
  set (c1 := if is_open _ then _ else _). apply nrel_trans with c1.
  - unfold c1. apply nrel_if; intros H; [|n1]. apply is_open_true in H. apply nrel_trans with (set_er c); n1.
  - apply nrel_if; intros _; [apply n_obuf|n1].
Qed.
Lemma n_oclose : forall k1 c, (k1 = true -> p_i (c_p c) <> HDrain) -> nrel k1 false c (chan_rcvd_oclose c).
Proof.
  intros k1 c Hk. unfold chan_rcvd_oclose. cbv zeta.
  set (c1 := if f_local (c_f c) then c else set_cr c). apply nrel_trans with c1; [unfold c1; apply nrel_if; intros _; n1|].
  assert (H1 : k1 = true -> p_i (c_p c1) <> HDrain) by (unfold c1; destruct (f_local (c_f c)); exact Hk). clearbody c1.
  apply nrel_if; intros _. { apply nrel_trans with (set_o c1 HClosed); n1. }
  set (c2 := if is_open (p_o (c_p c1)) then _ else c1). apply nrel_trans with c2; [unfold c2; apply nrel_if; intros H; [apply is_open_true in H|]; n1|].
  assert (H2 : k1 = true -> p_i (c_p c2) <> HDrain) by (unfold c2; destruct (is_open (p_o (c_p c1))); exact H1). clearbody c2.
  destruct (p_i (c_p c2)) eqn:Ei; [| |n1].
  - eapply nrel_trans; [|apply n_iclosed]. apply n_shext.
  - eapply nrel_trans; [|apply n_iclosed]. eapply nrel_trans; [|apply n_shext]. apply nrel_if; intros _; [n1|]. apply n_eof2. intros K. exfalso. now apply (H2 K).
Qed.
Lemma n_write_failed : forall k1 c, nrel k1 false c (chan_write_failed c).
Proof.
  intros k1 c. unfold chan_write_failed. apply nrel_if; intros _; [n1|]. cbv zeta. unfold chan_shutdown_write, chan_send_eow2.
  destruct (f_session (c_f (set_out c []))); [|apply n_wclose]. destruct (is_closed _); [apply n_wclose|]. destruct (f_new _); [apply n_wclose_eow|apply n_wclose].
Qed.
Lemma n_write_failed_discard : forall k1 c, nrel k1 false c (if is_closed (p_o (c_p c)) then c else chan_write_failed (set_out c [])).
Proof.
  intros k1 c. apply nrel_if; intros H; [n1|]. unfold chan_write_failed. change (p_o (c_p (set_out c []))) with (p_o (c_p c)). rewrite H. cbv zeta.
  unfold chan_shutdown_write, chan_send_eow2. change (set_out (set_out c []) []) with (set_out c []).
  destruct (f_session (c_f (set_out c []))); [|apply n_wclose]. destruct (is_closed _); [apply n_wclose|]. destruct (f_new _); [apply n_wclose_eow|apply n_wclose].
Qed.
Lemma n_dead : forall k1 k2 c b, nrel k1 k2 c (fst (chan_is_dead c b)).
Proof.
  intros k1 k2 c b. unfold chan_is_dead. destruct (p_ty (c_p c)); try n1;
    (destruct (negb _); [n1|]; destruct (_ && _); [n1|]; destruct (f_local _); [n1|]; destruct (_ && _ && _); [n1|]; cbn [fst]; apply nrel_if; intros _; [apply n_close2|n1]).
Qed.
Lemma n_gc : forall k1 k2 c d, nrel k1 k2 c (channel_gc c d).
Proof.
  intros k1 k2 c d. unfold channel_gc.
  assert (HF : forall x, nrel k1 k2 x (let '(c, dead) := chan_is_dead x true in if dead then set_freed c else c)).
  { intros x. pose proof (n_dead k1 k2 x true) as H. destruct (chan_is_dead x true) as [x' dead]. cbn [fst] in H.
    destruct dead; [|exact H]. eapply nrel_trans; [exact H|n1]. }
  apply nrel_if; intros _; [|apply HF].
  pose proof (n_dead k1 k2 c (f_dclose (c_f c))) as H. destruct (chan_is_dead c (f_dclose (c_f c))) as [x dead]. cbn [fst] in H.
  eapply nrel_trans; [exact H|]. apply nrel_if; intros _; [n1|]. apply nrel_if; intros _; [|n1].
  eapply nrel_trans; [|apply HF]. n1.
Qed.
Lemma ibuf_discard_closed : forall c, is_drain (p_i (c_p c)) = true -> p_i (c_p (chan_ibuf_empty (set_in c []))) = HClosed.
Proof. intros c H. unfold chan_ibuf_empty. redx. cbn [empty negb]. rewrite H. reflexivity. Qed.
Lemma write_failed_closed : forall c, p_o (c_p (chan_write_failed c)) = HClosed.
Proof. intros c. unfold chan_write_failed. destruct (is_closed (p_o (c_p c))) eqn:H; [now apply is_closed_true|reflexivity]. Qed.
Lemma write_failed_i : forall c, p_i (c_p (chan_write_failed c)) = p_i (c_p c).
Proof.
  intros c. unfold chan_write_failed, chan_shutdown_write, chan_send_eow2. destruct (is_closed (p_o (c_p c))); [reflexivity|]. cbv zeta.
  repeat match goal with |- context [if ?k then _ else _] => destruct k end; reflexivity.
Qed.
Lemma n_force : forall c b, nrel false false c (channel_force_close c b).
Proof.
  intros c b. unfold channel_force_close. cbv zeta.
  set (c1 := if is_open (p_i (c_p c)) then _ else c). apply nrel_trans with c1; [unfold c1; apply nrel_if; intros _; [apply n_read_failed|n1]|].
  assert (K1 : p_i (c_p c1) <> HOpen). { unfold c1, chan_read_failed. destruct (is_open (p_i (c_p c))) eqn:E; [discriminate|]. now apply is_open_false. } clearbody c1.
  set (c2 := if is_drain (p_i (c_p c1)) then _ else c1). apply nrel_trans with c2; [unfold c2; apply nrel_if; intros H; [now apply n_ibuf_discard|n1]|].
  assert (K2 : p_i (c_p c2) = HClosed). { unfold c2. destruct (is_drain (p_i (c_p c1))) eqn:E; [now apply ibuf_discard_closed|]. destruct (p_i (c_p c1)); congruence || discriminate. } clearbody c2.
  set (c3 := if is_closed (p_o (c_p c2)) then c2 else _). apply nrel_trans with c3; [apply n_write_failed_discard|].
  assert (K3 : p_i (c_p c3) = HClosed /\ p_o (c_p c3) = HClosed).
  { unfold c3. destruct (is_closed (p_o (c_p c2))) eqn:E; [apply is_closed_true in E; now split|]. rewrite write_failed_i, write_failed_closed. now split. } clearbody c3.
  eapply nrel_trans; [apply n_efd|]. apply nrel_if; intros _; [|n1]. now apply n_aband.
Qed.
Lemma n_pre : forall k1 k2 c, nrel k1 k2 c (channel_pre_open c).
Proof. intros k1 k2 c. unfold channel_pre_open. apply nrel_if; intros _; [apply n_obuf|n1]. Qed.
Lemma n_ieof : forall k1 c, nrel k1 false c (channel_input_ieof c).
Proof.
  intros k1 c. unfold channel_input_ieof. cbv zeta. apply nrel_trans with (chan_rcvd_ieof c); [apply n_rieof|].
  apply nrel_if; intros H; [|n1]. apply andb_true_iff in H as [_ H]. apply is_open_true in H.
  apply nrel_trans with (set_i (chan_rcvd_ieof c) HDrain); [n1|]. apply nrel_if; intros _; [apply n_ibuf|n1].
Qed.

(** ** Window accounting *)
Lemma zsum_app : forall x y, zsum (x ++ y) = zsum x + zsum y.
Proof. unfold zsum. induction x as [|h x IH]; intros y; cbn [app fold_right]; [lia|]. rewrite IH. lia. Qed.
Lemma volume_app : forall x y, volume (x ++ y) = volume x + volume y.
Proof. intros. unfold volume. now rewrite map_app, zsum_app. Qed.
Lemma credits_app : forall x y, credits (x ++ y) = credits x + credits y.
Proof. intros. unfold credits. now rewrite map_app, zsum_app. Qed.
Lemma volume_control : forall l, Forall control l -> volume l = 0.
Proof. induction 1 as [|m l H _ IH]; [reflexivity|]. unfold volume in *. cbn [map zsum fold_right] in *. fold (zsum (map size l)). rewrite IH. destruct H as [-> | [-> | ->]]; reflexivity. Qed.
Lemma credits_control : forall l, Forall control l -> credits l = 0.
Proof. induction 1 as [|m l H _ IH]; [reflexivity|]. unfold credits in *. cbn [map zsum fold_right] in *. fold (zsum (map credit l)). rewrite IH. destruct H as [-> | [-> | ->]]; reflexivity. Qed.
Lemma size_nonneg : forall m, 0 <= size m.
Proof. intros m. unfold size. pose proof (zlen_nonneg _ (data_of m)). pose proof (zlen_nonneg _ (ext_of m)). lia. Qed.
Lemma volume_nonneg : forall l, 0 <= volume l.
Proof. induction l as [|m l IH]; [cbn; lia|]. unfold volume in *. cbn [map zsum fold_right] in *. fold (zsum (map size l)). pose proof (size_nonneg m). lia. Qed.
Lemma volume_1 : forall m, volume [m] = size m.
Proof. intros m. unfold volume. cbn. lia. Qed.
Lemma volume_cons : forall m l, volume (m :: l) = size m + volume l.
Proof. reflexivity. Qed.
Lemma credits_cons : forall m l, credits (m :: l) = credit m + credits l.
Proof. reflexivity. Qed.

Definition inb (c : chan) : Z := zlen (b_out (c_b c)) + (if is_write (f_use (c_f c)) then zlen (b_ext (c_b c)) else 0).

(** What an event sends, and its price in windows. *)
Definition seff (c c' : chan) (got : Z) (new : list wmsg) : Prop :=
  g_sent (c_g c') = g_sent (c_g c) ++ new /\ w_rw (c_w c') + volume new <= w_rw (c_w c) + got /\ u32v (w_rw (c_w c')) /\
  w_rmax (c_w c') = w_rmax (c_w c) /\ (forall m, In m new -> size m <= Z.max 0 (w_rmax (c_w c))) /\
  (forall n d, In (MExt n d) new -> n = 1).
Definition reff (c c' : chan) (new : list wmsg) : Prop :=
  w_lmax (c_w c') = w_lmax (c_w c) /\ w_lpk (c_w c') = w_lpk (c_w c) /\ f_use (c_f c') = f_use (c_f c) /\
  w_lw (c_w c') = w_lw (c_w c) + credits new /\ (forall m, In m new -> 0 <= credit m) /\
  w_lw (c_w c') + w_cons (c_w c') + inb c' <= w_lw (c_w c) + w_cons (c_w c) + inb c /\ 0 <= w_cons (c_w c').
Definition rpre (c : chan) : Prop :=
  0 <= w_lw (c_w c) /\ 0 <= w_cons (c_w c) /\ w_lw (c_w c) + w_cons (c_w c) + inb c <= w_lmax (c_w c) <= SSHBUF_SIZE_MAX.

Lemma nrel_seff : forall k1 k2 c c' g, nrel k1 k2 c c' -> u32v (w_rw (c_w c)) -> 0 <= g -> exists new, seff c c' g new /\ Forall control new.
Proof.
  intros k1 k2 c c' g (A1 & _ & _ & _ & _ & _ & _ & _ & _ & _ & _ & _ & _ & new & A9 & A10 & _) Hu Hg. exists new. split; [|exact A10].
  unfold seff. rewrite A1, (volume_control new A10). splits; auto; try lia.
  - intros m Hm. rewrite Forall_forall in A10. destruct (A10 m Hm) as [-> | [-> | ->]]; cbn; lia.
  - intros n d Hm. rewrite Forall_forall in A10. destruct (A10 _ Hm) as [Q|[Q|Q]]; discriminate.
Qed.
Lemma nrel_reff : forall k1 k2 c c' new, nrel k1 k2 c c' -> Forall control new -> 0 <= w_cons (c_w c) -> reff c c' new.
Proof.
  intros k1 k2 c c' new (A1 & A2 & A4 & _ & _ & _ & _ & _ & _ & _ & _ & A3 & _) Hn Hc. unfold reff. rewrite A1, A4, (credits_control new Hn). splits; auto; try lia.
  { intros m Hm. rewrite Forall_forall in Hn. destruct (Hn m Hm) as [-> | [-> | ->]]; cbn; lia. }
  unfold inb. rewrite A4, A2. assert (A3' : b_out (c_b c') = b_out (c_b c) \/ b_out (c_b c') = []) by (clear - A3; intuition auto). destruct A3' as [-> | ->]; [lia|]. rewrite zlen_nil. pose proof (zlen_nonneg _ (b_out (c_b c))). lia.
Qed.


(** Every event that is not a delivery or the start of a larval session. *)
Definition plain (e : ev) : bool := match e with EvRecv _ | EvSetFds _ _ _ _ => false | _ => true end.

Lemma seff_refl : forall c, u32v (w_rw (c_w c)) -> seff c c 0 [].
Proof. intros c H. unfold seff. rewrite app_nil_r. splits; auto; try (cbn; lia); intros; contradiction. Qed.
Lemma reff_refl : forall c, 0 <= w_cons (c_w c) -> reff c c [].
Proof. intros c H. unfold reff. splits; auto; try (cbn; lia); intros m []. Qed.

Lemma empty_false : forall A (l : list A), empty l = false -> 1 <= zlen l.
Proof. intros A [|x l] H; [discriminate|]. rewrite zlen_cons. pose proof (zlen_nonneg _ l). lia. Qed.

(** The two senders of data. *)
Lemma seff_in : forall c, u32v (w_rw (c_w c)) -> 0 <= w_rmax (c_w c) -> exists new, seff c (channel_output_poll_input_open c) 0 new.
Proof.
  intros c Hu Hm. unfold channel_output_poll_input_open. destruct (empty (b_in (c_b c))) eqn:Ee.
  - assert (N : nrel true true c (if is_drain (p_i (c_p c)) && negb (efd_input_active c) then chan_ibuf_empty c else c)) by (apply nrel_if; intros _; [apply n_ibuf|n1]).
    destruct (nrel_seff _ _ _ _ 0 N Hu) as (new & H & _); [lia|]. eauto.
  - set (len := Z.min _ _). destruct (len =? 0) eqn:El; [exists []; now apply seff_refl|].
    apply empty_false in Ee. unfold u32v in Hu.
    assert (Hl : 0 <= len <= zlen (b_in (c_b c)) /\ len <= w_rw (c_w c) /\ len <= w_rmax (c_w c)) by (unfold len; lia).
    exists [MData (ztake len (b_in (c_b c)))]. unfold seff. redx. rewrite u32_id by (unfold U32; lia).
    rewrite volume_1. unfold size, data_of, ext_of. rewrite zlen_nil, zlen_ztake by lia. unfold u32v. splits; auto; try lia.
    + intros m [<-|[]]. unfold size, data_of, ext_of. rewrite zlen_nil, zlen_ztake by lia. lia.
    + intros n d [Q|[]]. discriminate.
Qed.
Lemma seff_ext : forall c, u32v (w_rw (c_w c)) -> 0 <= w_rmax (c_w c) -> exists new, seff c (channel_output_poll_extended_read c) 0 new.
Proof.
  intros c Hu Hm. unfold channel_output_poll_extended_read. cbv zeta.
  set (len := Z.min _ _). destruct (len =? 0) eqn:El; [exists []; now apply seff_refl|]. unfold u32v in Hu. pose proof (zlen_nonneg _ (b_ext (c_b c))).
  assert (Hl : 0 <= len <= zlen (b_ext (c_b c)) /\ len <= w_rw (c_w c) /\ len <= w_rmax (c_w c)) by (unfold len; lia).
  exists [MExt 1 (ztake len (b_ext (c_b c)))]. unfold seff. redx. rewrite u32_id by (unfold U32; lia).
  rewrite volume_1. unfold size, data_of, ext_of. rewrite zlen_nil, zlen_ztake by lia. unfold u32v. splits; auto; try lia.
  - intros m [<-|[]]. unfold size, data_of, ext_of. rewrite zlen_nil, zlen_ztake by lia. lia.
  - intros n d [Q|[]]. now injection Q as <- _.
Qed.
Lemma seff_trans : forall a b c n1 n2, seff a b 0 n1 -> seff b c 0 n2 -> seff a c 0 (n1 ++ n2).
Proof.
  intros a b c n1 n2 (A1 & A2 & A3 & A4 & A5 & A6) (B1 & B2 & B3 & B4 & B5 & B6). unfold seff. rewrite volume_app. splits; auto; try lia; try congruence.
  - rewrite B1, A1. now rewrite app_assoc.
  - intros m Hm. apply in_app_or in Hm as [Hm|Hm]; [now apply A5|]. specialize (B5 m Hm). rewrite A4 in B5. exact B5.
  - intros n d Hm. apply in_app_or in Hm as [Hm|Hm]; eauto.
Qed.
Lemma seff_poll : forall c, u32v (w_rw (c_w c)) -> 0 <= w_rmax (c_w c) -> exists new, seff c (channel_output_poll c) 0 new.
Proof.
  intros c Hu Hm. unfold channel_output_poll. destruct (negb _); [exists []; now apply seff_refl|]. destruct (_ || _); [exists []; now apply seff_refl|].
  cbv zeta. set (c1 := if is_closed _ then _ else _).
  assert (K : exists new, seff c c1 0 new) by (unfold c1; destruct (is_closed _); [exists []; now apply seff_refl|now apply seff_in]).
  destruct K as (n1 & K). clearbody c1. destruct (_ && _); [|eauto].
  destruct (seff_ext c1) as (n2 & K2).
  - apply K.
  - destruct K as (_ & _ & _ & -> & _). exact Hm.
  - exists (n1 ++ n2). eapply seff_trans; eauto.
Qed.

(** The effects of writing to descriptors and of window adjusts leave the sender
    side alone. *)
Lemma same_seff : forall c c' g, g_sent (c_g c') = g_sent (c_g c) -> w_rw (c_w c') = w_rw (c_w c) -> w_rmax (c_w c') = w_rmax (c_w c) -> u32v (w_rw (c_w c)) -> 0 <= g -> seff c c' g [].
Proof. intros c c' g H1 H2 H3 H Hg. unfold seff. rewrite app_nil_r, H2. splits; auto; try (cbn; lia); intros; contradiction. Qed.

Lemma step_seff : forall c e c', u32v (w_rw (c_w c)) -> 0 <= w_rmax (c_w c) -> ok_ev e -> step c e = Some c' ->
  exists new, seff c c' (match e with EvRecv m => Z.max 0 (credit m) | _ => 0 end) new.
Proof.
  intros c e c' Hu Hm Hok E.
  assert (HN : forall x, nrel false false c x -> exists new, seff c x 0 new) by (intros x Hx; destruct (nrel_seff _ _ c x 0 Hx Hu) as (n & H & _); [lia|eauto]).
  assert (HW : forall x, (exists new, seff c x 0 new) -> exists new, seff c (when_open c x) 0 new).
  { intros x Hx. unfold when_open. destruct (ty_open _); [exact Hx|]. exists []. now apply seff_refl. }
  destruct (is_recv e) eqn:Er.
  - destruct e as [| | | | | | | | | | | | | |m]; try discriminate. cbn [step] in E. unfold recv in E.
    destruct (g_freed (c_g c)).
    { destruct m; try discriminate. injection E as <-. exists []. apply same_seff; auto. cbn. lia. }
    destruct m; cbn [credit].
    + exists []. unfold channel_input_data in E. destruct (negb _); [injection E as <-; apply same_seff; auto; lia|].
      destruct (negb _); [injection E as <-; apply same_seff; auto; lia|]. destruct (_ <? _); [injection E as <-; apply same_seff; auto; lia|].
      destruct (_ <? _); [destruct (_ <? _); [discriminate|]|]; (destruct (_ <? _); [discriminate|]); injection E as <-; apply same_seff; auto; lia.
    + exists []. unfold channel_input_extended_data in E. destruct (negb _); [injection E as <-; apply same_seff; auto; lia|].
      destruct (_ && _); [discriminate|]. destruct (_ || _); [injection E as <-; apply same_seff; auto; lia|]. destruct (_ <? _); [injection E as <-; apply same_seff; auto; lia|].
      injection E as <-. destruct (_ <? _); apply same_seff; auto; lia.
    + injection E as <-. destruct (nrel_seff _ _ _ _ 0 (n_ieof false c) Hu) as (n & H & _); [lia|eauto].
    + injection E as <-. destruct (nrel_seff _ _ _ _ 0 (n_oclose false c ltac:(discriminate)) Hu) as (n & H & _); [lia|eauto].
    + unfold channel_input_window_adjust in E. cbn [ok_ev] in Hok. unfold u32v in *.
      destruct (u32 (w_rw (c_w c) + n) <? w_rw (c_w c)) eqn:El; [discriminate|]. injection E as <-. exists [].
      unfold seff. redx. rewrite app_nil_r. unfold u32, U32, u32v in *.
      assert (Hlt : w_rw (c_w c) + n < 4294967296).
      { destruct (Z_lt_ge_dec (w_rw (c_w c) + n) 4294967296) as [L|G]; [exact L|exfalso].
        replace ((w_rw (c_w c) + n) mod 4294967296) with (w_rw (c_w c) + n - 4294967296) in El; [lia|].
        rewrite <- (Z.mod_small (w_rw (c_w c) + n - 4294967296) 4294967296) by lia. rewrite Zminus_mod, Z_mod_same_full, Z.sub_0_r, Zmod_mod. reflexivity. }
      rewrite Z.mod_small by lia. splits; auto; try (cbn; lia); intros; contradiction.
    + injection E as <-. destruct (nrel_seff _ _ _ _ 0 (n_eow false false c) Hu) as (n & H & _); [lia|eauto].
  - replace (match e with EvRecv m => Z.max 0 (credit m) | _ => 0 end) with 0 by (destruct e; try reflexivity; discriminate).
    destruct (g_freed (c_g c)) eqn:Ef.
    { assert (c' = c) by (destruct e; try discriminate; cbn [step] in E; rewrite Ef in E; congruence). subst. exists []. now apply seff_refl. }
    destruct e; try discriminate; cbn [step] in E; rewrite Ef in E; injection E as <-.
    + apply HW. unfold channel_handle_rfd. destruct (_ && _); [exists []; now apply seff_refl|]. destruct (_ <=? _); [exists []; now apply seff_refl|].
      destruct r; [exists []; apply same_seff; auto; lia|exists []; now apply seff_refl|apply HN, n_read_failed].
    + apply HW. unfold channel_handle_wfd. destruct (_ || _); [exists []; now apply seff_refl|].
      destruct r; [destruct (_ <=? _); [apply HN, n_write_failed|exists []; apply same_seff; auto; lia]|exists []; now apply seff_refl|apply HN, n_write_failed].
    + apply HW. unfold channel_handle_efd_write. destruct (_ || _); [exists []; now apply seff_refl|].
      destruct r; [destruct (_ <=? _); [apply HN, n_efd|exists []; apply same_seff; auto; lia]|exists []; now apply seff_refl|apply HN, n_efd].
    + apply HW. unfold channel_handle_efd_read. destruct (_ || _); [exists []; now apply seff_refl|]. destruct (_ && _); [exists []; now apply seff_refl|].
      destruct r; [destruct (is_read _); exists []; apply same_seff; auto; lia|exists []; now apply seff_refl|apply HN, n_efd].
    + unfold channel_check_window. destruct (_ && _); [|exists []; now apply seff_refl]. exists [MAdjust (w_cons (c_w c))].
      unfold seff. redx. rewrite volume_1. splits; auto; try (cbn; lia).
      * intros m [<-|[]]. cbn. lia.
      * intros n d [Q|[]]. discriminate.
    + apply HW, HN, n_pre.
    + now apply seff_poll.
    + apply HN, n_gc.
    + apply HW, HN, n_force.
    + apply HW, HN, n_read_failed.
    + apply HW, HN, n_write_failed.
    + apply HW, HN, n_detach.
    + apply HN, n_detach.
    + unfold channel_set_fds. destruct (_ && _); [|exists []; now apply seff_refl]. exists [MAdjust win].
      unfold seff. redx. rewrite volume_1. splits; auto; try (cbn; lia).
      * intros m [<-|[]]. cbn. lia.
      * intros n d [Q|[]]. discriminate.
Qed.
