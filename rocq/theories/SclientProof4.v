From Coq Require Import Permutation.
From Verif Require Import Base SshbufModel SshbufSpec SshbufProof WireSpec WireProof Dec SclientModel SclientSpec SclientProof SclientProof2 SclientProof3.
Local Open Scope Z_scope.

(** The state before the loop. *)
Definition start_of (i : dl_in) : Z := if i_resume i then zlen (i_local i) else 0.
Definition file0 (i : dl_in) : list Z := if i_resume i || i_inplace i then i_local i else [].
Definition s_init (i : dl_in) : dl := mkDl [] 0 1 (start_of i) (i_buflen i) (i_msgid i) (start_of i) (start_of i) false false false FX_OK (file0 i) [].
Definition size_of (i : dl_in) : Z := match i_size i with Some z => z | None => 0 end.
Lemma download_eq : forall i evs,
  (sftp_download i evs = mkRes (Return false) (i_local i) [] /\ (i_perm i <> None /\ (exists p, i_perm i = Some p /\ s_isreg p = false) \/ i_handle i = None \/ i_open i = false)) \/
  (sftp_download i evs = mkRes (Return false) (i_local i) [] /\ i_resume i = true /\ (i_fstat i = false \/ zlen (i_local i) > size_of i)) \/
  exists h, i_handle i = Some h /\ sftp_download i evs =
    match dl_loop h (size_of i) (i_numreq i) evs false (s_init i) with
    | Ended intr s => dl_finish i intr s
    | Waiting s => mkRes Blocked (d_file s) (d_trace s)
    | Died s => mkRes Exited (d_file s) (d_trace s)
    end.
Proof.
  intros i evs. unfold sftp_download. destruct (match i_perm i with Some p => negb (s_isreg p) | None => false end) eqn:Ep.
  { left. split; [reflexivity|]. left. destruct (i_perm i) as [p|]; [|discriminate]. split; [discriminate|]. exists p. split; [reflexivity|]. now apply negb_true_iff. }
  destruct (i_handle i) as [h|] eqn:Eh; [|left; auto]. destruct (i_open i) eqn:Eo; cbn [negb]; [|left; auto]. fold (size_of i).
  destruct (i_resume i) eqn:Er; cbn [orb andb].
  - destruct (i_fstat i) eqn:Ef; cbn [negb]; [|right; left; auto]. destruct (zlen (i_local i) >? size_of i) eqn:Ez; [right; left; split; [reflexivity|]; split; [auto|right; lia]|]. right; right. exists h. split; [reflexivity|]. unfold s_init, start_of, file0. rewrite Er. reflexivity.
  - right; right. exists h. split; [reflexivity|]. unfold s_init, start_of, file0. rewrite Er. reflexivity.
Qed.

Section Fin.
Variable i : dl_in.
Variable h F : list Z.
Variable evs : list event.
Hypothesis Hbuf : 0 <= i_buflen i <= 1073741824.
Hypothesis Hid : 0 <= i_msgid i < 4294967296.
Hypothesis HF : zlen F < 4611686018427387904.
Hypothesis HL : zlen (i_local i) < 4611686018427387904.
Notation inv := (inv h F (file0 i) (start_of i) (i_msgid i)).
Lemma start_ok : 0 <= start_of i <= zlen (file0 i).
Proof. unfold start_of, file0. pose proof (zlen_nonneg _ (i_local i)). destruct (i_resume i), (i_inplace i); cbn [orb]; rewrite ?zlen_nil; lia. Qed.
Lemma start_top : start_of i < TOP.
Proof. unfold start_of, TOP. destruct (i_resume i); lia. Qed.
Lemma init_inv : inv false (s_init i).
Proof.
  pose proof start_ok as S. pose proof (zlen_nonneg _ F). split.
  - constructor; cbn [s_init d_reqs d_num d_max d_off d_buf d_next d_hw d_ack d_reord d_rerr d_werr d_status d_file d_trace]; change (count is_send []) with 0; change (count is_wfail []) with 0; auto; try lia.
    + constructor.
    + intros r [].
    + rewrite Z.add_0_r. symmetry. apply u32_id. unfold U32. lia.
    + intros r [].
    + intros. split; [lia|]. intros. lia.
  - intros open S'. cbn [s_init d_reqs d_trace map] in *. inversion S'; subst; try constructor; exfalso; match goal with E : ?a ++ [_] = [] |- _ => destruct a; discriminate end.
Qed.
Definition loop := dl_loop h (size_of i) (i_numreq i) evs false (s_init i).
Hypothesis Hon : honest h F (d_trace (end_of loop)).
Hypothesis Hcs : count is_send (d_trace (end_of loop)) <= 4294967296.
Lemma the_loop : match loop with
  | Ended b s' => inv b s' /\ d_num s' = 0 /\ (d_max s' = 0 \/ b = true)
  | Waiting s' => exists b, inv b s'
  | Died s' => exists e, In e evs /\ ev_msg e = None
  end.
Proof. apply (loop_inv h F (file0 i) (size_of i) (i_numreq i) (start_of i) (i_msgid i) start_ok start_top HF Hid); auto. exact init_inv. Qed.
End Fin.

Lemma no_reqs : forall h F f0 st b i s, inv h F f0 st b i s -> d_num s = 0 -> d_reqs s = [].
Proof. intros h F f0 st b i s [C _] E. rewrite (v_num _ _ _ _ _ _ C) in E. destruct (d_reqs s) as [|r l]; [reflexivity|]. rewrite zlen_cons in E. pose proof (zlen_nonneg _ l). lia. Qed.

(** The first part of a copy, byte by byte. *)
Lemma up_to_len : forall i F n, 0 <= n -> zlen (copy_up_to i F n) = start_of i + Z.min n (Z.max 0 (zlen F - start_of i)).
Proof.
  intros i F n H. unfold copy_up_to, start_of. pose proof (zlen_nonneg _ F). pose proof (zlen_nonneg _ (i_local i)). destruct (i_resume i); [rewrite zlen_app, part_len by lia; reflexivity|]. rewrite take_len by lia. lia.
Qed.
Lemma up_to_byte : forall i F n p, 0 <= n -> 0 <= p < start_of i + n -> byte_at (copy_up_to i F n) p = if p <? start_of i then byte_at (i_local i) p else byte_at F p.
Proof.
  intros i F n p Hn Hp. unfold copy_up_to, start_of in *. destruct (i_resume i).
  - rewrite byte_app by lia. destruct (p <? zlen (i_local i)) eqn:E; [reflexivity|]. rewrite part_byte by (pose proof (zlen_nonneg _ (i_local i)); lia). f_equal. lia.
  - replace (p <? 0) with false by lia. rewrite byte_take by lia. reflexivity.
Qed.
Lemma up_to_all : forall i F n, zlen F - start_of i <= n -> 0 <= n -> copy_up_to i F n = copy i F.
Proof.
  intros i F n H H0. unfold copy_up_to, copy, start_of in *. destruct (i_resume i); [f_equal; unfold part|]; apply ztake_all.
  - rewrite drop_len by apply zlen_nonneg. lia.
  - lia.
Qed.
Lemma low_byte : forall i p, 0 <= p < start_of i -> byte_at (file0 i) p = byte_at (i_local i) p.
Proof. intros i p H. unfold start_of, file0 in *. destruct (i_resume i); [reflexivity|lia]. Qed.

(** A file that agrees with the copy as far as it goes. *)
Lemma is_up_to : forall i F f n, 0 <= n -> zlen f = start_of i + n -> n <= Z.max 0 (zlen F - start_of i) ->
  (forall p, 0 <= p < start_of i -> byte_at f p = byte_at (file0 i) p) -> (forall p, start_of i <= p < start_of i + n -> byte_at f p = byte_at F p) -> f = copy_up_to i F n.
Proof.
  intros i F f n Hn Hl Hm Lo Hi. apply bytes_eq; [rewrite up_to_len by lia; lia|]. intros p Hp. rewrite up_to_byte by lia. destruct (p <? start_of i) eqn:E; [rewrite Lo by lia; apply low_byte; lia|apply Hi; lia].
Qed.

Lemma complete : forall i h F b s, inv h F (file0 i) (start_of i) (i_msgid i) b s -> d_num s = 0 -> d_max s = 0 \/ b = true -> d_rerr s = false -> d_werr s = false -> b = false ->
  d_ack s = Z.max (start_of i) (zlen F) /\ truncate_to (d_file s) (d_ack s) = copy i F /\ (i_inplace i = false -> d_file s = copy i F).
Proof.
  intros i h F b s I N M E1 E2 ->. pose proof (no_reqs _ _ _ _ _ _ _ I N) as R. destruct I as [C _]. pose proof (start_ok i) as S. pose proof (zlen_nonneg _ F) as LF. destruct M as [M|M]; [|discriminate]. destruct (v_end _ _ _ _ _ _ C M) as [Q|[Q|[Q|Q]]]; try congruence.
  assert (Cov : forall pos, start_of i <= pos < zlen F -> pos < d_ack s /\ pos < zlen (d_file s) /\ byte_at (d_file s) pos = byte_at F pos). { intros pos Hp. destruct (v_cov _ _ _ _ _ _ C E1 E2 pos Hp ltac:(lia)) as [K|(r & Hr & _)]; [exact K|]. rewrite R in Hr. destruct Hr. }
  pose proof (v_ack _ _ _ _ _ _ C) as Va. pose proof (v_len _ _ _ _ _ _ C) as Vl. pose proof (v_low _ _ _ _ _ _ C) as Vlo. assert (Ea : d_ack s = Z.max (start_of i) (zlen F)). { destruct (Z_lt_dec (start_of i) (zlen F)) as [L|L]; [|lia]. destruct (Cov (zlen F - 1) ltac:(lia)) as [K _]. lia. }
  split; [exact Ea|]. rewrite Ea. rewrite <- (up_to_all i F (Z.max 0 (zlen F - start_of i))) by lia. split.
  - apply is_up_to; [lia|rewrite trunc_len by lia; lia|lia| |].
    + intros p Hp. rewrite trunc_byte by lia. auto.
    + intros p Hp. rewrite trunc_byte by lia. apply Cov. lia.
  - intros Ei. assert (L0 : zlen (file0 i) = start_of i) by (unfold file0, start_of; rewrite Ei, orb_false_r; destruct (i_resume i); reflexivity). apply is_up_to; [lia| |lia|exact Vlo|intros p Hp; apply Cov; lia].
    rewrite L0 in Vl. destruct (Z_lt_dec (start_of i) (zlen F)) as [L|L]; [|lia]. destruct (Cov (zlen F - 1) ltac:(lia)) as (_ & K & _). lia.
Qed.
Lemma finish_ok : forall i h F b s f tr, inv h F (file0 i) (start_of i) (i_msgid i) b s -> d_num s = 0 -> d_max s = 0 \/ b = true -> i_trunc i = true \/ i_inplace i = false ->
  dl_finish i b s = mkRes (Return true) f tr -> f = copy i F.
Proof.
  intros i h F b s f tr I N M T E. unfold dl_finish in E. rewrite (no_reqs _ _ _ _ _ _ _ I N) in E. injection E as E1 E2 E3. destruct (d_rerr s) eqn:Er; [discriminate|]. destruct (d_werr s) eqn:Ew; [discriminate|]. destruct b; [cbn [orb negb] in E1; rewrite andb_false_r in E1; discriminate|]. cbn [orb negb andb] in *. destruct (complete i h F false s I N M Er Ew eq_refl) as (A & B & D).
  destruct (i_intr1 i); [cbn [orb negb] in E1; rewrite andb_false_r in E1; discriminate|]. cbn [orb negb] in *. destruct (i_intr2 i); [cbn [orb negb] in E1; rewrite andb_false_r in E1; discriminate|]. destruct (i_inplace i) eqn:Ei; cbn [orb] in E2; [|rewrite <- E2; auto]. destruct T as [T|T]; [|discriminate]. rewrite T in E2. now rewrite <- E2.
Qed.
Lemma finish_any : forall i h F b s ok f tr, inv h F (file0 i) (start_of i) (i_msgid i) b s -> d_num s = 0 -> d_max s = 0 \/ b = true -> i_trunc i = true -> count is_wfail (d_trace s) <= 1 ->
  dl_finish i b s = mkRes (Return ok) f tr -> exists n, 0 <= n /\ f = copy_up_to i F n.
Proof.
  intros i h F b s ok f tr I N M T W E. unfold dl_finish in E. rewrite (no_reqs _ _ _ _ _ _ _ I N) in E. injection E as _ E2 _. rewrite T in E2. pose proof (zlen_nonneg _ F) as LF.
  destruct (negb (d_rerr s) && negb (d_werr s) && negb (b || i_intr1 i)) eqn:Q.
  - apply andb_prop in Q. destruct Q as [Q Q3]. apply andb_prop in Q. destruct Q as [Q1 Q2]. apply negb_true_iff in Q1, Q2, Q3. apply orb_false_elim in Q3. destruct Q3 as [Q3 _]. destruct (complete i h F b s I N M Q1 Q2 Q3) as (A & B & D). exists (Z.max 0 (zlen F - start_of i)). split; [lia|]. rewrite up_to_all by lia. destruct (i_inplace i); cbn [orb] in E2; [now rewrite <- E2|]. destruct (_ || _ || _) in E2; [now rewrite <- E2|]. rewrite <- E2. auto.
  - assert (K : i_inplace i || d_rerr s || d_werr s || (b || i_intr1 i || i_intr2 i) = true) by (destruct (i_inplace i), (d_rerr s), (d_werr s), b, (i_intr1 i), (i_intr2 i); cbn in *; congruence). rewrite K in E2. subst f. destruct I as [C _]. destruct (v_hwb _ _ _ _ _ _ C W) as [H1 H2]. pose proof (v_hw _ _ _ _ _ _ C) as Vh. pose proof (start_ok i) as S. exists (d_hw s - start_of i). split; [lia|]. apply is_up_to; try lia.
    + rewrite trunc_len by lia. lia.
    + intros p Hp. rewrite trunc_byte by lia. exact (v_low _ _ _ _ _ _ C p Hp).
    + intros p Hp. rewrite trunc_byte by lia. apply H2. lia.
Qed.
Lemma finish_returns : forall i b s, d_reqs s = [] -> exists ok f, dl_finish i b s = mkRes (Return ok) f (d_trace s).
Proof. intros i b s E. unfold dl_finish. rewrite E. eauto. Qed.
Lemma finish_trace : forall i b s, o_trace (dl_finish i b s) = d_trace s.
Proof. intros i b s. unfold dl_finish. destruct (d_reqs s); reflexivity. Qed.

(** Counting what is outstanding does not depend on the server. *)
Definition counts (nreq : Z) (s : dl) : Prop :=
  d_num s = count is_send (d_trace s) - count is_recv (d_trace s) /\ d_num s = zlen (d_reqs s) /\ d_num s <= Z.max 1 nreq /\ 0 <= d_max s <= Z.max 1 nreq.
Lemma one_counts : forall h nr s, counts nr s -> d_num s < d_max s -> counts nr (send_one h s).
Proof. intros h nr s (A & B & C & D) H. unfold counts, send_one. cbn [d_num d_trace d_reqs d_max]. rewrite !count_app, !count_one, zlen_app, zlen_cons, zlen_nil. cbn [is_send is_recv]. lia. Qed.
Lemma more_counts : forall h nr n s, counts nr s -> Z.of_nat n <= d_max s - d_num s -> counts nr (Nat.iter n (send_one h) s) /\ d_num (Nat.iter n (send_one h) s) = d_num s + Z.of_nat n /\ d_max (Nat.iter n (send_one h) s) = d_max s.
Proof.
  intros h nr. induction n as [|n IH]; intros s C H; [split; [exact C|split; [cbn; lia|reflexivity]]|]. destruct (IH s C ltac:(lia)) as (A & B & D). cbn [Nat.iter nat_rect]. change (nat_rect _ _ _ n) with (Nat.iter n (send_one h) s). split; [apply one_counts; [exact A|lia]|]. cbn [send_one d_num d_max]. split; [lia|exact D].
Qed.
Lemma send_counts : forall h nr s, counts nr s -> counts nr (send_more h s) /\ d_num (send_more h s) = Z.max (d_num s) (d_max s).
Proof.
  intros h nr s C. unfold send_more. destruct (Z_le_dec (d_max s) (d_num s)) as [L|L].
  - replace (Z.to_nat (d_max s - d_num s)) with 0%nat by lia. split; [exact C|]. cbn. lia.
  - destruct (more_counts h nr (Z.to_nat (d_max s - d_num s)) s C ltac:(lia)) as (A & B & _). split; [exact A|lia].
Qed.
Lemma remove_len : forall l id r, request_find l id = Some r -> zlen (request_remove l (rq_id r)) = zlen l - 1 /\ forall n, zlen (request_update l (rq_id r) n) = zlen l.
Proof. intros l id r H. pose proof H as H0. destruct (find_split _ _ _ H) as (l1 & l2 & E & Ei & Er & Eu). rewrite Ei. rewrite Er. split; [|intros n; rewrite Eu]; rewrite E, !zlen_app, !zlen_cons; lia. Qed.
Lemma msg_counts : forall h sz nr s m w s', counts nr s -> on_msg h sz nr s m w = Ok s' -> counts nr s'.
Proof.
  intros h sz nr s m w s' (A & B & C & D) E. unfold on_msg in E. destruct (get_int 1 m) as [[ty m1]|]; [|discriminate]. destruct (get_int 4 m1) as [[id m2]|]; [|discriminate]. destruct (request_find _ id) as [r|] eqn:Fr; [|discriminate]. destruct (remove_len _ _ _ Fr) as [Rl Ul]. cbn [received d_reqs] in Rl, Ul. pose proof (zlen_nonneg _ (d_reqs s)) as P0.
  destruct (ty =? FXP_STATUS).
  - destruct (get_int 4 m2) as [[code m3]|]; [|discriminate]. injection E as <-. unfold counts, on_status. cbn [received d_num d_trace d_reqs d_max]. rewrite Rl, !count_app, !count_one. cbn [is_send is_recv]. lia.
  - destruct (ty =? FXP_DATA); [|discriminate]. destruct (get_str m2) as [[d m3]|]; [|discriminate]. destruct (zlen d >? rq_len r); [discriminate|]. injection E as <-. set (s1 := on_write (received m s) r d w).
    assert (T1 : d_trace s1 = (d_trace s ++ [TRecv m]) ++ [TWrite (rq_off r) d w] /\ d_reqs s1 = d_reqs s /\ d_num s1 = d_num s /\ 0 <= d_max s1 <= Z.max 1 nr) by (unfold s1, on_write; destruct (_ && _); cbn [received d_trace d_reqs d_num d_max]; repeat split; lia). destruct T1 as (T1 & T2 & T3 & T4).
    assert (K : forall s2, d_trace s2 = d_trace (on_len h s1 r (zlen d)) -> counts nr (on_len h s1 r (zlen d))) by (intros _ _; unfold counts, on_len; destruct (zlen d =? rq_len r); cbn [d_num d_trace d_reqs d_max]; rewrite T1, T2, T3, ?Rl, ?Ul, !count_app, !count_one; cbn [is_send is_recv]; lia).
    specialize (K _ eq_refl). destruct K as (K1 & K2 & K3 & K4). unfold counts, on_window. cbn [d_num d_trace d_reqs d_max]. split; [exact K1|]. split; [exact K2|]. split; [exact K3|]. clear - K4. destruct (_ >? 0) eqn:Q; [|lia]. destruct (_ && _); [lia|]. destruct (_ <? nr) eqn:Q2; lia.
Qed.
Lemma loop_counts : forall h sz nr evs intr s s', counts nr s -> dl_loop h sz nr evs intr s = Waiting s' -> counts nr s' /\ 1 <= d_num s'.
Proof.
  intros h sz nr. induction evs as [|e evs IH]; intros intr s s' C E; cbn [dl_loop] in E.
  - destruct (negb _) eqn:Q; [discriminate|]. injection E as <-. destruct (send_counts h nr s C) as [K1 K2]. split; [exact K1|]. lia.
  - destruct (negb _) eqn:Q; [discriminate|]. destruct (_ && _); [discriminate|]. set (s1 := if intr || ev_intr e then stop_new s else s) in *. assert (C1 : counts nr s1) by (unfold s1; destruct (intr || ev_intr e); [|exact C]; destruct C as (K1 & K2 & K3 & K4); unfold counts; cbn [stop_new d_num d_trace d_reqs d_max]; lia). destruct (ev_msg e) as [m|]; [|discriminate]. destruct (on_msg h sz nr (send_more h s1) m (ev_write e)) as [s3|s3] eqn:E3; [|discriminate]. apply (IH (intr || ev_intr e) s3 s'); [|exact E]. eapply msg_counts; [|exact E3]. now apply send_counts.
Qed.

(** A reported failure has a cause. *)
Definition is_error (m : list Z) : Prop := exists id code, status_reply id code m /\ code <> 1.
Definition blamed (s : dl) : Prop := (d_rerr s = true -> exists m, In (TRecv m) (d_trace s) /\ is_error m) /\ (d_werr s = true -> 1 <= count is_wfail (d_trace s)).
Lemma in_ext : forall (x : item) a b, In x a -> In x (a ++ b).
Proof. intros. apply in_app_iff. now left. Qed.
Lemma blamed_ext : forall s s' l, blamed s -> d_rerr s' = d_rerr s -> d_werr s' = d_werr s -> d_trace s' = d_trace s ++ l -> blamed s'.
Proof. intros s s' l [A B] E1 E2 E3. unfold blamed. rewrite E1, E2, E3. split; [intros Q; destruct (A Q) as (m & M1 & M2); exists m; split; [now apply in_ext|exact M2]|intros Q; pose proof (count_ext is_wfail (d_trace s) l); specialize (B Q); lia]. Qed.
Lemma more_flags : forall h n s, d_rerr (Nat.iter n (send_one h) s) = d_rerr s /\ d_werr (Nat.iter n (send_one h) s) = d_werr s.
Proof. intros h. induction n as [|n IH]; intros s; [auto|]. cbn [Nat.iter nat_rect send_one d_rerr d_werr]. apply IH. Qed.
Lemma msg_blamed : forall h sz nr s m w s', is_bytes m -> blamed s -> on_msg h sz nr s m w = Ok s' -> blamed s'.
Proof.
  intros h sz nr s m w s' Hb Bl E. unfold on_msg in E. destruct (get_int 1 m) as [[ty m1]|] eqn:G1; [|discriminate]. destruct (get_int 4 m1) as [[id m2]|] eqn:G2; [|discriminate]. destruct (request_find _ id) as [r|] eqn:Fr; [|discriminate].
  destruct (ty =? FXP_STATUS) eqn:Et.
  - destruct (get_int 4 m2) as [[code m3]|] eqn:G3; [|discriminate]. injection E as <-. destruct Bl as [A B]. split; cbn [on_status received d_rerr d_werr d_trace].
    + intros Q. destruct (code =? FX_EOF) eqn:Ec; cbn [negb] in Q; [destruct (A Q) as (x & X1 & X2); exists x; split; [now apply in_ext|exact X2]|]. exists m. split; [apply in_app_iff; right; now left|].
      destruct (get_int_spec _ _ _ _ Hb G1) as (E1 & _ & B1). destruct (get_int_spec _ _ _ _ B1 G2) as (E2 & _ & B2). destruct (get_int_spec _ _ _ _ B2 G3) as (E3 & R3 & _). exists id, code. split; [|unfold FX_EOF in Ec; lia]. split; [exact R3|]. exists m3. apply Z.eqb_eq in Et. unfold FXP_STATUS in Et. rewrite E1, E2, E3, Et. reflexivity.
    + intros Q. specialize (B Q). pose proof (count_ext is_wfail (d_trace s) [TRecv m]). lia.
  - destruct (ty =? FXP_DATA); [|discriminate]. destruct (get_str m2) as [[d m3]|]; [|discriminate]. destruct (zlen d >? rq_len r); [discriminate|]. injection E as <-.
    assert (K : blamed (on_write (received m s) r d w)).
    { destruct Bl as [A B]. unfold blamed. rewrite write_trace. cbn [received d_trace]. unfold on_write. destruct (wfailed w && negb (d_werr (received m s))) eqn:Q; cbn [received d_rerr d_werr d_trace]; (split; [intros Q1; destruct (A Q1) as (x & X1 & X2); exists x; split; [now apply in_ext, in_ext|exact X2]|]).
      - intros _. rewrite count_app, count_one. cbn [is_wfail]. apply andb_prop in Q. destruct Q as [-> _]. pose proof (count_nonneg is_wfail (d_trace s ++ [TRecv m])). lia.
      - intros Q1. specialize (B Q1). rewrite <- app_assoc. pose proof (count_ext is_wfail (d_trace s) ([TRecv m] ++ [TWrite (rq_off r) d w])). lia. }
    destruct (len_trace h (on_write (received m s) r d w) r (zlen d)) as (l & El & _). apply (blamed_ext (on_write (received m s) r d w) _ l K); [unfold on_len; destruct (zlen d =? rq_len r); reflexivity|unfold on_len; destruct (zlen d =? rq_len r); reflexivity|exact El].
Qed.
Lemma loop_blamed : forall h sz nr evs intr s, (forall e m, In e evs -> ev_msg e = Some m -> is_bytes m) -> blamed s ->
  match dl_loop h sz nr evs intr s with Ended i s' => blamed s' /\ (i = true -> intr = true \/ exists e, In e evs /\ ev_intr e = true) | _ => True end.
Proof.
  intros h sz nr. induction evs as [|e evs IH]; intros intr s Hb Bl; cbn [dl_loop]; (destruct (negb _); [split; [exact Bl|auto]|]); [exact I|].
  assert (Ki : intr || ev_intr e = true -> intr = true \/ exists e0, In e0 (e :: evs) /\ ev_intr e0 = true) by (intros Q; apply orb_prop in Q; destruct Q as [Q|Q]; [now left|right; exists e; split; [now left|exact Q]]).
  destruct ((intr || ev_intr e) && (d_num s =? 0)); [split; [exact Bl|exact Ki]|]. set (s1 := if intr || ev_intr e then stop_new s else s). assert (B1 : blamed s1) by (unfold s1; destruct (intr || ev_intr e); exact Bl). destruct (ev_msg e) as [m|] eqn:Em; [|exact I].
  assert (B2 : blamed (send_more h s1)). { destruct (more_trace h s1) as (l & El & _). destruct (more_flags h (Z.to_nat (d_max s1 - d_num s1)) s1) as [F1 F2]. exact (blamed_ext s1 _ l B1 F1 F2 El). }
  destruct (on_msg h sz nr (send_more h s1) m (ev_write e)) as [s3|s3] eqn:E3; [|exact I]. pose proof (msg_blamed h sz nr _ m _ s3 (Hb e m (or_introl eq_refl) Em) B2 E3) as B3. specialize (IH (intr || ev_intr e) s3 (fun e' m' H => Hb e' m' (or_intror H)) B3). destruct (dl_loop h sz nr evs (intr || ev_intr e) s3) as [i s'|s'|s']; auto. destruct IH as [X1 X2]. split; [exact X1|]. intros Q. destruct (X2 Q) as [Y|(e' & He & Y)]; [auto|]. right. exists e'. split; [now right|exact Y].
Qed.
