(** C48: pipelined SFTP downloads. *)
From Coq Require Import String.
From Verif Require Import Base SshbufModel SshbufSpec WireSpec Dec SclientModel SclientSpec SclientProof SclientProof2 SclientProof3 SclientProof4.
Local Open Scope Z_scope.

Lemma loop_result : forall i evs h, i_handle i = Some h -> sftp_download i evs =
    match dl_loop h (size_of i) (i_numreq i) evs false (s_init i) with
    | Ended intr s => dl_finish i intr s
    | Waiting s => mkRes Blocked (d_file s) (d_trace s)
    | Died s => mkRes Exited (d_file s) (d_trace s)
    end -> o_trace (sftp_download i evs) = d_trace (end_of (dl_loop h (size_of i) (i_numreq i) evs false (s_init i))).
Proof. intros i evs h _ E. rewrite E. destruct (dl_loop _ _ _ _ _ _); cbn [end_of o_trace]; try reflexivity. apply finish_trace. Qed.

(** However the server orders and cuts its answers, a download that reports
    success has left a copy of the remote file. *)
Theorem C48_download : forall i evs h F r,
  i_handle i = Some h -> sftp_download i evs = r -> o_out r = Return true -> honest h F (o_trace r) -> sizes_ok i F (o_trace r) -> i_trunc i = true \/ i_inplace i = false ->
  o_file r = copy i F.
Proof.
  intros i evs h F r Hh <- Ho Hon (Z1 & Z2 & Z3 & Z4 & Z5) T. destruct (download_eq i evs) as [[E _]|[[E _]|(h' & Hh' & E)]]; [rewrite E in Ho; discriminate|rewrite E in Ho; discriminate|]. assert (h' = h) by congruence. subst h'. rewrite (loop_result i evs h Hh E) in Hon, Z5. pose proof (the_loop i h F evs Z1 Z2 Z3 Z4 Hon Z5) as L. unfold loop in L. rewrite E in *. clear Hon Z5.
  destruct (dl_loop _ _ _ _ _ _) as [b s|s|s]; cbn [o_out] in Ho; try discriminate. destruct L as (I & N & M). destruct (dl_finish i b s) as [out f tr] eqn:Ef. cbn [o_out o_file] in *. subst out. exact (finish_ok i h F b s f tr I N M T Ef).
Qed.
Print Assumptions C48_download.

(** When it reports failure after starting, what is left is a beginning of
    that copy, provided at most one write to the local file failed. *)
Theorem C48_partial_file : forall i evs h F r ok,
  i_handle i = Some h -> sftp_download i evs = r -> o_out r = Return ok -> honest h F (o_trace r) -> sizes_ok i F (o_trace r) -> i_trunc i = true -> count is_wfail (o_trace r) <= 1 ->
  (o_trace r = [] /\ o_file r = i_local i) \/ exists n, 0 <= n /\ o_file r = copy_up_to i F n.
Proof.
  intros i evs h F r ok Hh <- Ho Hon (Z1 & Z2 & Z3 & Z4 & Z5) T W. destruct (download_eq i evs) as [[E _]|[[E _]|(h' & Hh' & E)]]; [rewrite E; left; auto|rewrite E; left; auto|]. assert (h' = h) by congruence. subst h'. rewrite (loop_result i evs h Hh E) in Hon, Z5, W. pose proof (the_loop i h F evs Z1 Z2 Z3 Z4 Hon Z5) as L. unfold loop in L. rewrite E in *. clear Hon Z5.
  destruct (dl_loop _ _ _ _ _ _) as [b s|s|s]; cbn [o_out] in Ho; try discriminate. destruct L as (I & N & M). cbn [end_of] in W. destruct (dl_finish i b s) as [out f tr] eqn:Ef. cbn [o_out o_file o_trace] in *. subst out. right. exact (finish_any i h F b s ok f tr I N M T W Ef).
Qed.
Print Assumptions C48_partial_file.

(** An honest server never makes it give up, only a broken connection does. *)
Theorem C48_no_exit : forall i evs h F r,
  i_handle i = Some h -> sftp_download i evs = r -> honest h F (o_trace r) -> sizes_ok i F (o_trace r) -> (forall e, In e evs -> ev_msg e <> None) -> o_out r <> Exited.
Proof.
  intros i evs h F r Hh <- Hon (Z1 & Z2 & Z3 & Z4 & Z5) K. destruct (download_eq i evs) as [[E _]|[[E _]|(h' & Hh' & E)]]; [rewrite E; discriminate|rewrite E; discriminate|]. assert (h' = h) by congruence. subst h'. rewrite (loop_result i evs h Hh E) in Hon, Z5. pose proof (the_loop i h F evs Z1 Z2 Z3 Z4 Hon Z5) as L. unfold loop in L. rewrite E in *.
  destruct (dl_loop _ _ _ _ _ _) as [b s|s|s]; [|discriminate|]; [|destruct L as (e & He & Q); exfalso; exact (K e He Q)]. destruct L as (I & N & M). destruct (finish_returns i b s (no_reqs _ _ _ _ _ _ _ I N)) as (ok & f & ->). discriminate.
Qed.
Print Assumptions C48_no_exit.

(** Whatever the server sends: while the download waits, some request has no
    answer yet, and no more than the limit have none. *)
Theorem C48_outstanding : forall i evs r, sftp_download i evs = r -> o_out r = Blocked ->
  1 <= count is_send (o_trace r) - count is_recv (o_trace r) <= Z.max 1 (i_numreq i).
Proof.
  intros i evs r <- Ho. destruct (download_eq i evs) as [[E _]|[[E _]|(h & Hh & E)]]; [rewrite E in Ho; discriminate|rewrite E in Ho; discriminate|]. rewrite E in *. destruct (dl_loop _ _ _ _ _ _) as [b s|s|s] eqn:El; cbn [o_out o_trace] in *; [|clear Ho|discriminate].
  - unfold dl_finish in Ho. destruct (d_reqs s); discriminate.
  - destruct (loop_counts h (size_of i) (i_numreq i) evs false (s_init i) s) as [(A & B & C & D) P]; [|exact El|lia]. unfold counts, s_init. cbn [d_num d_trace d_reqs d_max]. change (count is_send []) with 0. change (count is_recv []) with 0. change (zlen (@nil req)) with 0. lia.
Qed.
Print Assumptions C48_outstanding.

(** A failure is reported only for a reason: the download could not start, the
    server sent an error, a write failed, the user interrupted, or closing failed. *)
Theorem C48_reasons : forall i evs r, sftp_download i evs = r -> o_out r = Return false -> (forall e m, In e evs -> ev_msg e = Some m -> is_bytes m) ->
  (o_trace r = [] /\ o_file r = i_local i /\ ((exists p, i_perm i = Some p /\ s_isreg p = false) \/ i_handle i = None \/ i_open i = false \/ (i_resume i = true /\ (i_fstat i = false \/ zlen (i_local i) > size_of i)))) \/
  (exists m id code, In (TRecv m) (o_trace r) /\ status_reply id code m /\ code <> 1) \/
  1 <= count is_wfail (o_trace r) \/ (exists e, In e evs /\ ev_intr e = true) \/ i_intr1 i || i_intr2 i || i_intr3 i = true \/ i_close i = false.
Proof.
  intros i evs r <- Ho Hb. destruct (download_eq i evs) as [[E K]|[[E K]|(h & Hh & E)]]; [rewrite E in *; left; cbn [o_trace o_file]; intuition|rewrite E in *; left; cbn [o_trace o_file]; intuition|]. rewrite E in *. right.
  pose proof (loop_blamed h (size_of i) (i_numreq i) evs false (s_init i) Hb ltac:(split; cbn [s_init d_rerr d_werr]; discriminate)) as B. destruct (dl_loop _ _ _ _ _ _) as [b s|s|s]; cbn [o_out] in Ho; try discriminate. destruct B as [[B1 B2] B3]. rewrite finish_trace. unfold dl_finish in Ho. destruct (d_reqs s); [|discriminate]. cbn [o_out] in Ho. injection Ho as Ho.
  destruct (d_rerr s); [left; destruct (B1 eq_refl) as (m & M1 & id & code & M2 & M3); eauto 8|]. destruct (d_werr s); [right; left; auto|]. right; right. destruct b; [left; destruct (B3 eq_refl) as [Q|Q]; [discriminate|exact Q]|]. right. cbn [orb] in Ho. destruct (i_close i); [left|right; reflexivity]. cbn [andb] in Ho. now apply negb_false_iff.
Qed.
Print Assumptions C48_reasons.

(** ** Where the English claim fails *)

Definition H0 : list Z := [104].
Definition data_msg (id : Z) (d : list Z) : list Z := [103] ++ be_enc 4 id ++ enc_string d.
Definition status_msg (id code : Z) : list Z := [101] ++ be_enc 4 id ++ be_enc 4 code.
Definition ask (id off len : Z) : list Z := [5] ++ be_enc 4 id ++ enc_string H0 ++ be_enc 8 off ++ be_enc 4 len.
Definition got (m : list Z) : event := mkEv false (Some m) WOk.
Definition got_bad (m : list Z) (n : Z) : event := mkEv false (Some m) (WFail n).
(** A file of eight bytes, pieces of two. *)
Definition F0 : list Z := [1;2;3;4;5;6;7;8].
Definition base_in : dl_in := mkIn (Some 8) None false false (Some H0) true true [] 2 16 0 false false false true true.

(** Checking a concrete exchange. *)
Definition ask_check (h m : list Z) (id off len : Z) : option (Z * Z * Z) :=
  if beqb m ([5] ++ be_enc 4 id ++ enc_string h ++ be_enc 8 off ++ be_enc 4 len) && (0 <=? id) && (id <? 4294967296) && (0 <=? off) && (off <? 18446744073709551616) && (0 <=? len) && (len <? 4294967296)
  then Some (id, off, len) else None.
Lemma ask_check_ok : forall h m id off len a b c, ask_check h m id off len = Some (a, b, c) -> asks h m a b c.
Proof. intros h m id off len a b c E. unfold ask_check in E. destruct (_ && _) eqn:Q; [|discriminate]. repeat (apply andb_prop in Q; destruct Q as [Q ?]). apply beqb_eq in Q. injection E as <- <- <-. split; [exact Q|lia]. Qed.
Definition ask_of (h m : list Z) : option (Z * Z * Z) :=
  ask_check h m (be_dec (ztake 4 (zdrop 1 m))) (be_dec (ztake 8 (zdrop (9 + zlen h) m))) (be_dec (ztake 4 (zdrop (17 + zlen h) m))).
Definition told (F : list Z) (id off len : Z) (m : list Z) : bool :=
  let d := zdrop 9 m in
  let code := be_dec (ztake 4 (zdrop 5 m)) in
  (beqb m ([103] ++ be_enc 4 id ++ enc_string d ++ []) && (zlen d <=? 262144) && (zlen d <=? len) && (off + zlen d <=? zlen F) && beqb d (part F off (zlen d))) ||
  (beqb m ([101] ++ be_enc 4 id ++ be_enc 4 1 ++ []) && (zlen F <=? off)) ||
  (beqb m ([101] ++ be_enc 4 id ++ be_enc 4 code ++ []) && (0 <=? code) && (code <? 4294967296) && negb (code =? 1)).
Fixpoint answer (F : list Z) (m : list Z) (open : list (Z * Z * Z)) : option (list (Z * Z * Z)) :=
  match open with
  | [] => None
  | (id, off, len) :: r => if told F id off len m then Some r else match answer F m r with Some r' => Some ((id, off, len) :: r') | None => None end
  end.
Fixpoint exchange (h F : list Z) (tr : list item) (open : list (Z * Z * Z)) : bool :=
  match tr with
  | [] => true
  | TSend m :: r => match ask_of h m with Some q => exchange h F r (open ++ [q]) | None => false end
  | TRecv m :: r => match answer F m open with Some o => exchange h F r o | None => false end
  | TWrite _ _ _ :: r => exchange h F r open
  end.
Lemma told_ok : forall F id off len m, told F id off len m = true -> truth F id off len m.
Proof.
  intros F id off len m H. unfold told in H. apply orb_prop in H. destruct H as [H|H]; [apply orb_prop in H; destruct H as [H|H]|]; repeat (apply andb_prop in H; destruct H as [H ?]).
  - left. eexists. split; [split; [|exists []; apply beqb_eq; exact H]; lia|]. split; [lia|]. split; [lia|]. now apply beqb_eq.
  - right; left. split; [split; [lia|exists []; now apply beqb_eq]|lia].
  - right; right. exists (be_dec (ztake 4 (zdrop 5 m))). split; [lia|]. split; [lia|]. exists []. now apply beqb_eq.
Qed.
Lemma answer_ok : forall F m open o', answer F m open = Some o' -> exists o1 id off len o2, open = o1 ++ (id, off, len) :: o2 /\ o' = o1 ++ o2 /\ truth F id off len m.
Proof.
  intros F m. induction open as [|[[id off] len] r IH]; intros o' H; cbn [answer] in H; [discriminate|]. destruct (told F id off len m) eqn:E.
  - injection H as <-. exists [], id, off, len, r. split; [reflexivity|]. split; [reflexivity|]. now apply told_ok.
  - destruct (answer F m r) as [r'|]; [|discriminate]. injection H as <-. destruct (IH r' eq_refl) as (o1 & i & o & l & o2 & -> & -> & T). exists ((id, off, len) :: o1), i, o, l, o2. auto.
Qed.
Lemma exchange_ok : forall h F tr pre open, serves h F pre open -> exchange h F tr open = true -> honest h F (pre ++ tr).
Proof.
  intros h F. induction tr as [|x tr IH]; intros pre open S H; cbn [exchange] in H; [rewrite app_nil_r; now exists open|]. replace (pre ++ x :: tr) with ((pre ++ [x]) ++ tr) by (rewrite <- app_assoc; reflexivity). destruct x as [m|m|off d w].
  - destruct (ask_of h m) as [[[id off] len]|] eqn:E; [|discriminate]. eapply IH; [|exact H]. apply sv_send; [exact S|]. eapply ask_check_ok. exact E.
  - destruct (answer F m open) as [o'|] eqn:E; [|discriminate]. destruct (answer_ok _ _ _ _ E) as (o1 & id & off & len & o2 & -> & -> & T). eapply IH; [|exact H]. eapply sv_recv; eauto.
  - eapply IH; [|exact H]. now apply sv_write.
Qed.
Lemma exchange_honest : forall h F tr, exchange h F tr [] = true -> honest h F tr.
Proof. intros h F tr H. exact (exchange_ok h F tr [] [] (sv_nil h F) H). Qed.

(** Replies out of order and one of them short, then the end of the file. *)
Definition evs1 : list event :=
  [got (data_msg 0 [1;2]); got (data_msg 2 [5;6]); got (data_msg 1 [3]); got (status_msg 4 1); got (data_msg 3 [7;8]); got (data_msg 5 [4])].
Lemma sizes_base : forall i F tr, i_buflen i = 2 -> i_msgid i = 0 -> zlen F < 100 -> zlen (i_local i) < 100 -> count is_send tr < 100 -> sizes_ok i F tr.
Proof. intros i F tr H1 H2 H3 H4 H5. unfold sizes_ok. rewrite H1, H2. lia. Qed.
Ltac concrete := split; [vm_compute; reflexivity|]; split; [apply exchange_honest; vm_compute; reflexivity|]; split; [apply sizes_base; vm_compute; reflexivity|].
Example C48_download_case : let r := sftp_download base_in evs1 in
  o_out r = Return true /\ honest H0 F0 (o_trace r) /\ sizes_ok base_in F0 (o_trace r) /\ o_file r = F0 /\ count is_send (o_trace r) = 6.
Proof. cbv zeta. concrete. split; vm_compute; reflexivity. Qed.
(** The same, resuming behind three bytes that are already there. *)
Definition resume_in (l : list Z) : dl_in := mkIn (Some 8) None true false (Some H0) true true l 2 16 0 false false false true true.
Example C48_resume_case : let r := sftp_download (resume_in [9;9;9]) [got (data_msg 0 [4;5]); got (data_msg 2 [8]); got (status_msg 3 1); got (data_msg 1 [6;7])] in
  o_out r = Return true /\ honest H0 F0 (o_trace r) /\ sizes_ok (resume_in [9;9;9]) F0 (o_trace r) /\ o_file r = [9;9;9;4;5;6;7;8].
Proof. cbv zeta. concrete. vm_compute. reflexivity. Qed.
(** A write that fails while later data is already there: what is left is a beginning. *)
Example C48_partial_case : let r := sftp_download base_in [got (data_msg 0 [1;2]); got (data_msg 2 [5;6]); got_bad (data_msg 1 [3;4]) 1; got (data_msg 3 [7;8]); got (status_msg 4 1)] in
  o_out r = Return false /\ honest H0 F0 (o_trace r) /\ sizes_ok base_in F0 (o_trace r) /\ count is_wfail (o_trace r) = 1 /\ o_file r = [1;2].
Proof. cbv zeta. concrete. split; vm_compute; reflexivity. Qed.
Example C48_waits_case : let r := sftp_download base_in [got (data_msg 0 [1;2]); got (data_msg 2 [5;6])] in
  o_out r = Blocked /\ count is_send (o_trace r) = 5 /\ count is_recv (o_trace r) = 2.
Proof. vm_compute. auto. Qed.

(** Updating a file in place relies on the truncation at the end, but a failure
    of the truncation is only logged: success is reported although the old tail
    is still there. *)
Definition inplace_in (t : bool) : dl_in := mkIn (Some 8) None false true (Some H0) true true [0;0;0;0;0;0;0;0;0;99] 2 16 0 false false false t true.
Theorem C48_truncate_refuted : exists i evs h F r,
  i_handle i = Some h /\ sftp_download i evs = r /\ o_out r = Return true /\ honest h F (o_trace r) /\ sizes_ok i F (o_trace r) /\ i_trunc i = false /\ o_file r <> copy i F /\ o_file r = F ++ [0; 99].
Proof. exists (inplace_in false), evs1, H0, F0. eexists. split; [reflexivity|]. split; [reflexivity|]. concrete. split; [reflexivity|]. split; [vm_compute; discriminate|vm_compute; reflexivity]. Qed.
Print Assumptions C48_truncate_refuted.
Example C48_inplace_case : let r := sftp_download (inplace_in true) evs1 in o_out r = Return true /\ o_file r = F0.
Proof. vm_compute. auto. Qed.

(** Two failed writes, the later piece first: the second failure counts as
    written, so the file that is left has a hole instead of being a beginning of
    the remote file.  Resuming later keeps the hole and reports success. *)
Theorem C48_hole_refuted : exists i evs h F r,
  i_handle i = Some h /\ sftp_download i evs = r /\ o_out r = Return false /\ honest h F (o_trace r) /\ sizes_ok i F (o_trace r) /\ i_trunc i = true /\ count is_wfail (o_trace r) = 2 /\
  (forall n, o_file r <> copy_up_to i F n) /\
  exists evs', let r' := sftp_download (resume_in (o_file r)) evs' in o_out r' = Return true /\ honest h F (o_trace r') /\ count is_wfail (o_trace r') = 0 /\ o_file r' <> F /\ zlen (o_file r') = zlen F.
Proof.
  exists base_in, [got (data_msg 0 [1;2]); got_bad (data_msg 2 [5;6]) 0; got_bad (data_msg 1 [3;4]) 0], H0, F0. eexists. split; [reflexivity|]. split; [reflexivity|]. concrete. split; [reflexivity|]. split; [vm_compute; reflexivity|]. split.
  - intros n. change (copy_up_to base_in F0 n) with (ztake n F0). match goal with |- ?l <> _ => let l' := eval vm_compute in l in change l with l' end. unfold ztake, F0. destruct (Z.to_nat n) as [|[|[|m]]]; discriminate.
  - exists [got (data_msg 0 [5;6]); got (data_msg 1 [7;8]); got (status_msg 2 1)]. cbv zeta. split; [vm_compute; reflexivity|]. split; [apply exchange_honest; vm_compute; reflexivity|]. split; [vm_compute; reflexivity|]. split; [vm_compute; discriminate|vm_compute; reflexivity].
Qed.
Print Assumptions C48_hole_refuted.
