(** C71: pipelined SFTP uploads. *)
From Verif Require Import Base SshbufModel SshbufSpec WireSpec Dec SclientModel SclientSpec SclientProof SclientProof2 SclientProof3 SclientProof4 SuploadModel SuploadSpec SuploadProof SuploadProof2 SuploadProof3 SuploadProof4.
Local Open Scope Z_scope.

Section Common.
Variable i : ul_in.
Variable evs : list uevent.
Variable h L R0 : list Z.
Variable app : bool.
Variable st : Z.
Hypothesis Es : ustart i L = Some st.
Hypothesis Bf : before_ok i R0.
Hypothesis Ha : app = true -> ui_resume i = true.
Hypothesis Z1 : 1 <= ui_buflen i <= 134217724.
Hypothesis Z2 : 0 <= ui_msgid i < 4294967296.
Hypothesis Z3 : zlen L < 4611686018427387904.
Lemma the_uloop : kept h R0 app (u_trace (uend_st (ul_loop h L (ui_buflen i) (ui_numreq i) evs false (u_init (ui_msgid i) st)))) ->
  match ul_loop h L (ui_buflen i) (ui_numreq i) evs false (u_init (ui_msgid i) st) with
  | UEnded b s' => uinv h L R0 app (first i R0) (ui_msgid i) (u_off s') s' /\ u_acks s' = [] /\ (b = true \/ zlen L <= u_off s') /\ first i R0 <= zlen L /\ (ui_resume i = true -> first i R0 < zlen L)
  | UWaiting s' => uinv h L R0 app (first i R0) (ui_msgid i) (u_off s') s'
  | UDied s' => exists e, In e evs /\ (ue_msg e = None \/ ue_read e = RErr)
  end.
Proof.
  intros K. destruct (start_first i L R0 st Bf Es) as (-> & E2 & E3 & E4 & E5). pose proof (zlen_nonneg _ L).
  assert (Fl : first i R0 <= zlen L) by (unfold first in *; destruct (ui_resume i); [specialize (E3 eq_refl)|]; lia).
  assert (I0 : uinv h L R0 app (first i R0) (ui_msgid i) (u_off (u_init (ui_msgid i) (first i R0))) (u_init (ui_msgid i) (first i R0))).
  { unfold u_init. cbn [u_off]. rewrite E2. apply (uinit_inv h L R0 app (first i R0) (ui_msgid i)) with (R := R0); auto; try lia. }
  pose proof (uloop_inv h L R0 app (first i R0) (ui_msgid i) (ui_buflen i) (ui_numreq i) (proj1 E4) Fl Z3 Z1 evs false _ I0 K) as Q. destruct (ul_loop _ _ _ _ _ _ _) as [b s|s|s]; [|exact Q|exact Q]. destruct Q as (Q1 & Q2 & Q3). exact (conj Q1 (conj Q2 (conj Q3 (conj Fl E3)))).
Qed.
End Common.

(** However the server delays, reorders and carries out the writes, an upload
    that is not interrupted and hears of no error has stored the local file;
    resuming adds the rest of it to what was there. *)
Theorem C71_upload : forall i evs h L R0 app r open R honoured,
  ui_local i = Some L -> ui_handle i = Some h -> sftp_upload i evs = r -> ur_out r = UReturn true ->
  before_ok i R0 -> usizes_ok i L (ur_trace r) -> (app = true -> ui_resume i = true) -> keeps h R0 app (ur_trace r) open R -> no_error (ur_trace r) -> undisturbed i evs -> honoured = true \/ ui_inplace i = false ->
  open = [] /\ after r honoured R = uploaded i L R0.
Proof.
  intros i evs h L R0 app r open R hon HL Hh <- Ho Bf (Z1 & Z2 & Z3 & Z4) Ha K Ne (U1 & U2 & U3) Hn. destruct (upload_eq i evs) as [[E _]|(L' & st & h' & EL & Es & Eh & E)]; [rewrite E in Ho; discriminate|]. assert (L' = L) by congruence. assert (h' = h) by congruence. subst L' h'. rewrite (upload_trace i evs h L st E) in *.
  pose proof (the_uloop i evs h L R0 app st Es Bf Ha Z1 Z2 Z3 (conj (ex_intro _ open (ex_intro _ R K)) (conj Ne Z4))) as T. rewrite E in *. destruct (ul_loop _ _ _ _ _ _ _) as [b s|s|s] eqn:El; [|discriminate|discriminate]. destruct T as (I & T1 & T2 & T3 & T4). cbn [uend_st] in *.
  assert (Hb : b = false) by (destruct b; [|reflexivity]; destruct (loop_intr _ _ _ _ _ _ _ _ _ El eq_refl) as [Q|(e & He & Q)]; [discriminate|rewrite (U1 e He) in Q; discriminate]). split; [|apply (finish_up i h L R0 app b s open R Bf Ha I T1 T3 T2 T4 K); auto].
  pose proof (g_keys _ _ _ _ _ _ _ _ (proj2 I open R K)) as Kk. rewrite T1 in Kk. destruct open; [reflexivity|discriminate].
Qed.
Print Assumptions C71_upload.

(** Interrupted or not, without errors what is stored is a beginning of it. *)
Theorem C71_beginning : forall i evs h L R0 app r ok open R,
  ui_local i = Some L -> ui_handle i = Some h -> sftp_upload i evs = r -> ur_out r = UReturn ok ->
  before_ok i R0 -> usizes_ok i L (ur_trace r) -> (app = true -> ui_resume i = true) -> keeps h R0 app (ur_trace r) open R -> no_error (ur_trace r) ->
  (ur_trace r = [] /\ ur_trunc r = None /\ ok = false) \/ exists n, 0 <= n /\ after r true R = uploaded_up_to i L R0 n.
Proof.
  intros i evs h L R0 app r ok open R HL Hh <- Ho Bf (Z1 & Z2 & Z3 & Z4) Ha K Ne. destruct (upload_eq i evs) as [[E _]|(L' & st & h' & EL & Es & Eh & E)]; [rewrite E in *; left; cbn [ur_out ur_trace ur_trunc] in *; injection Ho as <-; auto|]. assert (L' = L) by congruence. assert (h' = h) by congruence. subst L' h'. rewrite (upload_trace i evs h L st E) in *.
  pose proof (the_uloop i evs h L R0 app st Es Bf Ha Z1 Z2 Z3 (conj (ex_intro _ open (ex_intro _ R K)) (conj Ne Z4))) as T. rewrite E in *. destruct (ul_loop _ _ _ _ _ _ _) as [b s|s|s] eqn:El; [|discriminate|discriminate]. destruct T as (I & T1 & T2 & T3 & T4). cbn [uend_st] in *. right. apply (finish_up i h L R0 app b s open R Bf Ha I T1 T3 T2 T4 K).
Qed.
Print Assumptions C71_beginning.

(** A server that stores what it is sent never makes the client give up. *)
Theorem C71_no_exit : forall i evs h L R0 app r open R,
  ui_local i = Some L -> ui_handle i = Some h -> sftp_upload i evs = r -> before_ok i R0 -> usizes_ok i L (ur_trace r) -> (app = true -> ui_resume i = true) -> keeps h R0 app (ur_trace r) open R -> no_error (ur_trace r) ->
  (forall e, In e evs -> ue_msg e <> None /\ ue_read e <> RErr) -> ur_out r <> UExited.
Proof.
  intros i evs h L R0 app r open R HL Hh <- Bf (Z1 & Z2 & Z3 & Z4) Ha K Ne Hv. destruct (upload_eq i evs) as [[E _]|(L' & st & h' & EL & Es & Eh & E)]; [rewrite E; discriminate|]. assert (L' = L) by congruence. assert (h' = h) by congruence. subst L' h'. rewrite (upload_trace i evs h L st E) in *.
  pose proof (the_uloop i evs h L R0 app st Es Bf Ha Z1 Z2 Z3 (conj (ex_intro _ open (ex_intro _ R K)) (conj Ne Z4))) as T. rewrite E. destruct (ul_loop _ _ _ _ _ _ _) as [b s|s|s]; [discriminate|discriminate|]. destruct T as (e & He & Q). destruct (Hv e He) as [V1 V2]. destruct Q; contradiction.
Qed.
Print Assumptions C71_no_exit.

(** Whatever the server does, at every moment at most one more request than the
    limit is without an answer. *)
Theorem C71_outstanding : forall i evs, 0 <= ui_numreq i < 4294967296 -> 0 <= ui_msgid i < 4294967296 ->
  count is_send (ur_trace (sftp_upload i evs)) - count is_recv (ur_trace (sftp_upload i evs)) <= ui_numreq i + 1.
Proof.
  intros i evs Hn Hm. destruct (upload_eq i evs) as [[E _]|(L & st & h & EL & Es & Eh & E)]; [rewrite E; cbn [ur_trace]; change (count is_send []) with 0; change (count is_recv []) with 0; lia|]. rewrite (upload_trace i evs h L st E).
  refine (uloop_counts h L (ui_buflen i) (ui_numreq i) (ui_msgid i) evs false (u_init (ui_msgid i) st) Hn _ _); [|cbn [u_init u_acks]; change (zlen (@nil req)) with 0; lia]. unfold ucounts, u_init. cbn [u_id u_ackid u_acks u_start u_trace]. change (count is_send []) with 0. change (count is_recv []) with 0. rewrite !Z.add_0_r. split; [symmetry; apply u32_id; unfold U32; lia|]. auto.
Qed.
Print Assumptions C71_outstanding.

(** Whatever the server does: an error in the last reply is reported, and
    failure is reported only for a reason. *)
Theorem C71_last_error : forall i evs r tr m id code, sftp_upload i evs = r -> (forall e m, In e evs -> ue_msg e = Some m -> is_bytes m) ->
  ur_out r = UReturn true -> ur_trace r = tr ++ [TRecv m] -> 0 <= id < 4294967296 -> status_reply id code m -> code = 0.
Proof.
  intros i evs r tr m id code <- Hb Ho Et Hi Sr. destruct (upload_eq i evs) as [[E _]|(L & st & h & EL & Es & Eh & E)]; [rewrite E in Ho; discriminate|]. rewrite E in *. pose proof (uloop_blame h L (ui_buflen i) (ui_numreq i) evs false (u_init (ui_msgid i) st) Hb) as B.
  destruct (ul_loop _ _ _ _ _ _ _) as [b s|s|s]; [|discriminate|discriminate]. destruct B as (_ & B & _); [split; [|split]; cbn [u_init u_status u_trace]; auto; [intros Q; contradiction|intros ? ? ? ? Q; destruct tr'; discriminate]|]. cbn [ul_finish ur_trace ur_out] in *. rewrite <- (B tr m id code Et Hi Sr). injection Ho as Ho. apply andb_prop in Ho. destruct Ho as [Ho _]. apply andb_prop in Ho. destruct Ho as [Ho _]. unfold FX_OK in Ho. lia.
Qed.
Print Assumptions C71_last_error.
Theorem C71_reasons : forall i evs r, sftp_upload i evs = r -> (forall e m, In e evs -> ue_msg e = Some m -> is_bytes m) -> ur_out r = UReturn false ->
  (ur_trace r = [] /\ ur_trunc r = None /\ (ui_local i = None \/ ui_handle i = None \/ ui_resume i = true)) \/
  (exists m id code, In (TRecv m) (ur_trace r) /\ status_reply id code m /\ code <> 0) \/ ui_lclose i = false \/ ui_close i = false.
Proof.
  intros i evs r <- Hb Ho. destruct (upload_eq i evs) as [[E K]|(L & st & h & EL & Es & Eh & E)]; [rewrite E; left; auto|]. right. rewrite E in *. pose proof (uloop_blame h L (ui_buflen i) (ui_numreq i) evs false (u_init (ui_msgid i) st) Hb) as B.
  destruct (ul_loop _ _ _ _ _ _ _) as [b s|s|s]; [|discriminate|discriminate]. destruct B as (B & _ & _); [split; [|split]; cbn [u_init u_status u_trace]; auto; [intros Q; contradiction|intros ? ? ? ? Q; destruct tr'; discriminate]|]. cbn [ul_finish ur_trace ur_out] in *. injection Ho as Ho. destruct (u_status s =? FX_OK) eqn:Q; [cbn [andb] in Ho; apply andb_false_iff in Ho; tauto|]. left. destruct B as (m & id & M1 & M2); [unfold FX_OK in Q; lia|]. exists m, id, (u_status s). split; [exact M1|]. split; [exact M2|unfold FX_OK in Q; lia].
Qed.
Print Assumptions C71_reasons.

(** ** Cases, and where the English claim fails *)
Definition H1 : list Z := [104].
Definition ok_msg (id code : Z) : list Z := [101] ++ be_enc 4 id ++ be_enc 4 code.
Definition w_msg (id off : Z) (d : list Z) : list Z := [6] ++ be_enc 4 id ++ enc_string H1 ++ be_enc 8 off ++ enc_string d.
Definition L1 : list Z := [1;2;3;4;5;6].
Definition up_in (resume inplace : bool) (size : Z) : ul_in := mkUin (Some L1) resume inplace (Some size) true (Some H1) 2 16 0 false false true true.
Definition ev (m : list Z) : uevent := mkUev false (RLen 2) (Some m).
Lemma kp_conv : forall h R0 a tr o R tr' o' R', keeps h R0 a tr o R -> tr = tr' -> o = o' -> R = R' -> keeps h R0 a tr' o' R'.
Proof. intros; subst; assumption. Qed.
Definition none : list (Z * Z * list Z * bool) := [].
Ltac by_eq := vm_compute; reflexivity.
Ltac sent := split; [by_eq|]; split; [lia|]; split; [lia|vm_compute; discriminate].
Ltac ans := split; [lia|exists []; by_eq].
Ltac k_send id off d := match goal with |- keeps _ _ _ ?T ?O ?R => let T' := eval cbn [removelast] in (removelast T) in let O' := eval cbn [removelast] in (removelast O) in
  apply (kp_conv _ _ _ (T' ++ [TSend (w_msg id off d)]) (O' ++ [(id, off, d, false)]) R); [apply kp_send; [|sent]|by_eq|by_eq|reflexivity] end.
Ltac k_ok o1 o2 id off d := match goal with |- keeps _ _ _ ?T ?O ?R => let T' := eval cbn [removelast] in (removelast T) in
  apply (kp_conv _ _ _ (T' ++ [TRecv (ok_msg id 0)]) (o1 ++ o2) R); [apply (kp_ok _ _ _ T' o1 o2 R (ok_msg id 0) id off d); [cbn [List.app none]|ans]|by_eq|by_eq|reflexivity] end.
Ltac k_err o1 o2 id off d b n code R1 := match goal with |- keeps _ _ ?a ?T ?O ?R => let T' := eval cbn [removelast] in (removelast T) in
  apply (kp_conv _ _ _ (T' ++ [TRecv (ok_msg id code)]) (o1 ++ o2) (write_at R1 (if a then zlen R1 else off) (ztake n d))); [apply (kp_error _ _ _ T' o1 o2 R1 (ok_msg id code) id off d b code n); [cbn [List.app none]|lia|ans]|by_eq|by_eq|by_eq] end.
Ltac k_write o1 o2 id off d R1 := match goal with |- keeps _ _ _ ?T ?O ?R =>
  apply (kp_conv _ _ _ T (o1 ++ (id, off, d, true) :: o2) (write_at R1 off d)); [apply (kp_write _ _ _ T o1 o2 R1 id off d eq_refl); cbn [List.app none]|reflexivity|by_eq|by_eq] end.
Ltac k_append o1 o2 id off d R1 := match goal with |- keeps _ _ _ ?T ?O ?R =>
  apply (kp_conv _ _ _ T (o1 ++ (id, off, d, true) :: o2) (R1 ++ d)); [apply (kp_append _ _ _ T o1 o2 R1 id off d eq_refl); [intros x Hx; cbn in Hx; intuition (subst; reflexivity)|cbn [List.app none]]|reflexivity|by_eq|by_eq] end.
Lemma usizes_base : forall r e z tr, count is_send tr < 100 -> usizes_ok (up_in r e z) L1 tr.
Proof. intros r e z tr H. unfold usizes_ok, up_in. cbn [ui_buflen ui_msgid]. change (zlen L1) with 6. lia. Qed.
Lemma no_error_base : forall tr, (forall m, In (TRecv m) tr -> exists id, m = ok_msg id 0) -> no_error tr.
Proof.
  intros tr H m id code Hin (Hc & rest & E). destruct (H m Hin) as (id' & ->). unfold ok_msg in E. apply (f_equal (@tl Z)) in E. cbn [tl List.app] in E. assert (E2 : zdrop 4 (be_enc 4 id' ++ be_enc 4 0) = zdrop 4 (be_enc 4 id ++ be_enc 4 code ++ rest)) by now rewrite E. assert (D : forall x (y : list Z), zdrop 4 (be_enc 4 x ++ y) = y) by (intros; reflexivity). rewrite !D in E2. rewrite <- (app_nil_r (be_enc 4 0)) in E2. apply be4 in E2; [|lia|exact Hc]. symmetry. apply E2.
Qed.

(** Three pieces, the last carried out and answered before the second. *)
Definition evs_u : list uevent := [ev (ok_msg 1 0); ev []; ev []; ev (ok_msg 3 0); ev (ok_msg 2 0); ev []].
Example C71_upload_case : let r := sftp_upload (up_in false false 0) evs_u in
  ur_out r = UReturn true /\ before_ok (up_in false false 0) [] /\ usizes_ok (up_in false false 0) L1 (ur_trace r) /\ keeps H1 [] false (ur_trace r) [] L1 /\ no_error (ur_trace r) /\ undisturbed (up_in false false 0) evs_u /\ count is_send (ur_trace r) = 3.
Proof.
  cbv zeta. split; [by_eq|]. split; [split; [vm_compute; reflexivity|reflexivity]|]. split; [apply usizes_base; by_eq|]. split; [|split; [|split; [|by_eq]]].
  - apply (kp_conv _ _ _ [TSend (w_msg 1 0 [1;2]); TRecv (ok_msg 1 0); TSend (w_msg 2 2 [3;4]); TSend (w_msg 3 4 [5;6]); TRecv (ok_msg 3 0); TRecv (ok_msg 2 0)] [] L1); [|by_eq|reflexivity|reflexivity].
    k_ok none none 2 2 [3;4]. k_write none none 2 2 [3;4] [1;2;0;0;5;6].
    k_ok [(2,2,[3;4],false)] none 3 4 [5;6]. k_write [(2,2,[3;4],false)] none 3 4 [5;6] [1;2]. k_send 3 4 [5;6]. k_send 2 2 [3;4].
    k_ok none none 1 0 [1;2]. k_write none none 1 0 [1;2] (@nil Z). k_send 1 0 [1;2]. apply kp_nil.
  - apply no_error_base. intros m Hin. vm_compute in Hin. repeat (destruct Hin as [Hin|Hin]; [try discriminate; injection Hin as <-; first [exists 1; reflexivity|exists 2; reflexivity|exists 3; reflexivity]|]). destruct Hin.
  - split; [|split; reflexivity]. intros e He. cbn in He. intuition (subst; reflexivity).
Qed.

(** Resuming behind three bytes, with a server that appends. *)
Example C71_resume_case : let r := sftp_upload (up_in true false 3) [ev (ok_msg 1 0); ev []; ev (ok_msg 2 0); ev []] in
  ur_out r = UReturn true /\ before_ok (up_in true false 3) [9;9;9] /\ keeps H1 [9;9;9] true (ur_trace r) [] [9;9;9;4;5;6] /\ after r true [9;9;9;4;5;6] = uploaded (up_in true false 3) L1 [9;9;9].
Proof.
  cbv zeta. split; [by_eq|]. split; [split; [vm_compute; reflexivity|reflexivity]|]. split; [|by_eq].
  apply (kp_conv _ _ _ [TSend (w_msg 1 3 [4;5]); TRecv (ok_msg 1 0); TSend (w_msg 2 5 [6]); TRecv (ok_msg 2 0)] [] [9;9;9;4;5;6]); [|by_eq|reflexivity|reflexivity].
  k_ok none none 2 5 [6]. k_append none none 2 5 [6] [9;9;9;4;5]. k_send 2 5 [6]. k_ok none none 1 3 [4;5]. k_append none none 1 3 [4;5] [9;9;9]. k_send 1 3 [4;5]. apply kp_nil.
Qed.

(** The status is that of the last reply only: an error reported for one piece
    is forgotten when a later reply is OK, and success is reported for a file
    with a hole. *)
Theorem C71_lost_error_refuted : exists i evs h L R0 r R,
  ui_local i = Some L /\ ui_handle i = Some h /\ sftp_upload i evs = r /\ ur_out r = UReturn true /\ before_ok i R0 /\ usizes_ok i L (ur_trace r) /\ keeps h R0 false (ur_trace r) [] R /\ undisturbed i evs /\
  ui_resume i = false /\ ui_inplace i = false /\ ~ no_error (ur_trace r) /\ after r true R <> L.
Proof.
  exists (up_in false false 0), [ev (ok_msg 1 0); ev []; ev []; ev (ok_msg 2 4); ev (ok_msg 3 0); ev []], H1, L1, []. eexists. exists [1;2;0;0;5;6]. split; [reflexivity|]. split; [reflexivity|]. split; [reflexivity|]. split; [by_eq|]. split; [split; [vm_compute; reflexivity|reflexivity]|]. split; [apply usizes_base; by_eq|]. split; [|split; [|split; [reflexivity|split; [reflexivity|split]]]].
  - apply (kp_conv _ _ _ [TSend (w_msg 1 0 [1;2]); TRecv (ok_msg 1 0); TSend (w_msg 2 2 [3;4]); TSend (w_msg 3 4 [5;6]); TRecv (ok_msg 2 4); TRecv (ok_msg 3 0)] [] [1;2;0;0;5;6]); [|by_eq|reflexivity|reflexivity].
    k_ok none none 3 4 [5;6]. k_write none none 3 4 [5;6] [1;2]. k_err none [(3,4,[5;6],false)] 2 2 [3;4] false 0 4 [1;2]. k_send 3 4 [5;6]. k_send 2 2 [3;4]. k_ok none none 1 0 [1;2]. k_write none none 1 0 [1;2] (@nil Z). k_send 1 0 [1;2]. apply kp_nil.
  - split; [|split; reflexivity]. intros e He. cbn in He. intuition (subst; reflexivity).
  - intros N. assert (Q : 4 = 0); [|discriminate]. apply (N (ok_msg 2 4) 2); [vm_compute; tauto|ans].
  - vm_compute. discriminate.
Qed.
Print Assumptions C71_lost_error_refuted.

(** An interrupted upload is not reported as a failure either. *)
Theorem C71_interrupt_refuted : exists i evs h L R0 r R,
  ui_local i = Some L /\ ui_handle i = Some h /\ sftp_upload i evs = r /\ ur_out r = UReturn true /\ before_ok i R0 /\ usizes_ok i L (ur_trace r) /\ keeps h R0 false (ur_trace r) [] R /\ no_error (ur_trace r) /\
  ui_resume i = false /\ ui_inplace i = false /\ after r true R <> L.
Proof.
  exists (up_in false false 0), [ev (ok_msg 1 0); mkUev true (RLen 2) None], H1, L1, []. eexists. exists [1;2]. split; [reflexivity|]. split; [reflexivity|]. split; [reflexivity|]. split; [by_eq|]. split; [split; [vm_compute; reflexivity|reflexivity]|]. split; [apply usizes_base; by_eq|]. split; [|split; [|split; [reflexivity|split; [reflexivity|vm_compute; discriminate]]]].
  - apply (kp_conv _ _ _ [TSend (w_msg 1 0 [1;2]); TRecv (ok_msg 1 0)] [] [1;2]); [|by_eq|reflexivity|reflexivity]. k_ok none none 1 0 [1;2]. k_write none none 1 0 [1;2] (@nil Z). k_send 1 0 [1;2]. apply kp_nil.
  - apply no_error_base. intros m Hin. vm_compute in Hin. repeat (destruct Hin as [Hin|Hin]; [try discriminate; injection Hin as <-; exists 1; reflexivity|]). destruct Hin.
Qed.
Print Assumptions C71_interrupt_refuted.

(** In place, the old tail stays when the server refuses to truncate. *)
Theorem C71_truncate_refuted : exists i evs h L R0 r R,
  ui_local i = Some L /\ ui_handle i = Some h /\ sftp_upload i evs = r /\ ur_out r = UReturn true /\ before_ok i R0 /\ usizes_ok i L (ur_trace r) /\ keeps h R0 false (ur_trace r) [] R /\ no_error (ur_trace r) /\ undisturbed i evs /\
  after r true R = L /\ after r false R = L ++ [0; 99].
Proof.
  exists (up_in false true 0), evs_u, H1, L1, [0;0;0;0;0;0;0;99]. eexists. exists (L1 ++ [0;99]). split; [reflexivity|]. split; [reflexivity|]. split; [reflexivity|]. split; [by_eq|]. split; [split; [vm_compute; reflexivity|exact I]|]. split; [apply usizes_base; by_eq|]. split; [|split; [|split; [|split; by_eq]]].
  - apply (kp_conv _ _ _ [TSend (w_msg 1 0 [1;2]); TRecv (ok_msg 1 0); TSend (w_msg 2 2 [3;4]); TSend (w_msg 3 4 [5;6]); TRecv (ok_msg 3 0); TRecv (ok_msg 2 0)] [] (L1 ++ [0;99])); [|by_eq|reflexivity|reflexivity].
    k_ok none none 2 2 [3;4]. k_write none none 2 2 [3;4] [1;2;0;0;5;6;0;99]. k_ok [(2,2,[3;4],false)] none 3 4 [5;6]. k_write [(2,2,[3;4],false)] none 3 4 [5;6] [1;2;0;0;0;0;0;99]. k_send 3 4 [5;6]. k_send 2 2 [3;4]. k_ok none none 1 0 [1;2]. k_write none none 1 0 [1;2] [0;0;0;0;0;0;0;99]. k_send 1 0 [1;2]. apply kp_nil.
  - apply no_error_base. intros m Hin. vm_compute in Hin. repeat (destruct Hin as [Hin|Hin]; [try discriminate; injection Hin as <-; first [exists 1; reflexivity|exists 2; reflexivity|exists 3; reflexivity]|]). destruct Hin.
  - split; [|split; reflexivity]. intros e He. cbn in He. intuition (subst; reflexivity).
Qed.
Print Assumptions C71_truncate_refuted.
