From Verif Require Import Base SshbufModel SshbufSpec SshbufProof WireSpec WireProof Dec SclientModel SclientSpec SclientProof SclientProof2 SclientProof3 SclientProof4 SuploadModel SuploadSpec SuploadProof SuploadProof2 SuploadProof3.
Local Open Scope Z_scope.

Definition u_init (base start : Z) : ul := mkUl [] base (u32 (base + 1)) (u32 (base + 1)) (as_off start) start 0 false FX_OK false [].
Definition ustart (i : ul_in) (L : list Z) : option Z :=
  if ui_resume i then match ui_stat i with None => None | Some size => if as_off size >=? zlen L then None else if negb (ui_lseek i) then None else Some size end else Some 0.
Lemma upload_eq : forall i evs, 
  (sftp_upload i evs = mkUres (UReturn false) None [] /\ (ui_local i = None \/ ui_handle i = None \/ ui_resume i = true)) \/
  exists L start h, ui_local i = Some L /\ ustart i L = Some start /\ ui_handle i = Some h /\ sftp_upload i evs =
    match ul_loop h L (ui_buflen i) (ui_numreq i) evs false (u_init (ui_msgid i) start) with
    | UEnded intr s => ul_finish i intr s
    | UWaiting s => mkUres UBlocked None (u_trace s)
    | UDied s => mkUres UExited None (u_trace s)
    end.
Proof.
  intros i evs. unfold sftp_upload. destruct (ui_local i) as [L|] eqn:EL; [|left; auto]. fold (ustart i L). destruct (ustart i L) as [st|] eqn:Es.
  - destruct (ui_handle i) as [h|] eqn:Eh; [|left; auto]. right. exists L, st, h. auto.
  - left. split; [reflexivity|]. unfold ustart in Es. destruct (ui_resume i); [auto|discriminate].
Qed.
Lemma upload_trace : forall i evs h L start, sftp_upload i evs =
    match ul_loop h L (ui_buflen i) (ui_numreq i) evs false (u_init (ui_msgid i) start) with
    | UEnded intr s => ul_finish i intr s
    | UWaiting s => mkUres UBlocked None (u_trace s)
    | UDied s => mkUres UExited None (u_trace s)
    end -> ur_trace (sftp_upload i evs) = u_trace (uend_st (ul_loop h L (ui_buflen i) (ui_numreq i) evs false (u_init (ui_msgid i) start))).
Proof. intros i evs h L start ->. destruct (ul_loop _ _ _ _ _ _ _); reflexivity. Qed.
Definition first (i : ul_in) (R0 : list Z) : Z := if ui_resume i then zlen R0 else 0.
Lemma start_first : forall i L R0 st, before_ok i R0 -> ustart i L = Some st -> st = first i R0 /\ as_off st = st /\ (ui_resume i = true -> st < zlen L) /\ 0 <= st <= zlen R0 /\ (st = zlen R0 \/ ui_resume i = false).
Proof.
  intros i L R0 st [Hb B] E. pose proof (zlen_nonneg _ R0). unfold before_ok, ustart, first in *. destruct (ui_resume i).
  - rewrite B in E. destruct (as_off (zlen R0) >=? zlen L) eqn:Q; [discriminate|]. destruct (negb (ui_lseek i)); [discriminate|]. injection E as <-. assert (Ea : as_off (zlen R0) = zlen R0) by (unfold as_off; replace (zlen R0 <? 9223372036854775808) with true by lia; reflexivity). repeat split; auto; lia.
  - injection E as <-. repeat split; auto; try discriminate; lia.
Qed.

Lemma uup_len : forall i L R0 n, 0 <= n -> zlen (uploaded_up_to i L R0 n) = first i R0 + Z.min n (Z.max 0 (zlen L - first i R0)).
Proof.
  intros i L R0 n H. unfold uploaded_up_to, first. pose proof (zlen_nonneg _ L). pose proof (zlen_nonneg _ R0). destruct (ui_resume i); [rewrite zlen_app, part_len by lia; reflexivity|]. rewrite take_len by lia. lia.
Qed.
Lemma uup_byte : forall i L R0 n p, 0 <= n -> 0 <= p < first i R0 + n -> byte_at (uploaded_up_to i L R0 n) p = if p <? first i R0 then byte_at R0 p else byte_at L p.
Proof.
  intros i L R0 n p Hn Hp. unfold uploaded_up_to, first in *. destruct (ui_resume i).
  - rewrite byte_app by lia. destruct (p <? zlen R0) eqn:E; [reflexivity|]. rewrite part_byte by (pose proof (zlen_nonneg _ R0); lia). f_equal. lia.
  - replace (p <? 0) with false by lia. rewrite byte_take by lia. reflexivity.
Qed.
Lemma uup_all : forall i L R0 n, zlen L - first i R0 <= n -> 0 <= n -> uploaded_up_to i L R0 n = uploaded i L R0.
Proof.
  intros i L R0 n H H0. unfold uploaded_up_to, uploaded, first in *. destruct (ui_resume i); [f_equal; unfold part|]; apply ztake_all; [rewrite drop_len by apply zlen_nonneg; lia|lia].
Qed.
Lemma is_uup : forall i L R0 f n, 0 <= n -> zlen f = first i R0 + n -> n <= Z.max 0 (zlen L - first i R0) ->
  (forall p, 0 <= p < first i R0 -> byte_at f p = byte_at R0 p) -> (forall p, first i R0 <= p < first i R0 + n -> byte_at f p = byte_at L p) -> f = uploaded_up_to i L R0 n.
Proof.
  intros i L R0 f n Hn Hl Hm Lo Hi. apply bytes_eq; [rewrite uup_len by lia; lia|]. intros p Hp. rewrite uup_byte by lia. destruct (p <? first i R0) eqn:E; [apply Lo; lia|apply Hi; lia].
Qed.

Lemma finish_up : forall i h L R0 app intr s o R, before_ok i R0 -> (app = true -> ui_resume i = true) ->
  uinv h L R0 app (first i R0) (ui_msgid i) (u_off s) s -> u_acks s = [] -> first i R0 <= zlen L -> intr = true \/ zlen L <= u_off s -> (ui_resume i = true -> first i R0 < zlen L) ->
  keeps h R0 app (u_trace s) o R ->
  (exists n, 0 <= n /\ after (ul_finish i intr s) true R = uploaded_up_to i L R0 n) /\
  (intr = false -> ui_intr1 i = false -> ui_intr2 i = false -> forall hon, hon = true \/ ui_inplace i = false -> after (ul_finish i intr s) hon R = uploaded i L R0).
Proof.
  intros i h L R0 app intr s o R Bf Ha [C S] Ac Fl Hend Hres K. specialize (S o R K). destruct S as [Sk Sc Sl Sn Sa]. rewrite Ac in Sk. cbn [map] in Sk. destruct o; [|discriminate]. pose proof (c_ok _ _ _ _ _ C) as ([K0 K0'] & K1 & _). pose proof (c_hw _ _ _ _ _ C) as [Hh _]. pose proof (c_max _ _ _ _ _ C) as [Hm1 Hm2]. pose proof (c_status _ _ _ _ _ C) as St. rewrite Ac in Hm2.
  assert (Hi : u_off s <= zlen L) by (destruct K1; lia). set (st := first i R0) in *.
  assert (Cov : forall pos, st <= pos < u_off s -> pos < zlen R /\ byte_at R pos = byte_at L pos) by (intros pos Hp; destruct (Sc pos Hp) as [B|(a & b & d & [] & _)]; exact B).
  assert (Mx : st < u_off s -> u_max s = u_off s) by (intros Q; destruct (Hm2 (u_off s - 1) ltac:(lia)) as [M|(r & [] & _)]; lia).
  (* what truncation leaves *)
  assert (Tr : forall n, st <= n <= u_off s -> truncate_to R n = uploaded_up_to i L R0 (n - st)).
  { intros n Hn. apply is_uup; try lia; fold st.
    - rewrite trunc_len by lia. lia.
    - intros p Hp. rewrite trunc_byte by lia. auto.
    - intros p Hp. rewrite trunc_byte by lia. apply Cov. lia. }
  (* without truncation, for a file that was not longer *)
  assert (Nt : ui_resume i = true \/ ui_inplace i = false -> R = uploaded_up_to i L R0 (u_off s - st)).
  { intros Q. assert (L0 : zlen R0 = st) by (unfold st, first; destruct Bf as [_ Bf]; destruct (ui_resume i); [reflexivity|]; destruct Q as [Q|Q]; [discriminate|]; rewrite Q in Bf; subst R0; reflexivity). rewrite L0 in Sn. apply is_uup; try lia; fold st; auto.
    all: try (intros p Hp; apply Cov; lia).
    destruct (Z_lt_dec st (u_off s)) as [Q2|Q2]; [|lia]. destruct (Cov (u_off s - 1) ltac:(lia)) as [Q3 _]. lia. }
  unfold ul_finish, after. rewrite St. change (0 =? FX_OK) with true. cbn [negb andb orb ur_trunc]. split.
  - destruct (ui_inplace i || (ui_resume i && (intr || ui_intr1 i || ui_intr2 i))) eqn:T.
    + destruct (negb (intr || ui_intr1 i)) eqn:N.
      * apply negb_true_iff, orb_false_elim in N. destruct N as [-> N]. destruct Hend as [Q|Q]; [discriminate|]. destruct (Z_lt_dec st (u_off s)) as [Q2|Q2]; [rewrite (Mx Q2); exists (u_off s - st); split; [lia|apply Tr; lia]|].
        assert (Qr : ui_resume i = false) by (destruct (ui_resume i); [specialize (Hres eq_refl); lia|reflexivity]). assert (Es : st = 0) by (unfold st, first; rewrite Qr; reflexivity). replace (u_max s) with 0 by lia. exists 0. split; [lia|]. rewrite Tr by lia. f_equal. lia.
      * exists (u_hw s - st). split; [lia|]. apply Tr. lia.
    + exists (u_off s - st). split; [lia|]. apply Nt. destruct (ui_inplace i); [discriminate|now right].
  - intros -> -> -> hon Hon. cbn [orb negb]. rewrite andb_false_r, orb_false_r. destruct Hend as [Q|Q]; [discriminate|]. rewrite <- (uup_all i L R0 (u_off s - st)) by (fold st; lia). destruct (ui_inplace i) eqn:Ei; [|apply Nt; now right]. destruct Hon as [->|Hon]; [|discriminate].
    destruct (Z_lt_dec st (u_off s)) as [Q2|Q2]; [rewrite (Mx Q2); apply Tr; lia|]. assert (Qr : ui_resume i = false) by (destruct (ui_resume i); [specialize (Hres eq_refl); lia|reflexivity]). assert (Es : st = 0) by (unfold st, first; rewrite Qr; reflexivity). replace (u_max s) with 0 by lia. rewrite Tr by lia. f_equal. lia.
Qed.

Lemma loop_intr : forall h L bl nr evs intr s i s', ul_loop h L bl nr evs intr s = UEnded i s' -> i = true -> intr = true \/ exists e, In e evs /\ ue_intr e = true.
Proof.
  intros h L bl nr. induction evs as [|e evs IH]; intros intr s i s' E Ei; cbn [ul_loop] in E; [discriminate|]. assert (K : intr || ue_intr e = true -> intr = true \/ exists e0, In e0 (e :: evs) /\ ue_intr e0 = true) by (intros Q; apply orb_prop in Q; destruct Q; [now left|right; exists e; split; [now left|assumption]]). destruct (one_turn _ _ _ _ _ _ _) as [s1|s1|s1]; [|injection E as <- <-; auto|discriminate].
  destruct (IH _ _ _ _ E Ei) as [Q|(e' & He & Q)]; [auto|]. right. exists e'. split; [now right|exact Q].
Qed.

(** Counting and blame hold for every server. *)
Definition ucounts (base nr : Z) (s : ul) : Prop :=
  u_id s = u32 (base + count is_send (u_trace s)) /\ u_ackid s = u32 (base + 1 + count is_recv (u_trace s)) /\ zlen (u_acks s) = count is_send (u_trace s) - count is_recv (u_trace s) /\ u_start s = u32 (base + 1).
Definition ublame (s : ul) : Prop :=
  (u_status s <> 0 -> exists m id, In (TRecv m) (u_trace s) /\ status_reply id (u_status s) m) /\
  (forall tr' m id code, u_trace s = tr' ++ [TRecv m] -> 0 <= id < 4294967296 -> status_reply id code m -> u_status s = code) /\
  (u_trace s = [] -> u_status s = 0).
Lemma reply_facts : forall base nr s m s', ucounts base nr s -> on_reply s m = UOk s' -> ucounts base nr s' /\ zlen (u_acks s') = zlen (u_acks s) - 1 /\ u_off s' = u_off s.
Proof.
  intros base nr s m s' (A & B & C & D) E. unfold on_reply in E. destruct (get_int 1 m) as [[ty m1]|]; [|discriminate]. destruct (get_int 4 m1) as [[id m2]|]; [|discriminate]. destruct (negb _); [discriminate|]. destruct (get_int 4 m2) as [[st m3]|]; [|discriminate]. cbn [u_received u_acks] in E. destruct (request_find (u_acks s) id) as [r|] eqn:Fr; [|discriminate]. injection E as <-. destruct (remove_len _ _ _ Fr) as [Rl _].
  unfold ucounts, on_ack. cbn [u_received u_acks u_id u_start u_ackid u_off u_trace]. rewrite !count_app, !count_one. cbn [is_send is_recv]. rewrite !Z.add_0_r. split; [|auto]. split; [exact A|]. split; [|lia]. rewrite B. unfold u32, U32. rewrite Zplus_mod_idemp_l. f_equal. lia.
Qed.
Lemma reply_blame : forall s m s', is_bytes m -> on_reply s m = UOk s' -> ublame s'.
Proof.
  intros s m s' Hb E. unfold on_reply in E. destruct (get_int 1 m) as [[ty m1]|] eqn:G1; [|discriminate]. destruct (get_int 4 m1) as [[id m2]|] eqn:G2; [|discriminate]. destruct (ty =? FXP_STATUS) eqn:Et; cbn [negb] in E; [|discriminate]. destruct (get_int 4 m2) as [[st m3]|] eqn:G3; [|discriminate]. cbn [u_received u_acks] in E. destruct (request_find (u_acks s) id) as [r|] eqn:Fr; [|discriminate]. injection E as <-.
  destruct (get_int_spec _ _ _ _ Hb G1) as (E1 & _ & B1). destruct (get_int_spec _ _ _ _ B1 G2) as (E2 & R2 & B2). destruct (get_int_spec _ _ _ _ B2 G3) as (E3 & R3 & _). assert (Sr : status_reply id st m) by (split; [exact R3|]; exists m3; apply Z.eqb_eq in Et; unfold FXP_STATUS in Et; rewrite E1, E2, E3, Et; reflexivity).
  unfold on_ack. split; [|split]; cbn [u_status u_trace u_received].
  - intros _. exists m, id. split; [apply in_app_iff; right; now left|exact Sr].
  - intros tr' m' id' code' Q Hi Sr'. apply app_inj_tail in Q. destruct Q as [_ Q]. injection Q as <-. apply (status_id id id' st code' m R2 Hi Sr Sr').
  - intros Q. destruct (u_trace s); discriminate.
Qed.
Lemma turn_facts : forall h L bl nr base intr e s, 0 <= nr < 4294967296 -> ucounts base nr s -> zlen (u_acks s) <= nr ->
  let t := one_turn h L bl nr intr e s in
  count is_send (u_trace (turn_st t)) - count is_recv (u_trace (turn_st t)) <= nr + 1 /\
  match t with Again s' => ucounts base nr s' /\ zlen (u_acks s') <= nr | _ => True end.
Proof.
  intros h L bl nr base intr e s Hn C Ha. cbv zeta. unfold one_turn. destruct (if intr || _ then _ else _) as [len|]; [|cbn [turn_st]; split; [destruct C as (_ & _ & C & _); lia|exact I]]. destruct ((len =? 0) && _); [cbn [turn_st]; split; [destruct C as (_ & _ & C & _); lia|exact I]|].
  set (s1 := if negb (len =? 0) then send_piece h L s len else s). pose proof (zlen_nonneg _ (u_acks s)) as P0.
  assert (C1 : ucounts base nr s1 /\ zlen (u_acks s1) = zlen (u_acks s) + (if negb (len =? 0) then 1 else 0)).
  { unfold s1. destruct (negb (len =? 0)); [|split; [exact C|lia]]. destruct C as (A & B & D & E). split; [|cbn [send_piece u_acks]; rewrite zlen_app; reflexivity]. unfold ucounts. cbn [send_piece u_acks u_id u_start u_ackid u_trace]. rewrite !count_app, !count_one, zlen_app, zlen_cons, zlen_nil. cbn [is_send is_recv]. rewrite !Z.add_0_r. split; [rewrite A, next_uid; f_equal; lia|]. split; [exact B|]. split; [lia|exact E]. }
  destruct C1 as [C1 Z1]. assert (K1 : zlen (u_acks s1) <= nr + 1) by (rewrite Z1; destruct (negb (len =? 0)); lia). assert (D1 := C1). destruct D1 as (A1 & B1 & D1 & E1). destruct (negb (u_got s1)); [cbn [turn_st]; split; [lia|exact I]|].
  destruct ((u_id s1 =? u_start s1) || (len =? 0) || (u32 (u_id s1 - u_ackid s1) >=? nr)) eqn:Q.
  - destruct (ue_msg e) as [m|]; [|cbn [turn_st]; split; [lia|exact I]]. pose proof (reply_trace s1 m) as Et. assert (Rc : count is_send (u_trace s1 ++ [TRecv m]) - count is_recv (u_trace s1 ++ [TRecv m]) <= nr + 1) by (rewrite !count_app, !count_one; cbn [is_send is_recv]; lia).
    destruct (on_reply s1 m) as [s2|s2] eqn:Er; cbn [ures_st] in Et; [|cbn [turn_st]; rewrite Et; split; [exact Rc|exact I]]. destruct (reply_facts base nr s1 m s2 C1 Er) as (F1 & F2 & F3). destruct (_ <? 0); cbn [turn_st advance u_trace]; rewrite Et; (split; [exact Rc|]); [exact I|]. split; [exact F1|]. cbn [advance u_acks]. lia.
  - destruct (_ <? 0); cbn [turn_st advance u_trace]; (split; [lia|]); [exact I|]. split; [exact C1|]. cbn [advance u_acks]. apply orb_false_elim in Q. destruct Q as [Q Q3]. apply orb_false_elim in Q. destruct Q as [_ Q2]. rewrite Z1, Q2 in *. cbn [negb] in *.
    rewrite A1, B1 in Q3. unfold u32, U32 in Q3. rewrite <- Zminus_mod in Q3. replace (base + count is_send (u_trace s1) - (base + 1 + count is_recv (u_trace s1))) with (count is_send (u_trace s1) - count is_recv (u_trace s1) - 1) in Q3 by lia. rewrite Z.mod_small in Q3 by lia. lia.
Qed.
Lemma uloop_counts : forall h L bl nr base evs intr s, 0 <= nr < 4294967296 -> ucounts base nr s -> zlen (u_acks s) <= nr ->
  let s' := uend_st (ul_loop h L bl nr evs intr s) in count is_send (u_trace s') - count is_recv (u_trace s') <= nr + 1.
Proof.
  intros h L bl nr base. induction evs as [|e evs IH]; intros intr s Hn C Ha; cbv zeta; cbn [ul_loop]; [cbn [uend_st]; destruct C as (_ & _ & C & _); lia|]. pose proof (turn_facts h L bl nr base (intr || ue_intr e) e s Hn C Ha) as T. cbv zeta in T. destruct (one_turn _ _ _ _ _ _ _) as [s'|s'|s']; cbn [turn_st uend_st] in *; destruct T as [T1 T2]; auto. destruct T2. now apply IH.
Qed.
Lemma turn_blame : forall h L bl nr intr e s, (forall m, ue_msg e = Some m -> is_bytes m) -> ublame s -> match one_turn h L bl nr intr e s with Again s' => ublame s' | Leave s' => s' = s | Dead _ => True end.
Proof.
  intros h L bl nr intr e s Hb B. unfold one_turn. destruct (if intr || _ then _ else _) as [len|]; [|exact I]. destruct ((len =? 0) && _); [reflexivity|]. set (s1 := if negb (len =? 0) then send_piece h L s len else s).
  assert (B1 : ublame s1). { unfold s1. destruct (negb (len =? 0)); [|exact B]. destruct B as (B1 & B2 & B3). split; [|split]; cbn [send_piece u_status u_trace].
    - intros Q. destruct (B1 Q) as (m & id & M1 & M2). exists m, id. split; [now apply in_ext|exact M2].
    - intros tr' m id code Q. apply app_inj_tail in Q. destruct Q as [_ Q]. discriminate.
    - intros Q. destruct (u_trace s); discriminate. }
  destruct (negb (u_got s1)); [exact I|]. destruct (_ || _ || _).
  - destruct (ue_msg e) as [m|] eqn:Em; [|exact I]. destruct (on_reply s1 m) as [s2|s2] eqn:Er; [|exact I]. destruct (_ <? 0); [exact I|]. exact (reply_blame s1 m s2 (Hb m eq_refl) Er).
  - destruct (_ <? 0); [exact I|]. exact B1.
Qed.
Lemma uloop_blame : forall h L bl nr evs intr s, (forall e m, In e evs -> ue_msg e = Some m -> is_bytes m) -> ublame s -> match ul_loop h L bl nr evs intr s with UEnded _ s' => ublame s' | _ => True end.
Proof.
  intros h L bl nr. induction evs as [|e evs IH]; intros intr s Hb B; cbn [ul_loop]; [exact I|]. pose proof (turn_blame h L bl nr (intr || ue_intr e) e s (fun m => Hb e m (or_introl eq_refl)) B) as T. destruct (one_turn _ _ _ _ _ _ _) as [s'|s'|s']; [|now subst s'|exact I]. apply IH; auto. intros e' m He. apply Hb. now right.
Qed.
