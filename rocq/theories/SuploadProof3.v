From Verif Require Import Base SshbufModel SshbufSpec SshbufProof WireSpec WireProof Dec SclientModel SclientSpec SclientProof SclientProof2 SclientProof3 SuploadModel SuploadSpec SuploadProof SuploadProof2.
Local Open Scope Z_scope.

Definition turn_st (t : turn) : ul := match t with Again s | Leave s | Dead s => s end.
Definition uend_st (t : uend) : ul := match t with UEnded _ s | UWaiting s | UDied s => s end.
Definition ures_st (t : ures) : ul := match t with UOk s | UFatal s => s end.
Lemma reply_trace : forall s m, u_trace (ures_st (on_reply s m)) = u_trace s ++ [TRecv m].
Proof.
  intros s m. unfold on_reply. destruct (get_int 1 m) as [[ty m1]|]; [|reflexivity]. destruct (get_int 4 m1) as [[id m2]|]; [|reflexivity]. destruct (negb _); [reflexivity|]. destruct (get_int 4 m2) as [[st m3]|]; [|reflexivity]. destruct (request_find _ _); reflexivity.
Qed.
Lemma turn_trace : forall h L bl nr intr e s, exists l, u_trace (turn_st (one_turn h L bl nr intr e s)) = u_trace s ++ l.
Proof.
  intros h L bl nr intr e s. unfold one_turn. destruct (if intr || _ then _ else _) as [len|]; [|exists []; now rewrite app_nil_r]. destruct (_ && _); [exists []; now rewrite app_nil_r|]. set (s1 := if negb (len =? 0) then send_piece h L s len else s).
  assert (E1 : exists l, u_trace s1 = u_trace s ++ l) by (unfold s1; destruct (negb (len =? 0)); [eexists; reflexivity|exists []; now rewrite app_nil_r]). destruct E1 as (l & E1). destruct (negb (u_got s1)); [exists l; exact E1|]. destruct (_ || _).
  - destruct (ue_msg e) as [m|]; [|exists l; exact E1]. pose proof (reply_trace s1 m) as Et. destruct (on_reply s1 m) as [s2|s2]; cbn [ures_st] in Et; [destruct (_ <? 0)|]; cbn [turn_st advance u_trace]; rewrite Et, E1, <- app_assoc; eexists; reflexivity.
  - destruct (_ <? 0); exists l; exact E1.
Qed.
Lemma uloop_trace : forall h L bl nr evs intr s, exists l, u_trace (uend_st (ul_loop h L bl nr evs intr s)) = u_trace s ++ l.
Proof.
  intros h L bl nr. induction evs as [|e evs IH]; intros intr s; cbn [ul_loop]; [exists []; now rewrite app_nil_r|]. destruct (turn_trace h L bl nr (intr || ue_intr e) e s) as (l & E). destruct (one_turn _ _ _ _ _ _ _) as [s'|s'|s']; cbn [turn_st uend_st] in *; [|eauto|eauto]. destruct (IH (intr || ue_intr e) s') as (l' & E'). rewrite E', E, <- app_assoc. eauto.
Qed.

Section Loop.
Variable h L R0 : list Z.
Variable app : bool.
Variable start base buflen nreq : Z.
Hypothesis Hstart : 0 <= start.
Hypothesis Hle : start <= zlen L.
Hypothesis HL : zlen L < TOP.
Hypothesis Hbase : 0 <= base < IDS.
Hypothesis Hbuf : 1 <= buflen <= 134217724.
Notation uinv := (uinv h L R0 app start base).
Definition kept (tr : list item) : Prop := (exists o R, keeps h R0 app tr o R) /\ no_error tr /\ count is_send tr <= IDS.
Lemma kept_prefix : forall a b, kept (a ++ b) -> kept a.
Proof.
  intros a b ((o & R & K) & N & C). split; [|split].
  - eapply keeps_prefix; eauto.
  - intros m id code Hin. apply (N m id code). apply in_app_iff. now left.
  - pose proof (count_ext is_send a b). lia.
Qed.
Lemma advance_inv : forall len s, uinv (u_off s + len) s -> uinv (u_off (advance len s)) (advance len s).
Proof. intros len s [[C1 C2 C3 C4 C5 C6 C7 C8 C9 C10 C11] S]. split; [constructor|]; auto. Qed.
Lemma turn_inv : forall intr e s, uinv (u_off s) s -> kept (u_trace (turn_st (one_turn h L buflen nreq intr e s))) ->
  match one_turn h L buflen nreq intr e s with
  | Again s' => uinv (u_off s') s'
  | Leave s' => s' = s /\ u_acks s = [] /\ (intr = true \/ zlen L <= u_off s)
  | Dead _ => ue_msg e = None \/ ue_read e = RErr
  end.
Proof.
  intros intr e s I Kp. unfold one_turn in *. set (ln := if intr || negb (u_status s =? FX_OK) then Some 0 else match ue_read e with RErr => None | RLen n => Some (read_len L (u_off s) buflen n) end) in *. pose proof (c_status _ _ _ _ _ (proj1 I)) as St.
  destruct ln as [len|] eqn:El; [|right; unfold ln in El; destruct (intr || _); [discriminate|]; destruct (ue_read e); [reflexivity|discriminate]].
  assert (Hlen : (len = 0 /\ (intr = true \/ zlen L <= u_off s)) \/ (0 < len <= buflen /\ u_off s + len <= zlen L)).
  { unfold ln in El. rewrite St in El. change (0 =? FX_OK) with true in El. cbn [negb] in El. rewrite orb_false_r in El. destruct intr; [left; split; [congruence|auto]|]. destruct (ue_read e) as [|n]; [discriminate|]. injection El as <-. unfold read_len. destruct (u_off s >=? zlen L) eqn:Q; [left; split; [reflexivity|right; lia]|right; lia]. }
  destruct ((len =? 0) && match u_acks s with [] => true | _ => false end) eqn:Ql.
  { apply andb_prop in Ql. destruct Ql as [Q1 Q2]. split; [reflexivity|]. split; [destruct (u_acks s); [reflexivity|discriminate]|]. destruct Hlen as [[_ Q]|Q]; [exact Q|lia]. }
  set (s1 := if negb (len =? 0) then send_piece h L s len else s) in *.
  assert (T1 : exists l, u_trace (turn_st (if negb (u_got s1) then Dead s1 else
    if (u_id s1 =? u_start s1) || (len =? 0) || (u32 (u_id s1 - u_ackid s1) >=? nreq) then
      match ue_msg e with None => Dead s1 | Some m => match on_reply s1 m with UFatal s2 => Dead s2 | UOk s2 => if u_off s2 + len <? 0 then Dead s2 else Again (advance len s2) end end
    else if u_off s1 + len <? 0 then Dead s1 else Again (advance len s1))) = u_trace s1 ++ l).
  { destruct (negb (u_got s1)); [exists []; now rewrite app_nil_r|]. destruct ((u_id s1 =? u_start s1) || (len =? 0) || (u32 (u_id s1 - u_ackid s1) >=? nreq)).
    - destruct (ue_msg e) as [m|]; [|exists []; now rewrite app_nil_r]. pose proof (reply_trace s1 m) as Et. destruct (on_reply s1 m) as [s2|s2]; cbn [ures_st] in Et; [destruct (_ <? 0)|]; cbn [turn_st advance u_trace]; rewrite Et; eauto.
    - destruct (_ <? 0); exists []; rewrite app_nil_r; reflexivity. }
  destruct T1 as (lt & T1). assert (Kp1 : kept (u_trace s1)) by (apply (kept_prefix _ lt); rewrite <- T1; exact Kp).
  assert (I1 : uinv (u_off s1 + len) s1 /\ u_got s1 = true /\ u_off s1 = u_off s).
  { unfold s1 in *. destruct (len =? 0) eqn:Q0; cbn [negb] in *.
    - assert (len = 0) by lia. subst len. rewrite Z.add_0_r. split; [exact I|]. split; [|reflexivity]. apply (c_got _ _ _ _ _ (proj1 I)). intros Q. rewrite Q in Ql. discriminate.
    - destruct Hlen as [[Q _]|[Q1 Q2]]; [lia|]. split; [|split; reflexivity]. apply (send_inv h L R0 app start base buflen Hstart Hle HL Hbuf s len I Q1 Q2). destruct Kp1 as (_ & _ & Kc). cbn [send_piece u_trace] in Kc. rewrite count_app, count_one in Kc. cbn [is_send] in Kc. lia. }
  destruct I1 as (I1 & Ig & Io). rewrite Ig in *. cbn [negb] in *. pose proof (c_ok _ _ _ _ _ (proj1 I1)) as ([Ok1 Ok2] & _).
  destruct ((u_id s1 =? u_start s1) || (len =? 0) || (u32 (u_id s1 - u_ackid s1) >=? nreq)).
  - destruct (ue_msg e) as [m|]; [|now left]. pose proof (reply_trace s1 m) as Et.
    assert (Kp2 : kept (u_trace s1 ++ [TRecv m])). { destruct (on_reply s1 m) as [s2|s2]; cbn [ures_st] in Et; [destruct (_ <? 0) in Kp|]; cbn [turn_st advance u_trace] in Kp; rewrite Et in Kp; exact Kp. }
    destruct Kp2 as (Kp2 & Kn & _). destruct (ack_inv h L R0 app start base Hstart HL _ s1 m I1 Kp2) as (s2 & -> & I2 & Eo & _); [intros id code Sr; apply (Kn m id code); [apply in_app_iff; right; now left|exact Sr]|].
    rewrite Eo. replace (u_off s1 + len <? 0) with false by lia. apply advance_inv. rewrite Eo. exact I2.
  - replace (u_off s1 + len <? 0) with false by lia. apply advance_inv. exact I1.
Qed.
Lemma uloop_inv : forall evs intr s, uinv (u_off s) s -> kept (u_trace (uend_st (ul_loop h L buflen nreq evs intr s))) ->
  match ul_loop h L buflen nreq evs intr s with
  | UEnded i s' => uinv (u_off s') s' /\ u_acks s' = [] /\ (i = true \/ zlen L <= u_off s')
  | UWaiting s' => uinv (u_off s') s'
  | UDied s' => exists e, In e evs /\ (ue_msg e = None \/ ue_read e = RErr)
  end.
Proof.
  induction evs as [|e evs IH]; intros intr s I Kp; cbn [ul_loop] in *; [exact I|].
  assert (K1 : kept (u_trace (turn_st (one_turn h L buflen nreq (intr || ue_intr e) e s)))). { destruct (one_turn _ _ _ _ _ _ _) as [s'|s'|s']; cbn [turn_st uend_st] in *; auto. destruct (uloop_trace h L buflen nreq evs (intr || ue_intr e) s') as (l & E). rewrite E in Kp. now apply kept_prefix in Kp. }
  pose proof (turn_inv (intr || ue_intr e) e s I K1) as T. destruct (one_turn _ _ _ _ _ _ _) as [s'|s'|s']; cbn [turn_st uend_st] in *.
  - specialize (IH (intr || ue_intr e) s' T Kp). destruct (ul_loop _ _ _ _ _ _ _); auto. destruct IH as (e' & He & Q). exists e'. split; [now right|exact Q].
  - destruct T as (-> & T1 & T2). auto.
  - exists e. split; [now left|exact T].
Qed.
Lemma uinit_inv : forall R, 0 <= start <= zlen R0 -> R = R0 -> (app = true -> zlen R0 = start) ->
  uinv start (mkUl [] base (u32 (base + 1)) (u32 (base + 1)) start start 0 false FX_OK false []).
Proof.
  intros R S _ Ha. split.
  - constructor; cbn [u_acks u_id u_start u_ackid u_off u_hw u_max u_reord u_status u_got u_trace]; change (count is_send []) with 0; auto; try lia.
    + constructor.
    + intros r [].
    + rewrite Z.add_0_r. symmetry. apply u32_id. unfold U32, IDS in *. lia.
    + split; [lia|]. split; [now right|]. intros r [].
    + exact Logic.I.
    + intros r [].
    + split; [lia|]. intros r [].
    + split; [lia|]. intros; lia.
  - cbn [u_acks u_trace]. intros o R' K. remember (@nil item) as t eqn:E.
    assert (G : o = [] /\ R' = R0) by (induction K; [auto|destruct tr; discriminate|destruct (IHK E) as [Q _]; destruct o1; discriminate|destruct (IHK E) as [Q _]; destruct o1; discriminate|destruct tr; discriminate|destruct tr; discriminate]). destruct G as [-> ->].
    constructor; auto; try lia.
    intros Ea. exists [], []. split; [reflexivity|]. split; [intros x []|]. cbn [chain]. auto.
Qed.
End Loop.
