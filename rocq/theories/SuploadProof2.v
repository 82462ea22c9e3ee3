From Verif Require Import Base SshbufModel SshbufSpec SshbufProof WireSpec WireProof Dec SclientModel SclientSpec SclientProof SclientProof2 SclientProof3 SuploadModel SuploadSpec SuploadProof.
Local Open Scope Z_scope.

Fixpoint asc (lo : Z) (l : list req) : Prop :=
  match l with [] => True | r :: t => lo <= rq_off r /\ asc (rq_off r + rq_len r) t end.
Lemma asc_snoc : forall l lo r, asc lo l -> (forall q, In q l -> rq_off q + rq_len q <= rq_off r) -> lo <= rq_off r -> asc lo (l ++ [r]).
Proof. induction l as [|q l IH]; intros lo r A H Hl; cbn [List.app asc] in *; [auto|]. destruct A as [A1 A2]. split; [exact A1|]. apply IH; auto; [intros x Hx; apply H; now right|apply H; now left]. Qed.
Lemma asc_weak : forall l lo lo', asc lo l -> lo' <= lo -> asc lo' l.
Proof. intros [|r l] lo lo' A H; cbn [asc] in *; [auto|]. split; [lia|tauto]. Qed.
Lemma asc_in : forall l lo r, asc lo l -> (forall q, In q l -> 0 < rq_len q) -> In r l -> lo <= rq_off r.
Proof. induction l as [|q l IH]; intros lo r A H Hr; [destruct Hr|]. cbn [asc] in A. destruct A as [A1 A2]. destruct Hr as [<-|Hr]; [exact A1|]. specialize (IH _ r A2 (fun x Hx => H x (or_intror Hx)) Hr). specialize (H q (or_introl eq_refl)). lia. Qed.
Lemma asc_remove : forall l1 r l2 lo, asc lo (l1 ++ r :: l2) -> 0 < rq_len r -> asc lo (l1 ++ l2).
Proof. induction l1 as [|q l1 IH]; intros r l2 lo A H; cbn [List.app asc] in *; [destruct A as [A1 A2]; eapply asc_weak; [exact A2|lia]|]. destruct A as [A1 A2]. split; [exact A1|eapply IH; eauto]. Qed.

Section Inv.
Variable h L R0 : list Z.
Variable app : bool.
Variable start base buflen nreq : Z.
Hypothesis Hstart : 0 <= start.
Hypothesis Hle : start <= zlen L.
Hypothesis HL : zlen L < TOP.
Hypothesis Hbase : 0 <= base < IDS.
Hypothesis Hbuf : 1 <= buflen <= 134217724.

Record ucore (hi : Z) (s : ul) : Prop := mkUcore {
  c_nodup : NoDup (map rq_id (u_acks s));
  c_ids : forall r, In r (u_acks s) -> exists k, 0 <= k < count is_send (u_trace s) /\ rq_id r = u32 (base + 1 + k);
  c_id : u_id s = u32 (base + count is_send (u_trace s));
  c_ok : reqs_ok L start (u_acks s) hi;
  c_asc : asc start (u_acks s);
  c_small : forall r, In r (u_acks s) -> rq_len r <= 134217724;
  c_hw : start <= u_hw s <= hi /\ forall r, In r (u_acks s) -> u_hw s <= rq_off r;
  c_max : 0 <= u_max s <= hi /\ (forall pos, start <= pos < hi -> pos < u_max s \/ exists r, In r (u_acks s) /\ rq_off r <= pos < rq_off r + rq_len r);
  c_reord : u_reord s = false -> u_max s = u_hw s \/ (u_max s = 0 /\ u_hw s = start);
  c_got : u_acks s <> [] -> u_got s = true;
  c_status : u_status s = 0 }.
Definition uinv (hi : Z) (s : ul) : Prop := ucore hi s /\ forall o R, keeps h R0 app (u_trace s) o R -> side L R0 app start (u_acks s) hi o R.

Lemma fresh_uid : forall k n, 0 <= k < n -> n < IDS -> u32 (base + 1 + k) <> u32 (base + 1 + n).
Proof.
  intros k n H1 H2 E. unfold u32, U32, IDS in *. assert (Q : (base + 1 + n - (base + 1 + k)) mod 4294967296 = 0) by (rewrite Zminus_mod, E, Z.sub_diag; reflexivity). replace (base + 1 + n - (base + 1 + k)) with (n - k) in Q by lia. rewrite Z.mod_small in Q by lia. lia.
Qed.
Lemma next_uid : forall n, u32 (u32 (base + n) + 1) = u32 (base + 1 + n).
Proof. intros n. unfold u32, U32. rewrite Zplus_mod_idemp_l. f_equal. lia. Qed.

Lemma send_inv : forall s len, uinv (u_off s) s -> 0 < len <= buflen -> u_off s + len <= zlen L -> count is_send (u_trace s) < IDS -> uinv (u_off s + len) (send_piece h L s len).
Proof.
  intros s len [C S] Hlen Hl Hc. destruct C as [Nd Id Idn Ok As Sm Hw Mx Re Go St]. assert (Ok' := Ok). destruct Ok as ([K0 K0'] & K1 & K2). pose proof (count_nonneg is_send (u_trace s)) as C0. set (n := count is_send (u_trace s)) in *.
  assert (E1 : u32 (u_id s + 1) = u32 (base + 1 + n)) by (rewrite Idn; apply next_uid). assert (Cn : count is_send (u_trace s ++ [TSend (write_request h (mkReq (u32 (u_id s + 1)) len (u_off s)) (ztake len (zdrop (u_off s) L)))]) = n + 1) by (rewrite count_app, count_one; reflexivity).
  assert (Ok2 : reqs_ok L start (u_acks s ++ [mkReq (u32 (u_id s + 1)) len (u_off s)]) (u_off s + len)). { split; [lia|]. split; [left; lia|]. intros r Hr. apply in_app_iff in Hr. destruct Hr as [Hr|[<-|[]]]; [specialize (K2 r Hr); lia|cbn [rq_off rq_len]; lia]. }
  split.
  - constructor; cbn [send_piece u_acks u_id u_start u_ackid u_off u_hw u_max u_reord u_status u_got u_trace]; rewrite ?Cn; auto.
    + rewrite map_app. cbn [map rq_id]. apply NoDup_Add with (a := u32 (u_id s + 1)) (l := map rq_id (u_acks s)); [rewrite <- (app_nil_r (map rq_id (u_acks s))) at 1; apply Add_app|]. split; [exact Nd|]. intros Hin. apply in_map_iff in Hin. destruct Hin as (r & Er & Hr). destruct (Id r Hr) as (k & Hk & Ek). rewrite Er, E1 in Ek. symmetry in Ek. exact (fresh_uid k n Hk Hc Ek).
    + intros r Hr. apply in_app_iff in Hr. destruct Hr as [Hr|[<-|[]]]; [destruct (Id r Hr) as (k & Hk & Ek); exists k; split; [lia|exact Ek]|]. exists n. split; [lia|exact E1].
    + rewrite E1. f_equal. lia.
    + apply asc_snoc; auto; cbn [rq_off]; intros q Hq; specialize (K2 q Hq); lia.
    + intros r Hr. apply in_app_iff in Hr. destruct Hr as [Hr|[<-|[]]]; [auto|cbn [rq_len]; lia].
    + split; [lia|]. intros r Hr. apply in_app_iff in Hr. destruct Hr as [Hr|[<-|[]]]; [now apply (proj2 Hw)|cbn [rq_off]; lia].
    + split; [lia|]. intros pos Hp. destruct (Z_lt_dec pos (u_off s)) as [Q|Q].
      * destruct (proj2 Mx pos ltac:(lia)) as [M|(r & Hr & Rr)]; [now left|]. right. exists r. split; [apply in_app_iff; now left|exact Rr].
      * right. eexists. split; [apply in_app_iff; right; now left|]. cbn [rq_off rq_len]. lia.
  - cbn [send_piece u_acks u_trace]. set (r := mkReq (u32 (u_id s + 1)) len (u_off s)) in *. intros o R K. revert o R K. apply (grow_send h R0 app (u_trace s) _ (side L R0 app start (u_acks s) (u_off s))); [exact S|now apply side_closed|].
    intros o R id off d Sd M. change (ztake len (zdrop (u_off s) L)) with (part L (rq_off r) (rq_len r)) in M. apply write_msg_inj in M.
    + destruct M as (-> & -> & ->). change (u_off s + len) with (u_off s + rq_len r). change ((rq_id r, rq_off r, part L (rq_off r) (rq_len r), false)) with (ukey L r, false). apply side_send; auto; cbn [r rq_len]; lia.
    + cbn [r rq_id]. apply id_range.
    + cbn [r rq_off]. unfold TOP in HL. lia.
    + cbn [r rq_off rq_len]. rewrite part_len by lia. lia.
Qed.

Lemma ack_inv : forall hi s m, uinv hi s -> (exists o R, keeps h R0 app (u_trace s ++ [TRecv m]) o R) -> (forall id code, status_reply id code m -> code = 0) ->
  exists s', on_reply s m = UOk s' /\ uinv hi s' /\ u_off s' = u_off s /\ u_trace s' = u_trace s ++ [TRecv m].
Proof.
  intros hi s m [C side_of_keeps] (o & R & K) Ne. destruct (keeps_recv _ _ _ _ _ _ _ K) as (o1 & id & off & d & b & o2 & R1 & code & K1 & Sr). pose proof (Ne id code Sr) as ->. pose proof (side_of_keeps _ _ K1) as S1. destruct C as [Nd Id Idn Ok As Sm Hw Mx Re Go St].
  assert (Hin : In (id, off, d) (map fst (o1 ++ (id, off, d, b) :: o2))) by (rewrite map_app; apply in_app_iff; right; now left). rewrite (g_keys _ _ _ _ _ _ _ _ S1) in Hin. apply in_map_iff in Hin. destruct Hin as (r & Er & Hr). injection Er as Er1 Er2 Er3.
  assert (Idr : 0 <= rq_id r < 4294967296) by (destruct (Id r Hr) as (k & _ & ->); exact (id_range (base + 1 + k))). pose proof (find_in _ _ Nd Hr) as Fr. destruct (find_split _ _ _ Fr) as (l1 & l2 & El & _ & Erm & _).
  destruct Sr as (_ & rest & Em). rewrite <- Er1 in Em. assert (G1 : get_int 1 m = Some (101, be_enc 4 (rq_id r) ++ be_enc 4 0 ++ rest)) by (rewrite Em; exact (get_int_enc 1 101 _ ltac:(lia))). assert (G2 : get_int 4 (be_enc 4 (rq_id r) ++ be_enc 4 0 ++ rest) = Some (rq_id r, be_enc 4 0 ++ rest)) by (apply (get_int_enc 4); exact Idr). assert (G3 : get_int 4 (be_enc 4 0 ++ rest) = Some (0, rest)) by (apply (get_int_enc 4); lia).
  unfold on_reply. cbv zeta. rewrite G1, G2. change (negb (101 =? FXP_STATUS)) with false. cbn iota. rewrite G3. cbn [u_received u_acks]. rewrite Fr. eexists. split; [reflexivity|]. split; [|split; reflexivity].
  assert (Ok' := Ok). destruct Ok as ([K0 K0'] & Kx & K2). destruct (K2 r Hr) as (P1 & P2 & P3 & P4). assert (E64 : u64 (rq_off r + rq_len r) = rq_off r + rq_len r) by (apply u64_id; unfold U64, TOP in *; lia).
  assert (Ct : count is_send (u_trace s ++ [TRecv m]) = count is_send (u_trace s)) by (rewrite count_app, count_one; cbn [is_send]; lia).
  assert (Sub : forall q, In q (l1 ++ l2) -> In q (u_acks s)) by (intros q Hq; rewrite El; now apply in_mid).
  assert (Ok2 : reqs_ok L start (l1 ++ l2) hi) by (split; [lia|]; split; [exact Kx|]; intros q Hq; apply K2; auto).
  set (mx := if u_max s <? rq_off r + rq_len r then rq_off r + rq_len r else u_max s). assert (Hm : mx = Z.max (u_max s) (rq_off r + rq_len r)) by (unfold mx; destruct (_ <? _) eqn:Q; lia).
  assert (Mx2 : 0 <= mx <= hi /\ forall pos, start <= pos < hi -> pos < mx \/ exists q, In q (l1 ++ l2) /\ rq_off q <= pos < rq_off q + rq_len q).
  { split; [lia|]. intros pos Hp. destruct (proj2 Mx pos Hp) as [Q|(q & Hq & Rq)]; [left; lia|]. rewrite El in Hq. apply in_app_iff in Hq. destruct Hq as [Hq|[<-|Hq]]; [right; exists q; split; [apply in_app_iff; now left|exact Rq]|left; lia|right; exists q; split; [apply in_app_iff; now right|exact Rq]]. }
  split.
  - unfold on_ack. cbn [u_received u_acks u_id u_start u_ackid u_off u_hw u_max u_reord u_status u_got u_trace]. rewrite E64. fold mx. rewrite Erm.
    constructor; cbn [u_acks u_id u_start u_ackid u_off u_hw u_max u_reord u_status u_got u_trace]; rewrite ?Ct; auto.
    + rewrite El, map_app in Nd. cbn [map] in Nd. rewrite map_app. now apply nodup_mid in Nd.
    + rewrite El in As. eapply asc_remove; eauto.
    + destruct (negb (u_reord s) && (rq_off r <=? u_hw s)) eqn:Q; [|split; [exact (proj1 Hw)|intros q Hq; apply (proj2 Hw); auto]].
      apply andb_prop in Q. destruct Q as [Q1 Q2]. apply negb_true_iff in Q1. pose proof (proj2 Hw r Hr) as Q3. assert (Eo : rq_off r = u_hw s) by lia. assert (Em2 : mx = rq_off r + rq_len r) by (destruct (Re Q1) as [X|[X Y]]; lia). rewrite Em2. split; [lia|].
      assert (Hl1 : l1 = []). { destruct l1 as [|q l1]; [reflexivity|]. exfalso. rewrite El in As. cbn [List.app asc] in As. destruct As as [A1 A2]. assert (Hq : In q (u_acks s)) by (rewrite El; now left). pose proof (proj2 Hw q Hq). assert (rq_off q + rq_len q <= rq_off r) by (eapply asc_in; [exact A2| |apply in_app_iff; right; now left]; intros x Hx; apply K2; rewrite El; now right). specialize (K2 q Hq). lia. }
      subst l1. cbn [List.app] in *. intros q Hq. rewrite El in As. cbn [asc] in As. eapply asc_in; [exact (proj2 As)| |exact Hq]. intros x Hx. apply K2. auto.
    + destruct (negb (u_reord s) && (rq_off r <=? u_hw s)) eqn:Q; [intros _; now left|]. intros Q2. exfalso. destruct (u_reord s); cbn [negb andb] in *; [discriminate|]. replace (rq_off r >? u_hw s) with true in Q2 by lia. discriminate.
  - cbn [on_ack u_received u_acks u_trace]. rewrite Erm. clear o R K. intros o R K. revert o R K. apply (grow_recv h R0 app (u_trace s) m (side L R0 app start (u_acks s) hi)).
    + exact side_of_keeps.
    + now apply side_closed.
    + intros p1 p2 R id' off' d' Sd Sr'. assert (Hid : id' = rq_id r). { assert (Hin : In (id', off', d') (map fst (p1 ++ (id', off', d', true) :: p2))) by (rewrite map_app; apply in_app_iff; right; now left). rewrite (g_keys _ _ _ _ _ _ _ _ Sd) in Hin. apply in_map_iff in Hin. destruct Hin as (q & Eq & Hq). injection Eq as Eq _ _. destruct (Id q Hq) as (k & _ & Ek). apply (status_id id' (rq_id r) 0 0 m); auto; [rewrite <- Eq, Ek; exact (id_range (base + 1 + k))|split; [lia|exists rest; exact Em]]. }
      rewrite El in Sd, Nd. eapply side_ack; eauto.
    + intros id' code Hc Sr'. apply Hc. eapply Ne; eauto.
Qed.
End Inv.
