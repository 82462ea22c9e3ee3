From Coq Require Import Permutation.
From Verif Require Import Base SshbufModel SshbufSpec SshbufProof WireSpec WireProof Dec SclientModel SclientSpec SclientProof.
Local Open Scope Z_scope.

Definition CAP : Z := 1073741824.
Definition IDS : Z := 4294967296.
Definition TOP : Z := 4611686018427387904.

Section Inv.
Variable h F f0 : list Z.
Variable size nreq start base : Z.
Hypothesis Hstart : 0 <= start <= zlen f0.
Hypothesis Htop : start < TOP.
Hypothesis HF : zlen F < TOP.
Hypothesis Hbase : 0 <= base < IDS.

Record core (intr : bool) (s : dl) : Prop := mkCore {
  v_num : d_num s = zlen (d_reqs s);
  v_max : 0 <= d_max s;
  v_nodup : NoDup (map rq_id (d_reqs s));
  v_ids : forall r, In r (d_reqs s) -> exists k, 0 <= k < count is_send (d_trace s) /\ rq_id r = u32 (base + k);
  v_next : d_next s = u32 (base + count is_send (d_trace s));
  v_req : forall r, In r (d_reqs s) -> 0 <= rq_len r <= CAP /\ start <= rq_off r /\ rq_off r + rq_len r <= d_off s;
  v_off : start <= d_off s <= start + count is_send (d_trace s) * CAP;
  v_buf : 0 <= d_buf s <= CAP;
  v_cov : d_rerr s = false -> d_werr s = false -> forall pos, start <= pos < zlen F -> pos < d_off s ->
    (pos < d_ack s /\ pos < zlen (d_file s) /\ byte_at (d_file s) pos = byte_at F pos) \/ exists r, In r (d_reqs s) /\ rq_off r <= pos < rq_off r + rq_len r;
  v_end : d_max s = 0 -> zlen F <= d_off s \/ d_rerr s = true \/ d_werr s = true \/ intr = true;
  v_len : zlen f0 <= zlen (d_file s) <= Z.max (zlen f0) (zlen F);
  v_low : forall pos, 0 <= pos < start -> byte_at (d_file s) pos = byte_at f0 pos;
  v_ack : start <= d_ack s <= Z.max start (zlen F);
  v_hw : start <= d_hw s <= Z.max start (zlen F);
  v_hwb : count is_wfail (d_trace s) <= 1 -> d_hw s <= zlen (d_file s) /\ forall pos, start <= pos < d_hw s -> byte_at (d_file s) pos = byte_at F pos;
  v_ord : d_reord s = false -> d_ack s = d_hw s;
  v_werr : d_werr s = true -> 1 <= count is_wfail (d_trace s) }.
Definition inv (intr : bool) (s : dl) : Prop := core intr s /\ bag h F (d_trace s) (d_reqs s).

Lemma id_range : forall x, 0 <= u32 x < IDS.
Proof. intros x. unfold u32, U32, IDS. apply Z.mod_pos_bound. lia. Qed.
Lemma fresh_id : forall k n, 0 <= k < n -> n < IDS -> u32 (base + k) <> u32 (base + n).
Proof.
  intros k n H1 H2 E. unfold u32, U32, IDS in *. assert (Q : (base + n - (base + k)) mod 4294967296 = 0) by (rewrite Zminus_mod, E, Z.sub_diag; reflexivity). replace (base + n - (base + k)) with (n - k) in Q by lia. rewrite Z.mod_small in Q by lia. lia.
Qed.
Lemma sends_more : forall tr m, count is_send (tr ++ [TSend m]) = count is_send tr + 1.
Proof. intros. rewrite count_app, count_one. reflexivity. Qed.

Lemma send_one_inv : forall intr s, inv intr s -> count is_send (d_trace s) < IDS -> inv intr (send_one h s).
Proof.
  intros intr s [C B] L. pose proof (count_nonneg is_send (d_trace s)) as P0. destruct C as [Vnum Vmax Vnd Vids Vnext Vreq Voff Vbuf Vcov Vend Vlen Vlow Vack Vhw Vhwb Vord Vwerr].
  pose proof (id_range (base + count is_send (d_trace s))) as Idr. assert (Off : d_off s + d_buf s < 18446744073709551616) by (unfold IDS, CAP, TOP in *; nia). assert (Eo : u64 (d_off s + d_buf s) = d_off s + d_buf s) by (apply u64_id; unfold U64; lia).
  split.
  - constructor; cbn [send_one d_reqs d_num d_max d_off d_buf d_next d_hw d_ack d_reord d_rerr d_werr d_status d_file d_trace]; rewrite ?Eo, ?sends_more; auto.
    + rewrite zlen_app, zlen_cons, zlen_nil, Vnum. lia.
    + rewrite map_app. cbn [map rq_id]. apply NoDup_Add with (a := d_next s) (l := map rq_id (d_reqs s)); [rewrite <- (app_nil_r (map rq_id (d_reqs s))) at 1; apply Add_app|]. split; [exact Vnd|]. intros Hin. apply in_map_iff in Hin. destruct Hin as (r & Er & Hr). destruct (Vids r Hr) as (k & Hk & Ek). rewrite Er, Vnext in Ek. symmetry in Ek. exact (fresh_id k _ Hk L Ek).
    + intros r Hr. apply in_app_iff in Hr. destruct Hr as [Hr|[<-|[]]]; [destruct (Vids r Hr) as (k & Hk & Ek); exists k; split; [lia|exact Ek]|]. exists (count is_send (d_trace s)). split; [lia|exact Vnext].
    + rewrite Vnext. unfold u32, U32. rewrite Zplus_mod_idemp_l. f_equal. lia.
    + intros r Hr. apply in_app_iff in Hr. destruct Hr as [Hr|[<-|[]]]; [specialize (Vreq r Hr); lia|]. cbn [rq_len rq_off]. lia.
    + unfold CAP in *. lia.
    + intros E1 E2 pos Hp Hq. destruct (Z_lt_dec pos (d_off s)) as [Hl|Hl].
      * destruct (Vcov E1 E2 pos Hp Hl) as [Q|(r & Hr & Rr)]; [now left|]. right. exists r. split; [apply in_app_iff; now left|exact Rr].
      * right. eexists. split; [apply in_app_iff; right; left; reflexivity|]. cbn [rq_len rq_off]. lia.
    + intros E. specialize (Vend E). intuition lia.
    + rewrite count_app, count_one. cbn [is_wfail]. rewrite Z.add_0_r. exact Vhwb.
    + rewrite count_app, count_one. cbn [is_wfail]. rewrite Z.add_0_r. exact Vwerr.
  - cbn [send_one d_reqs d_trace]. apply bag_send; cbn [rq_id rq_off rq_len]; auto; [rewrite Vnext; exact Idr|lia|unfold CAP in Vbuf; lia].
Qed.
Lemma iter_trace : forall n s, exists l, d_trace (Nat.iter n (send_one h) s) = d_trace s ++ l /\ count is_send l = Z.of_nat n /\ count is_recv l = 0.
Proof.
  induction n as [|n IH]; intros s; [exists []; rewrite app_nil_r; auto|]. destruct (IH s) as (l & E & C & R). cbn [Nat.iter nat_rect send_one d_trace]. change (nat_rect _ _ _ n) with (Nat.iter n (send_one h) s). rewrite E. eexists. rewrite <- app_assoc. split; [reflexivity|]. rewrite !count_app, !count_one, C, R. cbn [is_send is_recv]. split; lia.
Qed.
Lemma iter_inv : forall n intr s, inv intr s -> count is_send (d_trace (Nat.iter n (send_one h) s)) <= IDS -> inv intr (Nat.iter n (send_one h) s).
Proof.
  induction n as [|n IH]; intros intr s I L; [exact I|]. cbn [Nat.iter nat_rect] in *. change (nat_rect _ _ _ n) with (Nat.iter n (send_one h) s) in *. cbn [send_one d_trace] in L. rewrite sends_more in L. apply send_one_inv; [apply IH; auto; lia|lia].
Qed.
Lemma more_inv : forall intr s, inv intr s -> count is_send (d_trace (send_more h s)) <= IDS -> inv intr (send_more h s).
Proof. intros. now apply iter_inv. Qed.
Lemma stop_inv : forall intr s, inv intr s -> inv true (stop_new s).
Proof. intros intr s [C B]. split; [|exact B]. destruct C. constructor; cbn [stop_new d_reqs d_num d_max d_off d_buf d_next d_hw d_ack d_reord d_rerr d_werr d_status d_file d_trace]; auto; lia. Qed.
Lemma intr_inv : forall intr intr' s, inv intr s -> inv (intr || intr') s.
Proof. intros intr intr' s [C B]. split; [|exact B]. destruct C. constructor; auto. intros E. destruct (v_end0 E) as [Q|[Q|[Q| ->]]]; auto. Qed.

Lemma nodup_mid : forall (l1 l2 : list Z) x, NoDup (l1 ++ x :: l2) -> NoDup (l1 ++ l2).
Proof. intros. eapply NoDup_remove_1; eauto. Qed.
Lemma in_mid : forall (A : Type) (l1 l2 : list A) x y, In y (l1 ++ l2) -> In y (l1 ++ x :: l2).
Proof. intros A l1 l2 x y H. apply in_app_iff in H. apply in_app_iff. destruct H; [now left|right; now right]. Qed.
Lemma trace_recv : forall tr m, count is_send (tr ++ [TRecv m]) = count is_send tr /\ count is_wfail (tr ++ [TRecv m]) = count is_wfail tr.
Proof. intros. rewrite !count_app, !count_one. cbn [is_send is_wfail]. lia. Qed.
Lemma recv_core : forall intr s m, core intr s -> core intr (received m s).
Proof. intros intr s m C. destruct C. destruct (trace_recv (d_trace s) m) as [E1 E2]. constructor; cbn [received d_reqs d_num d_max d_off d_buf d_next d_hw d_ack d_reord d_rerr d_werr d_status d_file d_trace]; rewrite ?E1, ?E2; auto. Qed.

Lemma status_inv : forall intr s r code, core intr s -> In r (d_reqs s) -> (code = 1 -> zlen F <= rq_off r) -> core intr (on_status s r code).
Proof.
  intros intr s r code C Hr Hc. destruct C as [Vnum Vmax Vnd Vids Vnext Vreq Voff Vbuf Vcov Vend Vlen Vlow Vack Vhw Vhwb Vord Vwerr]. destruct (find_split _ _ _ (find_in _ _ Vnd Hr)) as (l1 & l2 & El & _ & Erm & _).
  constructor; cbn [on_status d_reqs d_num d_max d_off d_buf d_next d_hw d_ack d_reord d_rerr d_werr d_status d_file d_trace]; rewrite ?Erm; auto; try lia.
  - rewrite Vnum, El, !zlen_app, zlen_cons. lia.
  - rewrite El, map_app in Vnd. cbn [map] in Vnd. rewrite map_app. now apply nodup_mid in Vnd.
  - intros q Hq. apply Vids. rewrite El. now apply in_mid.
  - intros q Hq. apply Vreq. rewrite El. now apply in_mid.
  - intros E1 E2 pos Hp Hq. unfold FX_EOF in E1. destruct (code =? 1) eqn:Ec; cbn [negb] in E1; [|discriminate]. destruct (Vcov E1 E2 pos Hp Hq) as [Q|(q & Hq' & Rq)]; [now left|]. right. exists q. split; [|exact Rq]. rewrite El in Hq'. apply in_app_iff in Hq'. apply in_app_iff. destruct Hq' as [Q|[<-|Q]]; [now left| |now right]. exfalso. apply Z.eqb_eq in Ec. specialize (Hc Ec). lia.
  - intros _. unfold FX_EOF. destruct (code =? 1) eqn:Ec; cbn [negb]; [|auto]. left. apply Z.eqb_eq in Ec. specialize (Hc Ec). specialize (Vreq r Hr). lia.
Qed.

(** After the write and the bookkeeping the request counts as served: what it
    still has to bring is what lies beyond the data. *)
Lemma data_inv : forall intr s r data w, core intr s -> In r (d_reqs s) -> zlen data <= rq_len r -> rq_off r + zlen data <= zlen F -> data = part F (rq_off r) (zlen data) -> (zlen data <> rq_len r -> count is_send (d_trace s) < IDS) ->
  core intr (on_window size nreq (on_len h (on_write s r data w) r (zlen data))).
Proof.
  intros intr s r data w C Hr Hlen Dl Hdata Hs. destruct C as [Vnum Vmax Vnd Vids Vnext Vreq Voff Vbuf Vcov Vend Vlen Vlow Vack Vhw Vhwb Vord Vwerr]. destruct (find_split _ _ _ (find_in _ _ Vnd Hr)) as (l1 & l2 & El & _ & Erm & Eup).
  pose proof (zlen_nonneg _ data) as Ld. pose proof (zlen_nonneg _ F) as LF. pose proof (zlen_nonneg _ f0) as Lf0. destruct (Vreq r Hr) as (R1 & R2 & R3). set (len := zlen data) in *. set (n := wdone w data). assert (Hn : 0 <= n <= len) by (unfold n, wdone; fold len; destruct w; lia).
  assert (Db : forall i, 0 <= i < len -> byte_at data i = byte_at F (rq_off r + i)). { intros i Hi. rewrite Hdata. apply part_byte; lia. }
  set (w0 := write_at (d_file s) (rq_off r) (ztake n data)). assert (Ln : zlen (ztake n data) = n) by (rewrite take_len by lia; fold len; lia).
  assert (Wl : zlen w0 = if n =? 0 then zlen (d_file s) else Z.max (zlen (d_file s)) (rq_off r + n)) by (unfold w0; rewrite write_len, Ln by lia; reflexivity).
  assert (Wb : forall i, 0 <= i -> byte_at w0 i = if (rq_off r <=? i) && (i <? rq_off r + n) then byte_at F i else byte_at (d_file s) i).
  { intros i Hi. unfold w0. rewrite write_byte, Ln by lia. destruct ((rq_off r <=? i) && (i <? rq_off r + n)) eqn:E; [|reflexivity]. rewrite byte_take by lia. rewrite Db by lia. f_equal. lia. }
  assert (Good : forall i, 0 <= i -> byte_at (d_file s) i = byte_at F i -> byte_at w0 i = byte_at F i) by (intros i Hi Q; rewrite Wb by exact Hi; destruct (_ && _); [reflexivity|exact Q]).
  assert (WL : zlen f0 <= zlen w0 <= Z.max (zlen f0) (zlen F)) by (rewrite Wl; destruct (n =? 0) eqn:E; lia).
  assert (Wlow : forall pos, 0 <= pos < start -> byte_at w0 pos = byte_at f0 pos) by (intros pos Hp; rewrite Wb by lia; replace (rq_off r <=? pos) with false by lia; cbn [andb]; auto).
  assert (Wge : zlen (d_file s) <= zlen w0) by (rewrite Wl; destruct (n =? 0); lia).
  assert (E64 : u64 (rq_off r + len) = rq_off r + len) by (apply u64_id; unfold U64, TOP in *; lia).
  set (tr := d_trace s ++ [TWrite (rq_off r) data w]). assert (Ct : count is_send tr = count is_send (d_trace s)) by (unfold tr; rewrite count_app, count_one; cbn [is_send]; lia). assert (Cw : count is_wfail tr = count is_wfail (d_trace s) + if wfailed w then 1 else 0) by (unfold tr; rewrite count_app, count_one; reflexivity).
  pose proof (count_nonneg is_wfail (d_trace s)) as Cw0.
  (* the bookkeeping of the write *)
  assert (S1 : exists mx hw ack reord werr, on_write s r data w = mkDl (d_reqs s) (d_num s) mx (d_off s) (d_buf s) (d_next s) hw ack reord (d_rerr s) werr (d_status s) w0 tr /\
    0 <= mx /\ (mx = 0 -> d_max s = 0 \/ werr = true) /\ (werr = true -> 1 <= count is_wfail tr) /\ start <= ack <= Z.max start (zlen F) /\ start <= hw <= Z.max start (zlen F) /\ (reord = false -> ack = hw) /\ (werr = false -> d_werr s = false /\ n = len /\ d_ack s <= ack /\ rq_off r + len <= ack) /\ (d_werr s = true -> werr = true) /\
    (count is_wfail tr <= 1 -> hw <= zlen w0 /\ forall pos, start <= pos < hw -> byte_at w0 pos = byte_at F pos)).
  { unfold on_write. fold n w0 len tr. rewrite E64. destruct (wfailed w && negb (d_werr s)) eqn:Ew.
    - apply andb_prop in Ew. destruct Ew as [Ew1 Ew2]. eexists _, _, _, _, _. split; [reflexivity|]. rewrite Ew1 in Cw. split; [lia|]. split; [auto|]. split; [lia|]. split; [lia|]. split; [lia|]. split; [exact Vord|]. split; [discriminate|]. split; [auto|]. intros Hc. destruct (Vhwb ltac:(clear - Hc Cw; lia)) as [H1 H2]. split; [clear - H1 Wge; lia|]. intros pos Hp. apply Good; [clear - Hp Hstart; lia|now apply H2].
    - set (ack := if d_ack s <? rq_off r + len then rq_off r + len else d_ack s). assert (Ha : ack = Z.max (d_ack s) (rq_off r + len)) by (unfold ack; destruct (_ <? _) eqn:Q; lia).
      assert (Hok : d_werr s = false -> n = len /\ wfailed w = false). { intros E. rewrite E in Ew. cbn [negb] in Ew. rewrite andb_true_r in Ew. unfold n, wdone. destruct w; [auto|discriminate]. }
      assert (Ar : start <= ack <= Z.max start (zlen F)) by lia.
      destruct (negb (d_reord s) && (rq_off r <=? d_hw s)) eqn:Ec.
      + apply andb_prop in Ec. destruct Ec as [Ec1 Ec2]. apply negb_true_iff in Ec1. specialize (Vord Ec1). eexists _, _, _, _, _. split; [reflexivity|]. split; [exact Vmax|]. split; [auto|]. split; [intros E; specialize (Vwerr E); clear - Vwerr Cw; destruct (wfailed w); lia|]. split; [exact Ar|]. split; [exact Ar|]. split; [reflexivity|]. split; [intros E; destruct (Hok E) as [Hk1 Hk2]; split; [exact E|]; split; [exact Hk1|]; clear - Ha; lia|]. split; [auto|].
        intros Hc. assert (Hnw : wfailed w = false). { destruct (d_werr s) eqn:E; [|now apply Hok]. specialize (Vwerr eq_refl). destruct (wfailed w); [lia|reflexivity]. } assert (Hnl : n = len) by (unfold n, wdone; destruct w; [reflexivity|discriminate]). rewrite Hnw in Cw. destruct (Vhwb ltac:(clear - Hc Cw; lia)) as [H1 H2].
        rewrite Hnl in *. split; [rewrite Wl, Ha; clear - Vord Ec2 H1 Ld; destruct (len =? 0) eqn:El0; lia|]. intros pos Hp. rewrite Wb by (clear - Hp Hstart; lia). destruct ((rq_off r <=? pos) && (pos <? rq_off r + len)) eqn:Q; [reflexivity|]. apply H2. clear - Q Hp Ha Vord Ec2. lia.
      + assert (Hh : d_hw s < rq_off r \/ d_reord s = true) by (destruct (d_reord s); [now right|left; cbn [negb andb] in Ec; lia]).
        assert (Hre : (if negb (d_reord s) && (rq_off r >? d_hw s) then true else d_reord s) = true) by (destruct (d_reord s); cbn [negb andb]; [reflexivity|]; destruct Hh as [Hh|Hh]; [|discriminate]; replace (rq_off r >? d_hw s) with true by lia; reflexivity).
        rewrite Hre. eexists _, _, _, _, _. split; [reflexivity|]. split; [exact Vmax|]. split; [auto|]. split; [intros E; specialize (Vwerr E); clear - Vwerr Cw; destruct (wfailed w); lia|]. split; [exact Ar|]. split; [exact Vhw|]. split; [discriminate|]. split; [intros E; destruct (Hok E) as [Hk1 Hk2]; split; [exact E|]; split; [exact Hk1|]; clear - Ha; lia|]. split; [auto|].
        intros Hc. destruct (Vhwb) as [H1 H2]; [clear - Hc Cw; destruct (wfailed w); lia|]. split; [clear - H1 Wge; lia|]. intros pos Hp. apply Good; [clear - Hp Hstart; lia|now apply H2]. }
  destruct S1 as (mx & hw & ack & reord & werr & E1 & M1 & M2 & M3 & M4 & M5 & M6 & M7 & M8 & M9). rewrite E1. assert (Wg2 : n = len -> rq_off r + len <= zlen w0 \/ len = 0) by (intros Q; rewrite Wl, Q; clear - Ld; destruct (len =? 0) eqn:Q2; lia). clear E1 Wl Cw0 Ln Vwerr.
  assert (Mx : forall b, core intr (mkDl (d_reqs b) (d_num b) (d_max b) (d_off b) (d_buf b) (d_next b) (d_hw b) (d_ack b) (d_reord b) (d_rerr b) (d_werr b) (d_status b) (d_file b) (d_trace b)) -> core intr (on_window size nreq b)).
  { intros b C. destruct C. constructor; cbn [on_window d_reqs d_num d_max d_off d_buf d_next d_hw d_ack d_reord d_rerr d_werr d_status d_file d_trace] in *; auto.
    - destruct (d_max b >? 0); [destruct (_ && _); [lia|]; destruct (_ <? _); lia|lia].
    - intros E. apply v_end0. destruct (d_max b >? 0) eqn:Q; [destruct (_ && _); [lia|]; destruct (_ <? _); lia|lia]. }
  apply Mx. unfold on_len. cbn [d_reqs d_num d_max d_off d_buf d_next d_hw d_ack d_reord d_rerr d_werr d_status d_file d_trace]. destruct (len =? rq_len r) eqn:Ef.
  - rewrite Erm. constructor; cbn [d_reqs d_num d_max d_off d_buf d_next d_hw d_ack d_reord d_rerr d_werr d_status d_file d_trace]; auto; rewrite ?Ct; auto.
    + rewrite Vnum, El, !zlen_app, zlen_cons. clear. lia.
    + rewrite El, map_app in Vnd. cbn [map] in Vnd. rewrite map_app. now apply nodup_mid in Vnd.
    + intros q Hq. apply Vids. rewrite El. now apply in_mid.
    + intros q Hq. apply Vreq. rewrite El. now apply in_mid.
    + intros Q1 Q2 pos Hp Hq. destruct (M7 Q2) as (W0 & Hnl & A1 & A2). destruct (Vcov Q1 W0 pos Hp Hq) as [(Q3 & Q5 & Q4)|(q & Hq' & Rq)]; [left; split; [clear - Q3 A1; lia|]; split; [clear - Q5 Wge; lia|]; apply Good; [clear - Hp Hstart; lia|exact Q4]|].
      rewrite El in Hq'. apply in_app_iff in Hq'. destruct Hq' as [Q|[<-|Q]]; [right; exists q; split; [apply in_app_iff; now left|exact Rq]| |right; exists q; split; [apply in_app_iff; now right|exact Rq]]. assert (Rl : pos < rq_off r + len) by (clear - Rq Ef; lia). left. split; [clear - Rl A2; lia|]. split; [clear - Rl Rq Wg2 Hnl; lia|]. rewrite Wb by (clear - Hp Hstart; lia). replace ((rq_off r <=? pos) && (pos <? rq_off r + n)) with true by (clear - Rq Rl Hnl; lia). reflexivity.
    + intros E. destruct (M2 E) as [Q|Q]; [|auto]. destruct (Vend Q) as [Q1|[Q1|[Q1|Q1]]]; auto.
  - assert (Hlt : count is_send (d_trace s) < IDS) by (apply Hs; clear - Ef; lia). pose proof (count_nonneg is_send (d_trace s)) as Cs0. rewrite E64, Eup. set (r' := mkReq (d_next s) (rq_len r - len) (rq_off r + len)). assert (Ct' : count is_send (tr ++ [TSend (read_request h r')]) = count is_send (d_trace s) + 1) by (rewrite sends_more, Ct; reflexivity). assert (Cw' : count is_wfail (tr ++ [TSend (read_request h r')]) = count is_wfail tr) by (rewrite count_app, count_one; cbn [is_wfail]; lia).
    constructor; cbn [d_reqs d_num d_max d_off d_buf d_next d_hw d_ack d_reord d_rerr d_werr d_status d_file d_trace]; rewrite ?Ct', ?Cw'; auto.
    + rewrite Vnum, El, !zlen_app, !zlen_cons. reflexivity.
    + rewrite El, map_app in Vnd. cbn [map] in Vnd. rewrite map_app. cbn [map rq_id]. apply NoDup_Add with (a := d_next s) (l := map rq_id l1 ++ map rq_id l2); [apply Add_app|]. split; [now apply nodup_mid in Vnd|]. intros Hin. rewrite <- map_app in Hin. apply in_map_iff in Hin. destruct Hin as (q & Eq & Hq). assert (Hq' : In q (d_reqs s)) by (rewrite El; now apply in_mid). destruct (Vids q Hq') as (k & Hk & Ek). rewrite Eq, Vnext in Ek. symmetry in Ek. exact (fresh_id k _ Hk Hlt Ek).
    + intros q Hq. apply in_app_iff in Hq. destruct Hq as [Hq|[<-|Hq]]; [|exists (count is_send (d_trace s)); split; [clear - Cs0; lia|exact Vnext]|]; (destruct (Vids q) as (k & Hk & Ek); [rewrite El; apply in_mid; apply in_app_iff; auto|]; exists k; split; [clear - Hk; lia|exact Ek]).
    + rewrite Vnext. unfold u32, U32. rewrite Zplus_mod_idemp_l. f_equal. clear. lia.
    + intros q Hq. apply in_app_iff in Hq. destruct Hq as [Hq|[<-|Hq]]; [apply Vreq; rewrite El; apply in_mid, in_app_iff; auto| |apply Vreq; rewrite El; apply in_mid, in_app_iff; auto]. cbn [r' rq_len rq_off]. unfold CAP in *. clear - R1 R2 R3 Ld Hlen. lia.
    + unfold CAP in *. clear - Voff. lia.
    + unfold MIN_READ_SIZE, CAP in *. clear - Vbuf Ld. destruct (len <? d_buf s) eqn:Q; lia.
    + intros Q1 Q2 pos Hp Hq. destruct (M7 Q2) as (W0 & Hnl & A1 & A2). destruct (Vcov Q1 W0 pos Hp Hq) as [(Q3 & Q5 & Q4)|(q & Hq' & Rq)]; [left; split; [clear - Q3 A1; lia|]; split; [clear - Q5 Wge; lia|]; apply Good; [clear - Hp Hstart; lia|exact Q4]|].
      rewrite El in Hq'. apply in_app_iff in Hq'. destruct Hq' as [Q|[<-|Q]]; [right; exists q; split; [apply in_app_iff; now left|exact Rq]| |right; exists q; split; [apply in_app_iff; right; now right|exact Rq]].
      destruct (Z_lt_dec pos (rq_off r + len)) as [Hl|Hl]; [left; split; [clear - Hl A2; lia|]; split; [clear - Hl Rq Wg2 Hnl; lia|]; rewrite Wb by (clear - Hp Hstart; lia); replace ((rq_off r <=? pos) && (pos <? rq_off r + n)) with true by (clear - Rq Hl Hnl; lia); reflexivity|]. right. exists r'. split; [apply in_app_iff; right; now left|]. cbn [r' rq_len rq_off]. clear - Rq Hl. lia.
    + intros E. destruct (M2 E) as [Q|Q]; [|auto]. destruct (Vend Q) as [Q1|[Q1|[Q1|Q1]]]; auto.
Qed.
End Inv.
