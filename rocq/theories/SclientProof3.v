From Coq Require Import Permutation.
From Verif Require Import Base SshbufModel SshbufSpec SshbufProof WireSpec WireProof Dec SclientModel SclientSpec SclientProof SclientProof2.
Local Open Scope Z_scope.

Definition st_of (r : res) : dl := match r with Ok s => s | Fatal s => s end.
Definition end_of (e : loop_end) : dl := match e with Ended _ s | Waiting s | Died s => s end.
Lemma count_ext : forall p a b, count p a <= count p (a ++ b).
Proof. intros. rewrite count_app. pose proof (count_nonneg p b). lia. Qed.

(** Traces only grow. *)
Lemma window_trace : forall sz nr s, d_trace (on_window sz nr s) = d_trace s.
Proof. reflexivity. Qed.
Lemma write_trace : forall s r d w, d_trace (on_write s r d w) = d_trace s ++ [TWrite (rq_off r) d w].
Proof. intros. unfold on_write. destruct (_ && _); reflexivity. Qed.
Lemma len_trace : forall h s r n, exists l, d_trace (on_len h s r n) = d_trace s ++ l /\ count is_recv l = 0.
Proof. intros. unfold on_len. destruct (_ =? _); [exists []; rewrite app_nil_r|eexists]; split; try reflexivity. Qed.
Lemma msg_trace : forall h sz nr s m w, exists l, d_trace (st_of (on_msg h sz nr s m w)) = d_trace s ++ TRecv m :: l.
Proof.
  intros. unfold on_msg. assert (B : exists l, d_trace (received m s) = d_trace s ++ TRecv m :: l) by (exists []; reflexivity).
  destruct (get_int 1 m) as [[ty m1]|]; [|exact B]. destruct (get_int 4 m1) as [[id m2]|]; [|exact B]. destruct (request_find _ id) as [r|]; [|exact B]. destruct (ty =? FXP_STATUS); [destruct (get_int 4 m2) as [[code m3]|]; exact B|]. destruct (ty =? FXP_DATA); [|exact B]. destruct (get_str m2) as [[d m3]|]; [|exact B]. destruct (zlen d >? rq_len r); [exact B|]. cbn [st_of]. rewrite window_trace. destruct (len_trace h (on_write (received m s) r d w) r (zlen d)) as (l & E & _). rewrite E, write_trace. cbn [received d_trace]. rewrite <- !app_assoc. eexists. reflexivity.
Qed.
Lemma more_trace : forall h s, exists l, d_trace (send_more h s) = d_trace s ++ l /\ count is_recv l = 0 /\ count is_send l = Z.max 0 (d_max s - d_num s).
Proof. intros h s. destruct (iter_trace h (Z.to_nat (d_max s - d_num s)) s) as (l & E & C & R). exists l. split; [exact E|]. split; [exact R|lia]. Qed.
Lemma loop_trace : forall h sz nr evs intr s, exists l, d_trace (end_of (dl_loop h sz nr evs intr s)) = d_trace s ++ l.
Proof.
  intros h sz nr. induction evs as [|e evs IH]; intros intr s; cbn [dl_loop]; (destruct (negb _); [exists []; now rewrite app_nil_r|]).
  - destruct (more_trace h s) as (l & E & _). exists l. exact E.
  - destruct (_ && _); [exists []; now rewrite app_nil_r|]. set (s1 := if intr || ev_intr e then stop_new s else s). assert (E1 : d_trace s1 = d_trace s) by (unfold s1; destruct (_ || _); reflexivity). destruct (more_trace h s1) as (l & E & _). destruct (ev_msg e) as [m|]; [|exists l; cbn [end_of]; now rewrite E, E1].
    destruct (msg_trace h sz nr (send_more h s1) m (ev_write e)) as (l2 & E2). destruct (on_msg h sz nr (send_more h s1) m (ev_write e)) as [s3|s3]; cbn [st_of] in E2.
    + destruct (IH (intr || ev_intr e) s3) as (l3 & E3). rewrite E3, E2, E, E1, <- !app_assoc. eexists. reflexivity.
    + cbn [end_of]. rewrite E2, E, E1, <- !app_assoc. eexists. reflexivity.
Qed.

Section Loop.
Variable h F f0 : list Z.
Variable size nreq start base : Z.
Hypothesis Hstart : 0 <= start <= zlen f0.
Hypothesis Htop : start < TOP.
Hypothesis HF : zlen F < TOP.
Hypothesis Hbase : 0 <= base < IDS.
Notation inv := (inv h F f0 start base).

Lemma msg_inv : forall intr s m w, inv intr s -> honest h F (d_trace s ++ [TRecv m]) -> count is_send (d_trace (st_of (on_msg h size nreq s m w))) <= IDS ->
  exists s', on_msg h size nreq s m w = Ok s' /\ inv intr s'.
Proof.
  intros intr s m w [C B] Ho Cs. assert (Idr : forall r, In r (d_reqs s) -> 0 <= rq_id r < 4294967296) by (intros r Hr; destruct (v_ids _ _ _ _ _ _ C r Hr) as (k & _ & ->); exact (id_range (base + k))).
  destruct (bag_recv h F (d_trace s) (d_reqs s) m (v_nodup _ _ _ _ _ _ C) Idr B Ho) as (r & Hr & T & Br). pose proof (recv_core F f0 start base intr s m C) as C1. pose proof (find_in _ _ (v_nodup _ _ _ _ _ _ C) Hr) as Fr. change (d_reqs s) with (d_reqs (received m s)) in Fr.
  unfold on_msg in *. cbv zeta in *. specialize (Idr r Hr). change 4294967296 with (256 ^ Z.of_nat 4) in Idr. destruct T as [(d & (Ld & rest & Em) & L1 & L2 & Ed)|[((Hc & rest & Em) & L1)|(code & Nc & Hc & rest & Em)]].
  - assert (G1 : get_int 1 m = Some (103, be_enc 4 (rq_id r) ++ enc_string d ++ rest)) by (rewrite Em; exact (get_int_enc 1 103 _ ltac:(lia))). rewrite G1 in *. rewrite (get_int_enc 4 (rq_id r) _ Idr) in *. rewrite Fr in *. change (103 =? FXP_STATUS) with false in *. change (103 =? FXP_DATA) with true in *. cbn iota in *. rewrite (get_str_enc d rest ltac:(lia)) in *. replace (zlen d >? rq_len r) with false in * by lia.
    eexists. split; [reflexivity|]. split; [apply (data_inv h F f0 size nreq start base); auto|].
    + intros Hne. cbn [st_of] in Cs. rewrite window_trace in Cs. unfold on_len in Cs. replace (zlen d =? rq_len r) with false in Cs by lia. cbn [d_trace] in Cs. rewrite sends_more, write_trace, count_app, count_one in Cs. cbn [is_send] in Cs. lia.
    + rewrite window_trace. change (d_reqs (on_window ?a ?b ?c)) with (d_reqs c). unfold on_len. destruct (zlen d =? rq_len r) eqn:Ef; cbn [d_reqs d_trace].
      * rewrite write_trace. replace (d_reqs (on_write (received m s) r d w)) with (d_reqs s) by (unfold on_write; destruct (_ && _); reflexivity). apply bag_write. exact Br.
      * rewrite write_trace. replace (d_reqs (on_write (received m s) r d w)) with (d_reqs s) by (unfold on_write; destruct (_ && _); reflexivity). replace (d_next (on_write (received m s) r d w)) with (d_next s) by (unfold on_write; destruct (_ && _); reflexivity).
        destruct (v_req _ _ _ _ _ _ C r Hr) as (Q1 & Q2 & Q3). destruct (find_split _ _ _ Fr) as (l1 & l2 & El & _ & Erm & Eup). cbn [received d_reqs] in El, Erm, Eup. rewrite Eup. pose proof (zlen_nonneg _ d). assert (E64 : u64 (rq_off r + zlen d) = rq_off r + zlen d) by (apply u64_id; unfold U64, TOP in *; lia). rewrite E64. set (r' := mkReq (d_next s) (rq_len r - zlen d) (rq_off r + zlen d)).
        apply (bag_perm _ _ _ ((l1 ++ l2) ++ [r'])); [rewrite <- app_assoc; apply Permutation_app_head; symmetry; apply Permutation_cons_append|]. apply bag_send; cbn [r' rq_id rq_off rq_len]; [rewrite (v_next _ _ _ _ _ _ C); apply id_range|unfold TOP in *; lia|unfold CAP in *; lia|]. apply bag_write. rewrite <- Erm. exact Br.
  - assert (G1 : get_int 1 m = Some (101, be_enc 4 (rq_id r) ++ be_enc 4 1 ++ rest)) by (rewrite Em; exact (get_int_enc 1 101 _ ltac:(lia))). rewrite G1 in *. rewrite (get_int_enc 4 (rq_id r) _ Idr) in *. rewrite Fr in *. change (101 =? FXP_STATUS) with true in *. cbn iota in *. rewrite (get_int_enc 4 1 _ Hc) in *. eexists. split; [reflexivity|]. split; [apply status_inv; auto|exact Br].
  - assert (G1 : get_int 1 m = Some (101, be_enc 4 (rq_id r) ++ be_enc 4 code ++ rest)) by (rewrite Em; exact (get_int_enc 1 101 _ ltac:(lia))). rewrite G1 in *. rewrite (get_int_enc 4 (rq_id r) _ Idr) in *. rewrite Fr in *. change (101 =? FXP_STATUS) with true in *. cbn iota in *. rewrite (get_int_enc 4 code _ Hc) in *. eexists. split; [reflexivity|]. split; [apply status_inv; auto; intros; contradiction|exact Br].
Qed.

Lemma loop_inv : forall evs intr s, inv intr s -> honest h F (d_trace (end_of (dl_loop h size nreq evs intr s))) -> count is_send (d_trace (end_of (dl_loop h size nreq evs intr s))) <= IDS ->
  match dl_loop h size nreq evs intr s with
  | Ended i s' => inv i s' /\ d_num s' = 0 /\ (d_max s' = 0 \/ i = true)
  | Waiting s' => exists i, inv i s'
  | Died s' => exists e, In e evs /\ ev_msg e = None
  end.
Proof.
  induction evs as [|e evs IH]; intros intr s I Ho Cs; cbn [dl_loop] in *.
  - destruct (negb _) eqn:E; [split; [exact I|]; pose proof (v_num _ _ _ _ _ _ (proj1 I)) as N; pose proof (v_max _ _ _ _ _ _ (proj1 I)); pose proof (zlen_nonneg _ (d_reqs s)); lia|]. exists intr. cbn [end_of] in Cs. now apply more_inv.
  - destruct (negb _) eqn:E; [split; [exact I|]; pose proof (v_num _ _ _ _ _ _ (proj1 I)) as N; pose proof (v_max _ _ _ _ _ _ (proj1 I)); pose proof (zlen_nonneg _ (d_reqs s)); lia|].
    destruct ((intr || ev_intr e) && (d_num s =? 0)) eqn:E2; [split; [now apply intr_inv|]; split; [lia|]; right; apply andb_prop in E2; apply E2|].
    set (i' := intr || ev_intr e) in *. set (s1 := if i' then stop_new s else s) in *. assert (I1 : inv i' s1). { unfold s1. destruct i' eqn:Ei; [now apply (stop_inv h F f0 start base intr)|]. unfold i' in Ei. apply orb_false_elim in Ei. destruct Ei as [-> _]. exact I. }
    destruct (ev_msg e) as [m|] eqn:Em; [|exists e; split; [now left|exact Em]].
    destruct (msg_trace h size nreq (send_more h s1) m (ev_write e)) as (l2 & T2).
    assert (Sub : exists l, d_trace (end_of (match on_msg h size nreq (send_more h s1) m (ev_write e) with Ok s3 => dl_loop h size nreq evs i' s3 | Fatal s3 => Died s3 end)) = d_trace (st_of (on_msg h size nreq (send_more h s1) m (ev_write e))) ++ l).
    { destruct (on_msg _ _ _ _ _ _) as [s3|s3]; cbn [st_of end_of]; [apply loop_trace|exists []; now rewrite app_nil_r]. }
    destruct Sub as (l & Es). rewrite Es in Ho, Cs. assert (Ho1 : honest h F (d_trace (send_more h s1) ++ [TRecv m])). { rewrite T2 in Ho. apply (honest_prefix h F _ (l2 ++ l)). rewrite <- !app_assoc in *. exact Ho. }
    assert (Cs1 : count is_send (d_trace (st_of (on_msg h size nreq (send_more h s1) m (ev_write e)))) <= IDS) by (pose proof (count_ext is_send (d_trace (st_of (on_msg h size nreq (send_more h s1) m (ev_write e)))) l); lia).
    assert (Cs2 : count is_send (d_trace (send_more h s1)) <= IDS) by (rewrite T2 in Cs1; pose proof (count_ext is_send (d_trace (send_more h s1)) (TRecv m :: l2)); lia).
    destruct (msg_inv i' (send_more h s1) m (ev_write e) (more_inv h F f0 start base Hstart Htop HF Hbase i' s1 I1 Cs2) Ho1 Cs1) as (s3 & E3 & I3). rewrite E3 in *. cbn [st_of] in *. assert (Es' := Es). rewrite <- Es in Ho, Cs. specialize (IH i' s3 I3 Ho Cs). destruct (dl_loop h size nreq evs i' s3) as [i s'|s'|s']; auto. destruct IH as (e' & He & Q). exists e'. split; [now right|exact Q].
Qed.
End Loop.
