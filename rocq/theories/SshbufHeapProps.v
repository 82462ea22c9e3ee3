(** Property C04: buffers derived from one another. *)
From Coq Require Import String.
From Verif Require Import Base SshbufModel SshbufSpec SshbufHeapModel SshbufHeapSpec SshbufHeapProof.

Lemma hist_step : forall l o b h, hist_ok (l ++ [o]) -> hrun heap0 l = HRet b h ->
  inv h None none_dead /\ small h /\ hop_ok o /\ roomy h o.
Proof.
  intros l o b h Ho E. destruct (hist_app _ _ _ _ _ Ho E) as [H1 (H2 & H3 & _)].
  destruct (reached_inv h ltac:(exists l, b; auto)). auto.
Qed.

(** C04, no bad access: whatever views a program creates, nests, parses from,
    writes to and frees, in whatever order, no call touches freed memory, frees
    twice, or fails a consistency check. *)
Theorem C04_no_fault : forall l, hist_ok l -> exists b h, hrun heap0 l = HRet b h.
Proof.
  intros l Ho. destruct (hrun_ok l heap0 inv0 small0 Ho) as (b & h & E & _). eauto.
Qed.
Print Assumptions C04_no_fault.

(** C04, shared memory stays: every buffer the program still holds can be read,
    and a call (a write, a parse, a free, a new view) on one buffer changes
    nothing in what any other held buffer contains.  A freed structure never
    comes back.  [derived_as] says what the call's own effect is. *)
Theorem C04_shared_memory : forall l o b h, hist_ok (l ++ [o]) -> hrun heap0 l = HRet b h ->
  (forall i, held (hp h i) = true -> exists c, readable h i = Some c) /\
  exists ok h', hstep h o = HRet ok h' /\ derived_as h o ok h' /\
    (forall j, target o <> Some j -> held (hp h j) = true -> held (hp h' j) = true /\ readable h' j = readable h j) /\
    (forall j, (j < hn h)%nat -> live (hp h j) = false -> live (hp h' j) = false).
Proof.
  intros l o b h Hok E. destruct (hist_step l o b h Hok E) as (HI & Hs & Ho & Hn). split.
  - intros i Hh. destruct (view_ok _ _ _ i HI Hs (held_act _ _ _ _ HI Hh)) as (d & Hv & _).
    unfold readable, view. rewrite Hv. cbn. eauto.
  - destruct (hstep_ok h o HI Hs Ho Hn) as (ok & h' & E' & _ & _ & _ & K & R & D). exists ok, h'. splits; auto.
Qed.
Print Assumptions C04_shared_memory.

(** C04, lifetime: a structure is allocated exactly as long as the program holds
    it or some allocated buffer was derived from it. *)
Theorem C04_lifetime : forall h i, reached h ->
  (live (hp h i) = true <-> held (hp h i) = true \/ exists k, live (hp h k) = true /\ child_of h k i).
Proof.
  intros h i Hr. destruct (reached_inv h Hr) as [HI Hs].
  assert (LA : forall j, live (hp h j) = act (hp h j)) by (intros j; rewrite (i_live _ _ _ HI); apply orb_false_r).
  rewrite LA. split.
  - intros Ha. pose proof (i_ref _ _ _ HI i Ha) as R. cbn [pendz] in R.
    destruct (held (hp h i)) eqn:Hh; [auto|]. right.
    unfold act in Ha. cbn [b2z] in R. destruct (count_has (fun j => is_par (hp h j) i) (hn h)) as (k & Hk & Hp); [unfold cnt in R; lia|].
    exists k. unfold is_par in Hp. apply andb_true_iff in Hp. destruct Hp as [Hp1 Hp2]. rewrite LA. split; [assumption|].
    unfold child_of. destruct (par (hp h k)) as [p|]; [|discriminate]. apply Nat.eqb_eq in Hp2. now subst.
  - intros [Hh|(k & Hk & Hp)]; [eapply held_act; eauto|]. rewrite LA in Hk.
    now destruct (i_par _ _ _ HI k i Hk Hp) as (_ & Ha & _).
Qed.
Print Assumptions C04_lifetime.

(** C04, no leak: when the program has freed everything it holds, every
    structure has been freed. *)
Theorem C04_no_leak : forall h, reached h -> (forall i, held (hp h i) = false) -> forall i, live (hp h i) = false.
Proof.
  intros h Hr Hh. destruct (reached_inv h Hr) as [HI Hs].
  assert (G : forall n i, (hn h - i <= n)%nat -> live (hp h i) = false).
  { induction n as [|n IH]; intros i Hi.
    - assert (hp h i = dead) as ->; [|reflexivity]. apply (i_out _ _ _ HI). lia.
    - destruct (live (hp h i)) eqn:L; [|reflexivity].
      pose proof L as L'. rewrite (C04_lifetime h i Hr) in L'. destruct L' as [L'|(k & Hk & Hp)]; [now rewrite Hh in L'|].
      rewrite (i_live _ _ _ HI), orb_false_r in Hk. destruct (i_par _ _ _ HI k i Hk Hp) as (Hlt & _).
      assert (live (hp h k) = false) as Lk by (apply IH; pose proof (inv_lt _ _ _ _ HI Hk); lia).
      rewrite (i_live _ _ _ HI), Hk in Lk. discriminate. }
  intros i. apply (G (hn h - i)%nat). lia.
Qed.
Print Assumptions C04_no_leak.

(** A buffer, a string parsed out of it, a view of that; the first two are freed
    while the last is still read; then it goes and everything goes. *)
Definition demo : list hop :=
  [HNew; HOp 0 (OPutString true (bs "key")); HOp 0 (OPutInt true 1 7); HFroms 0; HFromb 1;
   HOp 0 (OPut true [9]); HFree 0; HFree 1].
Example C04_demo_ok : hist_ok (demo ++ [HFree 2]).
Proof.
  unfold hist_ok, demo.
  repeat (cbn [app hist_from]; split; [|split]; 
    [cbn [hop_ok op_ok keeps_limit]; splits; try exact I; try lia; unfold is_bytes, is_byte; repeat constructor; try lia; try (intros; discriminate)
    |vm_compute; auto
    |match goal with |- match ?x with _ => _ end => let y := eval vm_compute in x in change x with y; cbv iota beta end]).
  exact I.
Qed.
Example C04_demo_runs : exists h, hrun heap0 demo = HRet true h /\
  map (fun i => live (hp h i)) [0;1;2]%nat = [true; true; true] /\
  map (fun i => held (hp h i)) [0;1;2]%nat = [false; false; true] /\ readable h 2 = Some (bs "key").
Proof. eexists. split; [vm_compute; reflexivity|]. vm_compute. auto. Qed.
Example C04_demo_end : exists h, hrun heap0 (demo ++ [HFree 2]) = HRet true h /\
  map (fun i => live (hp h i)) [0;1;2]%nat = [false; false; false].
Proof. eexists. split; [vm_compute; reflexivity|]. vm_compute. auto. Qed.
