(** Properties C01, C02, C03 of struct sshbuf. *)
From Coq Require Import String.
From Verif Require Import Base SshbufModel SshbufSpec SshbufProof.

(** C01.  Every safe history of calls, on a new buffer or on a view of memory,
    runs to the end and its results and contents are those of a bounded byte
    queue ([qstep] says what each call does to the queue; in particular a failed
    call leaves it unchanged, but for the documented allocation failure of the
    copying getters). *)
Theorem C01_queue : forall b0 l, start b0 -> safe_history l ->
  exists rs b, run_ops l b0 = Some (rs, b) /\ qrun l (queue_of b0) rs (queue_of b).
Proof.
  intros b0 l H Hl. destruct (start_history l b0 H Hl) as (rs & b & E & _ & Q & _). eauto.
Qed.
Print Assumptions C01_queue.

(** What was written is what was read followed by what is still there. *)
Theorem C01_fifo : forall l rs b, Forall op_ok l -> Forall fifo_op l ->
  run_ops l sshbuf_new = Some (rs, b) ->
  flow wrote l rs = flow took l rs ++ contents b.
Proof.
  intros l rs b Ho Hf E. exact (fifo_history l sshbuf_new rs b wf_new Ho Hf E).
Qed.
Print Assumptions C01_fifo.

Example C01_meets :
  safe_history [OPutString true (bs "hello"); OSetMax true 300; OGetInt 2; OPut true [1;2;3];
                OConsume 3; OReserve true 400; OGet 2; OReset true; OLen].
Proof.
  split; [|left]; repeat apply Forall_cons; try apply Forall_nil; cbn [op_ok keeps_limit]; unfold SIZE_MAX, U64;
    splits; try exact I; try lia; unfold is_bytes, is_byte; repeat constructor; try lia; try (intros; discriminate).
Qed.
Example C01_fifo_case :
  let l := [OPut true (bs "abc"); OGet 1; OPutInt true 2 258; OGet 9; OGet 3] in
  exists rs b, run_ops l sshbuf_new = Some (rs, b) /\ flow took l rs = bs "abc" ++ [1] /\ contents b = [2].
Proof. eexists _, _. split; [vm_compute; reflexivity|]. split; reflexivity. Qed.

(** C02.  No safe history ends in a fault: no access outside the live
    allocation, no failed consistency check.  After it the readable range lies
    inside the allocation and the allocation inside the limit. *)
Theorem C02_memory_safe : forall b0 l, start b0 -> safe_history l ->
  exists rs b, run_ops l b0 = Some (rs, b) /\
    0 <= off b <= size b /\ size b <= alloc b /\ alloc b = zlen (dat b) /\
    alloc b <= max_size b <= 134217728.
Proof.
  intros b0 l H Hl. destruct (start_history l b0 H Hl) as (rs & b & E & [w1 w2 w3 w4 w5 w6] & _).
  exists rs, b. splits; auto; try lia. consts. lia.
Qed.
Print Assumptions C02_memory_safe.

(** The restriction in [safe_history] is needed.  Lowering the limit below 256
    and then resetting makes the next call abort the process. *)
Theorem C02_reset_small_limit_refuted :
  exists l, Forall op_ok l /\ run_ops l sshbuf_new = None.
Proof.
  exists [OSetMax true 10; OReset true; OLen]. split; [|reflexivity].
  repeat constructor; cbn; try lia; intros; discriminate.
Qed.
Print Assumptions C02_reset_small_limit_refuted.

(** C03.  In every state reached by a safe history from a new buffer the limit
    is the last one successfully set, the length does not exceed it, and
    appends, reservations, the reservation check and the reported free space
    agree exactly with it. *)
Theorem C03_limit_exact : forall l rs b, safe_history l -> run_ops l sshbuf_new = Some (rs, b) ->
  let len := zlen (contents b) in
  let lim := limit_after l rs 134217728 in
  len <= lim <= 134217728 /\
  (forall v, is_bytes v -> zlen v <= SIZE_MAX ->
     ((exists b', do_op (OPut true v) b = Ret (ROk VUnit) b') <-> len + zlen v <= lim)) /\
  (forall n, 0 <= n <= SIZE_MAX ->
     ((exists b', do_op (OReserve true n) b = Ret (ROk VUnit) b') <-> len + n <= lim)) /\
  (forall n, 0 <= n <= SIZE_MAX ->
     (do_op (OCheckReserve n) b = Ret (ROk VUnit) b <-> len + n <= lim)) /\
  do_op OAvail b = Ret (ROk (VInt (lim - len))) b.
Proof.
  intros l rs b Hl E.
  destruct (start_history l sshbuf_new (or_introl eq_refl) Hl) as (rs' & b' & E' & W & _ & S & M).
  rewrite E in E'. inversion E'; subst rs' b'. 
  pose proof (fits_iff b W S) as HF. rewrite M in HF. exact HF.
Qed.
Print Assumptions C03_limit_exact.

Example C03_case : exists rs b,
  run_ops [OSetMax true 300; OPut true (repeat 7 200); OConsume 150] sshbuf_new = Some (rs, b) /\
  zlen (contents b) = 50 /\ do_op OAvail b = Ret (ROk (VInt 250)) b.
Proof. eexists _, _. split; [vm_compute; reflexivity|]. split; reflexivity. Qed.
