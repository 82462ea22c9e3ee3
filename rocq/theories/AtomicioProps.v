(** C49: a full-transfer call moves exactly the requested bytes, in order,
    whatever partial transfers and interruptions happen. *)
From Verif Require Import Base AtomicioModel AtomicioSpec AtomicioProof.

Lemma outcome_result : forall rd cb R evs v en M A rest,
  outcome_ok rd cb R 0 [] [] evs (Ret v en M A rest) ->
  transfer_result cb R evs v en M rest /\
  exists used, evs = used ++ rest /\ map seen A = expected rd cb R used.
Proof.
  intros rd cb R evs v en M A rest (used & H1 & H2 & H3 & H4 & H5). cbn [app map] in *. split; [|now exists used].
  exists used. assert (L : zlen M = progress used) by (rewrite H2; change (firstn (Z.to_nat (progress used)) R) with (ztake (progress used) R); apply zlen_ztake; lia).
  splits; auto; try lia. destruct H5 as [(a & b) | [(a & b & c) | (a & b & c)]].
  - left. split; [lia|]. rewrite H2, b. apply ztake_all. lia.
  - right. left. rewrite L. splits; auto.
  - right. right. rewrite L. splits; auto.
Qed.

(** The scalar call: [n] bytes at address [s]. *)
Theorem C49_scalar : forall rd cb evs s n en0,
  0 <= n < U64 -> legal n evs ->
  match atomicio6 rd cb evs s n 0 en0 [] [] with
  | Ret v en moved acts rest =>
      transfer_result cb (addrs s (Z.to_nat n)) evs v en moved rest /\
      exists used, evs = used ++ rest /\ map seen acts = expected rd cb (addrs s (Z.to_nat n)) used
  | Blocked moved _ => moved = firstn (Z.to_nat (progress evs)) (addrs s (Z.to_nat n)) /\ progress evs < n
  end.
Proof.
  intros rd cb evs s n en0 Hn Hl.
  pose proof (atomicio6_ok rd cb evs s n 0 en0 [] [] ltac:(lia) ltac:(lia) ltac:(now rewrite Z.sub_0_r)) as H.
  rewrite Z.add_0_r, Z.sub_0_r in H. change (seg_addrs (s, n)) with (addrs s (Z.to_nat n)) in H.
  destruct (atomicio6 rd cb evs s n 0 en0 [] []) as [v en M A rest|M A]; [now apply outcome_result|].
  destruct H as (H1 & H2 & _). split; [exact H1|]. unfold zlen in H2. rewrite addrs_length in H2. lia.
Qed.
Print Assumptions C49_scalar.

(** The vector call.  The first entry must not be empty unless the whole request
    is: see [C49_empty_first_refuted]. *)
Theorem C49_vector : forall rd cb evs iov en0,
  iov_ok iov -> zlen iov <= IOV_MAX -> (forall b r, iov = (b, 0) :: r -> iov_addrs iov = []) ->
  legal (iov_total iov) evs ->
  match atomiciov6 rd cb evs iov (zlen iov) en0 with
  | Ret v en moved acts rest =>
      transfer_result cb (iov_addrs iov) evs v en moved rest /\
      exists used, evs = used ++ rest /\ map seen acts = expected rd cb (iov_addrs iov) used
  | Blocked moved _ => moved = firstn (Z.to_nat (progress evs)) (iov_addrs iov) /\ progress evs < iov_total iov
  end.
Proof.
  intros rd cb evs iov en0 (Hf & Ht) Hm H0 Hl. unfold atomiciov6. pose proof (zlen_nonneg _ iov).
  replace ((zlen iov <? 0) || (zlen iov >? IOV_MAX)) with false by lia.
  change (firstn (Z.to_nat (zlen iov)) iov) with (ztake (zlen iov) iov). rewrite ztake_all by lia.
  assert (D : head_ok iov \/ exists b r, iov = (b, 0) :: r).
  { destruct iov as [|[b l] r]; [now left|]. inversion Hf; subst. cbn in *. destruct (Z.eq_dec l 0) as [-> |N]; [right; eauto|left; cbn; lia]. }
  destruct D as [Hh|(b & r & ->)].
  - pose proof (atomiciov_loop_ok rd cb evs iov 0 en0 [] [] Hf Hh ltac:(lia) ltac:(lia) Hl) as K.
    destruct (atomiciov_loop rd cb evs iov 0 en0 [] []) as [v en M A rest|M A]; [now apply outcome_result|].
    destruct K as (K1 & K2 & _). split; [exact K1|]. rewrite (iov_total_zlen iov Hf) in K2. lia.
  - pose proof (H0 b r eq_refl) as E. cbn [atomiciov_loop Z.gtb Z.compare]. destruct evs as [|e evs].
    all: cbn [atomiciov_loop]; split; [|now exists []].
    all: rewrite E; exists []; cbn; splits; auto; lia.
Qed.
Print Assumptions C49_vector.

(** The requested count is returned only when exactly the requested bytes were
    moved, in order. *)
Theorem C49_exact : forall rd cb evs s n en0 en moved acts rest,
  0 <= n < U64 -> legal n evs ->
  atomicio6 rd cb evs s n 0 en0 [] [] = Ret n en moved acts rest -> moved = addrs s (Z.to_nat n).
Proof.
  intros rd cb evs s n en0 en moved acts rest Hn Hl E. pose proof (C49_scalar rd cb evs s n en0 Hn Hl) as H. rewrite E in H.
  destruct H as ((used & _ & _ & _ & H) & _). unfold zlen in H. rewrite addrs_length in H.
  destruct H as [(_ & H) | [(A & B & _) | (A & B & _)]]; auto; lia.
Qed.
Print Assumptions C49_exact.
Theorem C49_exact_vector : forall rd cb evs iov en0 en moved acts rest,
  iov_ok iov -> zlen iov <= IOV_MAX -> (forall b r, iov = (b, 0) :: r -> iov_addrs iov = []) -> legal (iov_total iov) evs ->
  atomiciov6 rd cb evs iov (zlen iov) en0 = Ret (iov_total iov) en moved acts rest -> moved = iov_addrs iov.
Proof.
  intros rd cb evs iov en0 en moved acts rest Hi Hm H0 Hl E. pose proof (C49_vector rd cb evs iov en0 Hi Hm H0 Hl) as H. rewrite E in H.
  destruct H as ((used & _ & _ & _ & H) & _). rewrite (iov_total_zlen iov (proj1 Hi)) in H. pose proof (zlen_nonneg _ moved).
  destruct H as [(_ & H) | [(A & B & _) | (A & B & _)]]; auto; lia.
Qed.
Print Assumptions C49_exact_vector.

(** Bytes: what a completed write puts on the descriptor is the request's memory;
    what a completed read stores is the data, and nothing else is touched. *)
Theorem C49_written : forall cb evs (mem : Z -> Z) s n en0 en moved acts rest,
  0 <= n < U64 -> legal n evs ->
  atomicio6 false cb evs s n 0 en0 [] [] = Ret n en moved acts rest ->
  zlen (written mem moved) = n /\
  forall i, 0 <= i < n -> nth (Z.to_nat i) (written mem moved) 0 = mem (s + i).
Proof.
  intros cb evs mem s n en0 en moved acts rest Hn Hl E. apply C49_exact in E; auto. subst moved. unfold written. split.
  - unfold zlen. rewrite map_length, addrs_length. lia.
  - assert (G : forall k b i, (i < k)%nat -> nth i (map mem (addrs b k)) 0 = mem (b + Z.of_nat i)).
    { induction k as [|k IH]; intros b i Hi; [lia|]. destruct i as [|i]; cbn [addrs map nth]; [f_equal; lia|]. rewrite IH by lia. f_equal. lia. }
    intros i Hi. rewrite G by lia. f_equal. lia.
Qed.
Print Assumptions C49_written.

Lemma stored_addrs : forall k b (mem : Z -> Z) data x, length data = k ->
  stored mem (addrs b k) data x = if (b <=? x) && (x <? b + Z.of_nat k) then nth (Z.to_nat (x - b)) data 0 else mem x.
Proof.
  induction k as [|k IH]; intros b mem data x Hd.
  - destruct data; [|discriminate]. cbn [addrs stored]. destruct (b <=? x) eqn:E1; destruct (x <? b + Z.of_nat 0) eqn:E2; cbn; auto. lia.
  - destruct data as [|d data]; [discriminate|]. cbn [addrs stored]. rewrite IH by (cbn in Hd; lia).
    destruct (x =? b) eqn:E.
    + replace (b + 1 <=? x) with false by lia. cbn [andb]. replace (b <=? x) with true by lia. replace (x <? b + Z.of_nat (S k)) with true by lia. cbn [andb].
      replace (x - b) with 0 by lia. reflexivity.
    + replace (b + 1 <=? x) with (b <=? x) by lia. replace (x <? b + 1 + Z.of_nat k) with (x <? b + Z.of_nat (S k)) by lia.
      destruct ((b <=? x) && (x <? b + Z.of_nat (S k))) eqn:B; auto. replace (Z.to_nat (x - b)) with (S (Z.to_nat (x - (b + 1)))) by lia. reflexivity.
Qed.

Theorem C49_stored : forall cb evs (mem : Z -> Z) s n en0 en moved acts rest data,
  0 <= n < U64 -> legal n evs ->
  atomicio6 true cb evs s n 0 en0 [] [] = Ret n en moved acts rest -> zlen data = n ->
  forall x, stored mem moved data x = if (s <=? x) && (x <? s + n) then nth (Z.to_nat (x - s)) data 0 else mem x.
Proof.
  intros cb evs mem s n en0 en moved acts rest data Hn Hl E Hd x. apply C49_exact in E; auto. subst moved.
  rewrite stored_addrs by (unfold zlen in Hd; lia). replace (Z.of_nat (Z.to_nat n)) with n by lia. reflexivity.
Qed.
Print Assumptions C49_stored.

(** Interruptions, "try again" and short counts never end a transfer early: if the
    answers contain nothing else, no callback objects and they add up to the
    request, the call returns the whole count. *)
Theorem C49_completes : forall rd cb evs s n en0,
  0 <= n < U64 -> legal n evs ->
  Forall (fun e => (transient e \/ 0 < an_res e) /\ (cb = true -> an_cb e = false)) evs -> progress evs = n ->
  exists en acts rest, atomicio6 rd cb evs s n 0 en0 [] [] = Ret n en (addrs s (Z.to_nat n)) acts rest.
Proof.
  intros rd cb evs s n en0 Hn Hl Hf Hp. pose proof (C49_scalar rd cb evs s n en0 Hn Hl) as H.
  destruct (atomicio6 rd cb evs s n 0 en0 [] []) as [v en M A rest|M A]; [|lia].
  destruct H as ((used & H1 & H2 & H3 & H4) & _). exists en, A, rest.
  assert (IN : forall u e, used = u ++ [e] -> In e evs) by (intros u e ->; rewrite H1; apply in_or_app; left; apply in_or_app; right; now left).
  rewrite Forall_forall in Hf. unfold zlen in H4. rewrite addrs_length in H4. replace (Z.of_nat (Z.to_nat n)) with n in H4 by lia.
  destruct H4 as [(-> & ->) | [(_ & _ & [(_ & u & e & K1 & K2) | (_ & K0 & u & e & K1 & K2)]) | (_ & _ & u & e & K1 & (K2 & K3 & K4) & _)]]; auto; exfalso;
    destruct (Hf e (IN u e K1)) as ([(T1 & T2)|T] & T3).
  all: try lia.
  all: rewrite (T3 K0) in K2; discriminate.
Qed.
Print Assumptions C49_completes.

(** Finding: the progress made before a hard error is not reported.  Half of the
    request is on the wire and the call returns 0 like a call that did nothing. *)
Theorem C49_error_hides_progress_refuted : exists evs s n en0 v en moved acts rest,
  0 <= n < U64 /\ legal n evs /\ atomicio false evs s n en0 = Ret v en moved acts rest /\ v <> zlen moved.
Proof.
  exists [mkAnswer 2 0 false; mkAnswer (-1) 5 false], 100, 4, 0, 0, 5, [100; 101],
    [ACall [(100, 4)]; ACall [(102, 2)]], [].
  splits; try (cbn; lia); reflexivity.
Qed.
Print Assumptions C49_error_hides_progress_refuted.

(** Finding: a vector whose first entry is empty is not sent at all; the call
    returns 0 with errno untouched and the kernel is never asked. *)
Theorem C49_empty_first_refuted : exists iov, iov_ok iov /\ iov_addrs iov <> [] /\
  forall rd cb evs en0, atomiciov6 rd cb evs iov (zlen iov) en0 = Ret 0 en0 [] [] evs.
Proof.
  exists [(100, 0); (200, 3)]. splits.
  - split; [repeat constructor; cbn; lia|cbn; unfold U64; lia].
  - discriminate.
  - intros rd cb evs en0. cbn. now destruct evs.
Qed.
Print Assumptions C49_empty_first_refuted.

(** A vector of more than IOV_MAX entries is refused without a call. *)
Theorem C49_too_many : forall rd cb evs iov en0, IOV_MAX < zlen iov ->
  atomiciov6 rd cb evs iov (zlen iov) en0 = Ret 0 EINVAL [] [] evs.
Proof. intros rd cb evs iov en0 H. unfold atomiciov6. now replace ((zlen iov <? 0) || (zlen iov >? IOV_MAX)) with true by lia. Qed.
Print Assumptions C49_too_many.

(** Non-vacuity: interrupted, asked to wait, short counts, then complete. *)
Example C49_example : let evs := [mkAnswer (-1) EINTR false; mkAnswer 2 0 false; mkAnswer (-1) EAGAIN false; mkAnswer 3 0 false] in
  legal 5 evs /\
  atomicio false evs 100 5 0 = Ret 5 EAGAIN [100; 101; 102; 103; 104]
    [ACall [(100, 5)]; ACall [(100, 5)]; ACall [(102, 3)]; APoll true; ACall [(102, 3)]] [].
Proof. split; [cbn; lia|reflexivity]. Qed.
Example C49_example_vector : let evs := [mkAnswer 4 0 false; mkAnswer (-1) EINTR false; mkAnswer 2 0 false] in
  let iov := [(10, 3); (50, 0); (20, 3)] in
  iov_ok iov /\ legal (iov_total iov) evs /\
  atomiciov false evs iov 3 0 = Ret 6 EINTR [10; 11; 12; 20; 21; 22]
    [ACall iov; ACall [(21, 2)]; ACall [(21, 2)]] [].
Proof. split; [split; [repeat constructor; cbn; lia|cbn; unfold U64; lia]|]. split; [cbn; lia|reflexivity]. Qed.
