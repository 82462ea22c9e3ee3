From Verif Require Import Base AtomicioModel AtomicioSpec.

Lemma addrs_length : forall n b, length (addrs b n) = n.
Proof. induction n as [|n IH]; intros b; [reflexivity|]. cbn. now rewrite IH. Qed.
Lemma skipn_addrs : forall k n b, (k <= n)%nat -> skipn k (addrs b n) = addrs (b + Z.of_nat k) (n - k).
Proof.
  induction k as [|k IH]; intros n b H.
  - cbn [skipn]. rewrite Nat.sub_0_r. f_equal. lia.
  - destruct n as [|n]; [lia|]. cbn [addrs skipn]. rewrite IH by lia. f_equal; lia.
Qed.
Lemma firstn_addrs : forall k n b, (k <= n)%nat -> firstn k (addrs b n) = addrs b k.
Proof. induction k as [|k IH]; intros n b H; [reflexivity|]. destruct n as [|n]; [lia|]. cbn. now rewrite IH by lia. Qed.
Lemma seg_addrs_skip : forall b l k, 0 <= k <= l -> seg_addrs (b + k, l - k) = skipn (Z.to_nat k) (seg_addrs (b, l)).
Proof. intros b l k H. unfold seg_addrs. cbn [fst snd]. rewrite skipn_addrs by lia. f_equal; lia. Qed.
Lemma zlen_seg : forall sg, 0 <= snd sg -> zlen (seg_addrs sg) = snd sg.
Proof. intros [b l] H. unfold seg_addrs, zlen. rewrite addrs_length. cbn in *. lia. Qed.

Lemma iov_total_zlen : forall iov, Forall (fun sg => 0 <= snd sg) iov -> zlen (iov_addrs iov) = iov_total iov.
Proof.
  induction 1 as [|sg iov H _ IH]; [reflexivity|]. unfold iov_addrs in *. cbn [flat_map iov_total fold_right].
  rewrite zlen_app, IH, zlen_seg by assumption. reflexivity.
Qed.

Lemma skip_iov_spec : forall iov rem r' iov', Forall (fun sg => 0 <= snd sg) iov -> 0 <= rem <= iov_total iov ->
  skip_iov iov rem = (r', iov') ->
  Forall (fun sg => 0 <= snd sg) iov' /\ 0 <= r' <= rem /\
  skipn (Z.to_nat rem) (iov_addrs iov) = skipn (Z.to_nat r') (iov_addrs iov') /\ iov_total iov - rem = iov_total iov' - r' /\
  match iov' with [] => r' = 0 | (_, l) :: _ => r' < l end.
Proof.
  induction iov as [|[b l] iov IH]; intros rem r' iov' Hf Hr H.
  - cbn in *. injection H as <- <-. splits; auto; lia.
  - inversion Hf as [|? ? H0 Hf']; subst. cbn [snd] in H0. cbn [skip_iov] in H. cbn [iov_total fold_right snd] in Hr.
    fold (iov_total iov) in Hr. destruct (rem >=? l) eqn:E.
    + destruct (IH (rem - l) r' iov' Hf' ltac:(lia) H) as (A & B & C & D & F). splits; auto; try lia.
      * rewrite <- C. unfold iov_addrs. cbn [flat_map]. rewrite skipn_app.
        rewrite skipn_all2 by (unfold seg_addrs; rewrite addrs_length; cbn; lia). cbn [app]. f_equal.
        unfold seg_addrs. rewrite addrs_length. cbn [snd]. lia.
      * cbn [iov_total fold_right snd]. fold (iov_total iov). lia.
    + injection H as <- <-. splits; auto; lia.
Qed.

Notation OC := (@inl (list Z) act).
Notation OA := (@inr (list Z) act).

(** One induction step shared by both loops: the result for the rest of the
    request after the answers in [used0]. *)
Definition outcome_ok (rd has_cb : bool) (R : list Z) (pos : Z) (M : list Z) (A : list act) (evs : list answer) (o : outcome) : Prop :=
  match o with
  | Blocked M' A' =>
      M' = M ++ firstn (Z.to_nat (progress evs)) R /\ 0 <= progress evs < zlen R /\
      map seen A' = map seen A ++ expected rd has_cb R evs ++ [OC (skipn (Z.to_nat (progress evs)) R)]
  | Ret v en M' A' rest => exists used, evs = used ++ rest /\
      M' = M ++ firstn (Z.to_nat (progress used)) R /\ 0 <= progress used <= zlen R /\
      map seen A' = map seen A ++ expected rd has_cb R used /\
      ((v = pos + zlen R /\ progress used = zlen R) \/
       (v = pos + progress used /\ progress used < zlen R /\
         ((en = EPIPE /\ exists u e, used = u ++ [e] /\ an_res e = 0) \/
          (en = EINTR /\ has_cb = true /\ exists u e, used = u ++ [e] /\ an_cb e = true))) \/
       (v = 0 /\ progress used < zlen R /\ exists u e, used = u ++ [e] /\ hard_error e /\ en = an_errno e))
  end.

Lemma firstn_skipn_add : forall (R : list Z) a b, firstn a R ++ firstn b (skipn a R) = firstn (a + b) R.
Proof. induction R as [|x R IH]; intros a b; [now rewrite skipn_nil, !firstn_nil|]. destruct a as [|a]; [reflexivity|]. cbn. now rewrite IH. Qed.

Lemma progress_cons : forall e evs, progress (e :: evs) = (if an_res e =? -1 then 0 else an_res e) + progress evs.
Proof. reflexivity. Qed.

Lemma step_transient : forall (rd cb : bool) (R : list Z) (pos : Z) (M : list Z) (A A1 : list act) (e : answer) evs o, an_res e = -1 ->
  map seen A1 = map seen A ++ [OC R] ++ (if an_errno e =? EINTR then if cb then [OA (ACb 0)] else []
                                          else if an_errno e =? EAGAIN then [OA (APoll (negb rd))] else []) ->
  outcome_ok rd cb R pos M A1 evs o -> outcome_ok rd cb R pos M A (e :: evs) o.
Proof.
  intros rd cb R pos M A A1 e evs o He HA H. destruct o as [v en M' A' rest|M' A']; cbn [outcome_ok] in *.
  - destruct H as (used & H1 & H2 & H3 & H4 & H5). exists (e :: used). rewrite progress_cons. cbn [expected]. rewrite He in *.
    cbn [Z.eqb Pos.eqb] in *. rewrite Z.add_0_l. splits; auto.
    + cbn. now rewrite H1.
    + lia.
    + lia.
    + rewrite H4, HA, <- !app_assoc. cbn [app]. rewrite <- ?app_assoc. reflexivity.
    + destruct H5 as [H5 | [(a & b & H5) | (a & b & u & x & H5 & c)]]; [now left| |].
      * right; left. splits; auto. destruct H5 as [(c & u & x & d & f) | (c & c' & u & x & d & f)]; [left | right]; splits; auto; exists (e :: u), x; cbn; now rewrite d.
      * right; right. splits; auto. exists (e :: u), x. cbn. now rewrite H5.
  - rewrite progress_cons. cbn [expected]. rewrite He in *. cbn [Z.eqb Pos.eqb] in *. rewrite Z.add_0_l. destruct H as (H1 & H2 & H3). splits; auto; try lia.
    rewrite H3, HA, <- !app_assoc. cbn [app]. rewrite <- ?app_assoc. reflexivity.
Qed.

Lemma step_progress : forall (rd cb : bool) (R : list Z) (pos : Z) (M : list Z) (A A1 : list act) (e : answer) evs o, 0 < an_res e <= zlen R ->
  map seen A1 = map seen A ++ [OC R] ++ (if cb then [OA (ACb (an_res e))] else []) ->
  outcome_ok rd cb (skipn (Z.to_nat (an_res e)) R) (pos + an_res e) (M ++ firstn (Z.to_nat (an_res e)) R) A1 evs o ->
  outcome_ok rd cb R pos M A (e :: evs) o.
Proof.
  intros rd cb R pos M A A1 e evs o He HA H.
  assert (L : zlen (skipn (Z.to_nat (an_res e)) R) = zlen R - an_res e) by (change (skipn (Z.to_nat (an_res e)) R) with (zdrop (an_res e) R); apply zlen_zdrop; lia).
  assert (N : (an_res e =? -1) = false) by lia. assert (N0 : (an_res e =? 0) = false) by lia.
  destruct o as [v en M' A' rest|M' A']; cbn [outcome_ok] in *; rewrite L in H.
  - destruct H as (used & H1 & H2 & H3 & H4 & H5). exists (e :: used). rewrite progress_cons. cbn [expected]. rewrite N, N0. splits; try lia.
    + cbn. now rewrite H1.
    + rewrite H2, <- app_assoc, firstn_skipn_add. do 2 f_equal. lia.
    + rewrite H4, HA, <- !app_assoc. cbn [app]. rewrite <- ?app_assoc. reflexivity.
    + destruct H5 as [(a & b) | [(a & b & H5) | (a & b & u & x & H5 & c)]]; [left; lia| |].
      * right; left. splits; try lia. destruct H5 as [(c & u & x & d & f) | (c & c' & u & x & d & f)]; [left | right]; splits; auto; exists (e :: u), x; cbn; now rewrite d.
      * right; right. splits; auto; try lia. exists (e :: u), x. cbn. now rewrite H5.
  - rewrite progress_cons. cbn [expected]. rewrite N, N0. destruct H as (H1 & H2 & H3). splits; try lia.
    + rewrite H1, <- app_assoc, firstn_skipn_add. do 2 f_equal. lia.
    + rewrite H3, HA, <- !app_assoc. cbn [app]. rewrite <- ?app_assoc. change (skipn (Z.to_nat (progress evs)) (skipn (Z.to_nat (an_res e)) R)) with (zdrop (progress evs) (zdrop (an_res e) R)). rewrite zdrop_zdrop by lia. unfold zdrop. rewrite Z.add_comm. reflexivity.
Qed.

Lemma step_done : forall (rd cb : bool) (R : list Z) (pos : Z) (M : list Z) (A A1 : list act) e evs v en,
  (an_res e = 0 /\ v = pos /\ en = EPIPE /\ 0 < zlen R /\ map seen A1 = map seen A ++ [OC R] \/
   hard_error e /\ v = 0 /\ en = an_errno e /\ 0 < zlen R /\ map seen A1 = map seen A ++ [OC R] \/
   an_res e = -1 /\ an_errno e = EINTR /\ v = pos /\ en = EINTR /\ cb = true /\ an_cb e = true /\ 0 < zlen R /\ map seen A1 = map seen A ++ [OC R; OA (ACb 0)]) ->
  outcome_ok rd cb R pos M A (e :: evs) (Ret v en M A1 evs).
Proof.
  intros rd cb R pos M A A1 e evs v en H. cbn [outcome_ok]. exists [e]. rewrite progress_cons. cbn [progress fold_right expected]. fold (progress []).
  destruct H as [(a & -> & -> & c & d) | [((a & a' & a'') & -> & -> & c & d) | (a & a' & -> & -> & -> & b & c & d)]]; rewrite a in *; cbn [Z.eqb Pos.eqb] in *.
  - splits; try reflexivity; try lia; [now rewrite app_nil_r|cbn [app]; exact d|]. right. left. splits; try lia. left. split; [reflexivity|]. now exists [], e.
  - replace (an_errno e =? EINTR) with false by lia. replace (an_errno e =? EAGAIN) with false by lia.
    splits; try reflexivity; try lia; [now rewrite app_nil_r|cbn [app]; exact d|]. right. right. splits; try lia. exists [], e. splits; auto. unfold hard_error. auto.
  - rewrite a'. change (EINTR =? EINTR) with true. cbn iota.
    splits; try reflexivity; try lia; [now rewrite app_nil_r|cbn [app]; exact d|]. right. left. splits; try lia. right. splits; auto. now exists [], e.
Qed.

Lemma step_stop : forall (rd : bool) (R : list Z) (pos : Z) (M : list Z) (A A1 : list act) e evs, 0 < an_res e <= zlen R -> an_cb e = true ->
  map seen A1 = map seen A ++ [OC R; OA (ACb (an_res e))] ->
  outcome_ok rd true R pos M A (e :: evs) (Ret (pos + an_res e) EINTR (M ++ firstn (Z.to_nat (an_res e)) R) A1 evs).
Proof.
  intros rd R pos M A A1 e evs He Hc HA. cbn [outcome_ok]. exists [e]. rewrite progress_cons. cbn [progress fold_right expected]. fold (progress []).
  replace (an_res e =? -1) with false by lia. replace (an_res e =? 0) with false by lia. rewrite Z.add_0_r.
  splits; try reflexivity; try lia; auto. destruct (Z.eq_dec (an_res e) (zlen R)) as [K|K]; [left; lia|].
  right. left. splits; try lia. right. splits; auto. now exists [], e.
Qed.

Lemma seen_app1 : forall A x, map seen (A ++ [x]) = map seen A ++ [seen x].
Proof. intros A x. now rewrite map_app. Qed.

Lemma iov_addrs_1 : forall sg, iov_addrs [sg] = seg_addrs sg.
Proof. intros sg. unfold iov_addrs. cbn. apply app_nil_r. Qed.

Lemma atomicio6_ok : forall rd cb evs s n pos en M A, 0 <= pos <= n -> n < U64 -> legal (n - pos) evs ->
  outcome_ok rd cb (seg_addrs (s + pos, n - pos)) pos M A evs (atomicio6 rd cb evs s n pos en M A).
Proof.
  intros rd cb. induction evs as [|e evs IH]; intros s n pos en M A Hp Hn Hl;
    assert (ZL : zlen (seg_addrs (s + pos, n - pos)) = n - pos) by (rewrite zlen_seg; [reflexivity|cbn; lia]).
  - cbn [atomicio6]. destruct (n >? pos) eqn:E; cbn [outcome_ok].
    + cbn [progress fold_right expected app]. rewrite ?ZL. split; [cbn; now rewrite app_nil_r|]. split; [lia|]. rewrite seen_app1. cbn [seen]. now rewrite iov_addrs_1.
    + exists []. cbn [progress fold_right expected app]. rewrite !app_nil_r, ZL. splits; try lia; try reflexivity; try (left; lia).
  - cbn [atomicio6]. destruct (n >? pos) eqn:E.
    2:{ exists []. cbn [progress fold_right expected app]. rewrite !app_nil_r, ZL. splits; try lia; try reflexivity; try (left; lia). }
    cbn [legal] in Hl. destruct Hl as (Hr & Hl). cbn zeta.
    assert (S1 : map seen (A ++ [ACall [(s + pos, n - pos)]]) = map seen A ++ [OC (seg_addrs (s + pos, n - pos))]) by (rewrite seen_app1; cbn [seen]; now rewrite iov_addrs_1).
    destruct (an_res e =? -1) eqn:E1.
    + assert (R1 : an_res e = -1) by lia. destruct (an_errno e =? EINTR) eqn:E2.
      * destruct cb eqn:Ecb.
        -- destruct (an_cb e) eqn:E3.
           ++ apply step_done. right. right. rewrite seen_app1, S1, <- app_assoc. cbn [app seen]. splits; auto; lia.
           ++ eapply step_transient; [exact R1| |apply IH; assumption]. rewrite E2. rewrite seen_app1, S1, <- app_assoc. reflexivity.
        -- eapply step_transient; [exact R1| |apply IH; assumption]. rewrite E2, S1. cbn [app]. reflexivity.
      * destruct (an_errno e =? EAGAIN) eqn:E4.
        -- eapply step_transient; [exact R1| |apply IH; assumption]. rewrite E2, E4. rewrite seen_app1, S1, <- app_assoc. reflexivity.
        -- apply step_done. right. left. unfold hard_error. splits; auto; lia.
    + destruct (an_res e =? 0) eqn:E2.
      * apply step_done. left. splits; auto; lia.
      * assert (R0 : 0 < an_res e <= zlen (seg_addrs (s + pos, n - pos))) by lia.
        rewrite iov_addrs_1 with (sg := (s + pos, n - pos)) in * || idtac.
        assert (FM : flat_map seg_addrs [(s + pos, n - pos)] = seg_addrs (s + pos, n - pos)) by apply iov_addrs_1. rewrite FM.
        rewrite u64_id by (unfold U64 in *; lia).
        assert (SK : skipn (Z.to_nat (an_res e)) (seg_addrs (s + pos, n - pos)) = seg_addrs (s + (pos + an_res e), n - (pos + an_res e))).
        { rewrite <- seg_addrs_skip by lia. f_equal. f_equal; lia. }
        assert (Hl' : legal (n - (pos + an_res e)) evs) by (replace (n - (pos + an_res e)) with (n - pos - an_res e) by lia; exact Hl).
        destruct cb eqn:Ecb.
        -- destruct (an_cb e) eqn:E3.
           ++ apply step_stop; auto. rewrite seen_app1, S1, <- app_assoc. reflexivity.
           ++ eapply step_progress; [exact R0| |rewrite SK; apply IH; auto; lia]. rewrite seen_app1, S1, <- app_assoc. reflexivity.
        -- eapply step_progress; [exact R0| |rewrite SK; apply IH; auto; lia]. rewrite S1. reflexivity.
Qed.

Definition head_ok (iov : list (Z * Z)) : Prop := match iov with [] => True | (_, l) :: _ => 0 < l end.

Lemma atomiciov_loop_ok : forall rd cb evs iov pos en M A, Forall (fun sg => 0 <= snd sg) iov -> head_ok iov -> 0 <= pos ->
  pos + iov_total iov < U64 -> legal (iov_total iov) evs ->
  outcome_ok rd cb (iov_addrs iov) pos M A evs (atomiciov_loop rd cb evs iov pos en M A).
Proof.
  intros rd cb. induction evs as [|e evs IH]; intros iov pos en M A Hf Hh Hp Hn Hl;
    pose proof (iov_total_zlen iov Hf) as ZL.
  - cbn [atomiciov_loop]. destruct iov as [|[b l] iov].
    + exists []. cbn. rewrite !app_nil_r. splits; try lia; try reflexivity; try (left; lia).
    + cbn in Hh. replace (l >? 0) with true by lia. cbn [outcome_ok progress fold_right expected app].
      split; [cbn; now rewrite app_nil_r|]. split.
      * rewrite ZL. cbn. inversion Hf as [|? ? K1 K2]; subst. cbn in K1. pose proof (iov_total_zlen _ K2). pose proof (zlen_nonneg _ (iov_addrs iov)). unfold iov_total in *. lia.
      * now rewrite seen_app1.
  - destruct iov as [|[b0 l0] iov0] eqn:Eiov.
    { cbn [atomiciov_loop]. exists []. cbn. rewrite !app_nil_r. splits; try lia; try reflexivity; try (left; lia). }
    cbn in Hh. cbn [atomiciov_loop]. replace (l0 >? 0) with true by lia. rewrite <- Eiov in *. cbn zeta.
    assert (POS : 0 < iov_total iov).
    { rewrite Eiov in *. inversion Hf as [|? ? K1 K2]; subst. cbn in K1. pose proof (iov_total_zlen _ K2). pose proof (zlen_nonneg _ (iov_addrs iov0)). cbn. unfold iov_total in *. lia. }
    cbn [legal] in Hl. destruct Hl as (Hr & Hl).
    assert (S1 : map seen (A ++ [ACall iov]) = map seen A ++ [OC (iov_addrs iov)]) by (now rewrite seen_app1).
    assert (Hh' : head_ok iov) by (rewrite Eiov; exact Hh).
    destruct (an_res e =? -1) eqn:E1.
    + assert (R1 : an_res e = -1) by lia. destruct (an_errno e =? EINTR) eqn:E2.
      * destruct cb eqn:Ecb.
        -- destruct (an_cb e) eqn:E3.
           ++ apply step_done. right. right. rewrite seen_app1, S1, <- app_assoc. cbn [app seen]. splits; auto; lia.
           ++ eapply step_transient; [exact R1| |apply IH; assumption]. rewrite E2. rewrite seen_app1, S1, <- app_assoc. reflexivity.
        -- eapply step_transient; [exact R1| |apply IH; assumption]. rewrite E2, S1. cbn [app]. reflexivity.
      * destruct (an_errno e =? EAGAIN) eqn:E4.
        -- eapply step_transient; [exact R1| |apply IH; assumption]. rewrite E2, E4. rewrite seen_app1, S1, <- app_assoc. reflexivity.
        -- apply step_done. right. left. unfold hard_error. splits; auto; lia.
    + destruct (an_res e =? 0) eqn:E2.
      * apply step_done. left. splits; auto; lia.
      * assert (R0 : 0 < an_res e <= zlen (iov_addrs iov)) by lia.
        change (flat_map seg_addrs iov) with (iov_addrs iov).
        rewrite u64_id by (unfold U64 in *; lia).
        destruct (skip_iov iov (an_res e)) as [rem iov1] eqn:Esk.
        destruct (skip_iov_spec iov (an_res e) rem iov1 Hf ltac:(lia) Esk) as (K1 & K2 & K3 & K4 & K5).
        replace ((rem >? 0) && match iov1 with [] => true | (_, l1) :: _ => rem >? l1 end) with false.
        2:{ destruct iov1 as [|[b1 l1] iov1]; destruct (rem >? 0) eqn:Z1; cbn; auto; lia. }
        set (iov2 := match iov1 with [] => [] | (b1, l1) :: t => (b1 + rem, l1 - rem) :: t end).
        assert (SK : skipn (Z.to_nat (an_res e)) (iov_addrs iov) = iov_addrs iov2).
        { rewrite K3. unfold iov2. destruct iov1 as [|[b1 l1] t]; [rewrite K5; reflexivity|].
          unfold iov_addrs. cbn [flat_map]. rewrite seg_addrs_skip by lia. rewrite skipn_app. f_equal.
          replace (Z.to_nat rem - length (seg_addrs (b1, l1)))%nat with 0%nat by (unfold seg_addrs; rewrite addrs_length; cbn; lia). reflexivity. }
        assert (T2 : iov_total iov2 = iov_total iov - an_res e).
        { unfold iov2. destruct iov1 as [|[b1 l1] t]; [cbn in *; lia|]. cbn [iov_total fold_right snd] in *. lia. }
        assert (F2 : Forall (fun sg => 0 <= snd sg) iov2).
        { unfold iov2. destruct iov1 as [|[b1 l1] t]; [constructor|]. inversion K1; subst. constructor; auto. cbn in *. lia. }
        assert (H2 : head_ok iov2) by (unfold iov2; destruct iov1 as [|[b1 l1] t]; cbn; [exact I|lia]).
        assert (Hl' : legal (iov_total iov2) evs) by (rewrite T2; exact Hl).
        destruct cb eqn:Ecb.
        -- destruct (an_cb e) eqn:E3.
           ++ apply step_stop; auto. rewrite seen_app1, S1, <- app_assoc. reflexivity.
           ++ eapply step_progress; [exact R0| |rewrite SK; apply IH; auto; lia]. rewrite seen_app1, S1, <- app_assoc. reflexivity.
        -- eapply step_progress; [exact R0| |rewrite SK; apply IH; auto; lia]. rewrite S1. reflexivity.
Qed.
